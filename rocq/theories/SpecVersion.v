(** Specification vocabulary for the node-version properties (C19-C21): arbitrary
    clients of one version word, interleaved at the granularity of atomic accesses. *)
From Verif Require Import Base Prog Version VersionTry.

(** the word, and how many threads are between acquiring and releasing it *)
Record vmem := mk_vmem { word : N; inside : nat }.
Definition vrd (m : vmem) : option N := Some (word m).
Definition vwr (v : N) (m : vmem) : vmem := mk_vmem v (inside m).
Definition enter : prog vmem unit := atomic (fun m => Ok (tt, mk_vmem (word m) (inside m + 1))).
Definition leave : prog vmem unit := atomic (fun m => Ok (tt, mk_vmem (word m) (inside m - 1))).

(** what a client may do with a guard *)
Inductive gop := GInsert | GSplit | GDeleted | GNonroot.
Definition run_gop (g : gop) (lv : N) : prog vmem N :=
  match g with
  | GInsert => guard_mark_insert vrd vwr lv
  | GSplit => guard_mark_split vrd vwr lv
  | GDeleted => guard_mark_deleted vrd vwr lv
  | GNonroot => guard_mark_nonroot vrd vwr lv
  end.
Fixpoint run_gops (l : list gop) (lv : N) : prog vmem N :=
  match l with [] => Ret lv | g :: l => lv' <- run_gop g lv ;; run_gops l lv' end.
(** a critical section: counted while it lasts *)
Definition section (lv : N) (l : list gop) : prog vmem unit :=
  enter ;;; lv' <- run_gops l lv ;; leave ;;; guard_drop vrd vwr lv'.

(** what a client may do without a guard *)
Inductive vop :=
| VLock (l : list gop) | VTryLock (l : list gop) | VStable | VHasChanged (old : N) | VHasSplit (old : N)
| VMarkRoot | VMarkNonroot
| VLockYield (l : list gop) | VTryLockFor (attempts : nat) (l : list gop) | VHasChangedOrLocked (old : N).
Definition run_vop (F : nat) (o : vop) : prog vmem unit :=
  match o with
  | VLock l => lv <- ver_lock vrd vwr F ;; section lv l
  | VTryLock l => r <- ver_try_lock vrd vwr ;;
                  match r with Some lv => section lv l | None => Ret tt end
  | VStable => ver_stable vrd F ;;; Ret tt
  | VHasChanged old => ver_has_changed vrd old ;;; Ret tt
  | VHasSplit old => ver_has_split vrd old ;;; Ret tt
  | VMarkRoot => ver_mark_root vrd vwr
  | VMarkNonroot => ver_mark_nonroot vrd vwr
  | VLockYield l => lv <- ver_lock_with_yield vrd vwr F ;; section lv l
  | VTryLockFor n l => r <- ver_try_lock_for vrd vwr n ;;
                       match r with Some lv => section lv l | None => Ret tt end
  | VHasChangedOrLocked old => ver_has_changed_or_locked vrd old ;;; Ret tt
  end.
Fixpoint run_script (F : nat) (l : list vop) : prog vmem unit :=
  match l with [] => Ret tt | o :: l => run_vop F o ;;; run_script F l end.
(** the creator of a split sibling owns its lock from the start and gives it up with
    unlock_for_split *)
Definition run_creator (F : nat) (l : list vop) : prog vmem unit :=
  enter ;;; leave ;;; ver_unlock_for_split vrd vwr ;;; run_script F l.

Definition config := (vmem * list (prog vmem unit))%type.
(** a node as created by [new] (or any unlocked word), with arbitrary client threads *)
Definition start_unlocked (F : nat) (w : N) (scripts : list (list vop)) : config :=
  (mk_vmem w 0, map (run_script F) scripts).
(** a node as created by [new_for_split]; thread 0 is its creator *)
Definition start_split (F : nat) (src : N) (s0 : list vop) (scripts : list (list vop)) : config :=
  (mk_vmem (v_new_for_split src) 0, run_creator F s0 :: map (run_script F) scripts).
(** legal unlocked words: 32 bits, the unused bit clear, neither locked nor dirty *)
Definition unlocked_word (w : N) : Prop :=
  (w < 2 ^ 32)%N /\ N.testbit w 28 = false /\ N.testbit w 0 = false.
Inductive initial : config -> Prop :=
| init_unlocked F w scripts : unlocked_word w -> initial (start_unlocked F w scripts)
| init_split F src s0 scripts : initial (start_split F src s0 scripts).

Definition locked (c : config) : bool := N.testbit (word c.1) 0.
(** who acquired the lock last and has not released it, read off the execution *)
Fixpoint holder (own : option nat) (sched : list nat) (c : config) : option nat :=
  match sched with
  | [] => own
  | i :: s =>
      let c' := thread_step i c in
      holder (match locked c, locked c' with
              | false, true => Some i
              | true, false => None
              | _, _ => own
              end) s c'
  end.
Definition initial_holder (c : config) : option nat := if locked c then Some 0 else None.
(** number of critical sections completed during an execution *)
Fixpoint releases (sched : list nat) (c : config) : N :=
  match sched with
  | [] => 0
  | i :: s => let c' := thread_step i c in
              ((if locked c && negb (locked c') then 1 else 0) + releases s c')%N
  end.
(** those of them that were marked as a split when they ended *)
Fixpoint split_releases (sched : list nat) (c : config) : N :=
  match sched with
  | [] => 0
  | i :: s => let c' := thread_step i c in
              ((if locked c && negb (locked c') && N.testbit (word c.1) 2 then 1 else 0) + split_releases s c')%N
  end.

(** effect of one operation, run alone, on the two flags that are not transient (C21) *)
Definition gop_deletes (g : gop) : bool := match g with GDeleted => true | _ => false end.
Definition vop_deletes (o : vop) : bool :=
  match o with VLock l | VTryLock l | VLockYield l | VTryLockFor _ l => existsb gop_deletes l | _ => false end.
(** the root flag: set by mark_root, cleared by mark_nonroot and by every unlock that
    was marked as a split (a deletion is) *)
Definition gop_clears_root (g : gop) : bool := match g with GInsert => false | _ => true end.
Definition vop_root (r : bool) (o : vop) : bool :=
  match o with
  | VLock l | VTryLock l | VLockYield l | VTryLockFor _ l => r && negb (existsb gop_clears_root l)
  | VMarkRoot => true
  | VMarkNonroot => false
  | _ => r
  end.
