(** Specification vocabulary for the shared permutation of a leaf (C57). *)
From Verif Require Import Base Perm SpecPerm Prog Version Mem Tree Freeze.

(** ** calls *)
Inductive fop :=
| FRead                          (* permutation_try *)
| FWait                          (* permutation_wait *)
| FCas (expected new : N)        (* cas_permutation_raw *)
| FFreeze                        (* lock, mark_split, freeze_permutation *)
| FTryFreeze                     (* lock, mark_split, try_freeze_permutation *)
| FFinish (perm : N)             (* unfreeze_set_permutation, unlock *)
| FAbandon.                      (* the guard is dropped, unlock: what unwinding does *)
Inductive fans :=
| APerm (w : option N)           (* the permutation, or "frozen" *)
| APublished | AOther (w : N) | AFrozen   (* of a compare-and-swap *)
| ASnapshot (w : N)
| AAlready
| AUnit.
Inductive fevent := FCall (i : nat) (o : fop) | FRet (i : nat) (a : fans).

(** a thread holds at most one frozen leaf: the locked version word and the guard *)
Definition fheld : Type := option (N * fguard).
(** the call, for a thread that holds [g]; [None]: the call is not possible.  Without a guard
    there is nothing to finish; a thread that freezes again would wait for its own lock. *)
Definition f_call (F : nat) (p : N) (g : fheld) (o : fop) : option (P (fans * fheld)) :=
  match o, g with
  | FRead, _ => Some (r <- permutation_try p ;; Ret (APerm r, g))
  | FWait, _ => Some (r <- permutation_wait F p ;; Ret (APerm (Some r), g))
  | FCas e n, _ =>
      Some (r <- cas_permutation_raw p e n ;;
            Ret (match r with
                 | None => APublished
                 | Some raw => match as_permuter raw with Some w => AOther w | None => AFrozen end
                 end, g))
  | FFreeze, None =>
      Some (lv <- lock F p ;; lv <- mark_split p lv ;; s <- freeze_permutation F p ;;
            Ret (ASnapshot s, Some (lv, mk_fg s true)))
  | FTryFreeze, None =>
      Some (lv <- lock F p ;; lv <- mark_split p lv ;; s <- try_freeze_permutation F p ;;
            match s with
            | Some s => Ret (ASnapshot s, Some (lv, mk_fg s true))
            | None => unlock p lv ;;; Ret (AAlready, None)
            end)
  | FFinish w, Some (lv, fg) =>
      Some (unfreeze_set_permutation p fg w ;;; unlock p lv ;;; Ret (AUnit, None))
  | FAbandon, Some (lv, fg) => Some (fguard_drop p fg ;;; unlock p lv ;;; Ret (AUnit, None))
  | _, _ => None
  end.

(** ** executions: any number of threads share one leaf *)
Inductive fthread := FIdle (g : fheld) | FRun (pr : P (fans * fheld)).
Definition fsys : Type := mem * list (fthread * list fop).
Definition f_step (F : nat) (p : N) (i : nat) (c : fsys) : fsys * list fevent :=
  match c.2 !! i with
  | Some (FIdle g, o :: ops) =>
      match f_call F p g o with
      | Some pr => ((c.1, <[i := (FRun pr, ops)]> c.2), [FCall i o])
      | None => ((c.1, <[i := (FIdle g, ops)]> c.2), [])
      end
  | Some (FRun (Ret (a, g)), ops) => ((c.1, <[i := (FIdle g, ops)]> c.2), [FRet i a])
  | Some (FRun (Step f k), ops) =>
      match f c.1 with
      | Ok (r, m) => ((m, <[i := (FRun (k r), ops)]> c.2), [])
      | Er e => ((c.1, <[i := (FRun (Fail e), ops)]> c.2), [])
      end
  | _ => (c, [])
  end.
Fixpoint f_run (F : nat) (p : N) (sched : list nat) (c : fsys) : fsys * list fevent :=
  match sched with
  | [] => (c, [])
  | i :: sched =>
      let '(c, h) := f_step F p i c in
      let '(c, h') := f_run F p sched c in
      (c, h ++ h')
  end.
Definition f_start (m : mem) (scripts : list (list fop)) : fsys := (m, map (fun ops => (FIdle None, ops)) scripts).
Definition f_failed (c : fsys) (i : nat) (e : err) : Prop := exists ops, c.2 !! i = Some (FRun (Fail e), ops).
(** words that are permutations *)
Definition fop_ok (o : fop) : Prop :=
  match o with FCas e n => is_permutation P24 e /\ is_permutation P24 n | FFinish w => is_permutation P24 w | _ => True end.
(** the leaf's permutation word *)
Definition word_at (m : mem) (p : N) : option N :=
  match heap m !! p with Some (NLeaf l) => Some (l_perm l) | _ => None end.
(** a leaf that nobody has locked *)
Definition free_leaf (m : mem) (p w : N) : Prop := exists l, heap m !! p = Some (NLeaf l) /\ l_perm l = w /\
  (l_ver l < 2 ^ 32)%N /\ N.testbit (l_ver l) 28 = false /\ v_can_lock (l_ver l) = true.

(** ** the object the threads should see: a permutation that may be frozen *)
Inductive word_step : N * bool -> fop -> fans -> N * bool -> Prop :=
| ws_read w : word_step (w, false) FRead (APerm (Some w)) (w, false)
| ws_read_frozen w : word_step (w, true) FRead (APerm None) (w, true)
| ws_wait w : word_step (w, false) FWait (APerm (Some w)) (w, false)
| ws_publish w n : word_step (w, false) (FCas w n) APublished (n, false)
| ws_other w e n : w <> e -> word_step (w, false) (FCas e n) (AOther w) (w, false)
| ws_frozen w e n : word_step (w, true) (FCas e n) AFrozen (w, true)
| ws_freeze w : word_step (w, false) FFreeze (ASnapshot w) (w, true)
| ws_try_freeze w : word_step (w, false) FTryFreeze (ASnapshot w) (w, true)
| ws_finish w n : word_step (w, true) (FFinish n) AUnit (n, false)
| ws_abandon w : word_step (w, true) FAbandon AUnit (w, false).
(** each call takes effect at one moment between its start and its return *)
Inductive fstatus := FNone | FPending (o : fop) | FDone (a : fans).
Inductive faction := FEv (e : fevent) | FEffect (i : nat).
Definition f_visible (acts : list faction) : list fevent := omap (fun a => match a with FEv e => Some e | _ => None end) acts.
Inductive f_atomic (s0 : N * bool) (n : nat) : list faction -> N * bool -> list fstatus -> Prop :=
| fa_start : f_atomic s0 n [] s0 (replicate n FNone)
| fa_call acts s st i o : f_atomic s0 n acts s st -> st !! i = Some FNone ->
    f_atomic s0 n (acts ++ [FEv (FCall i o)]) s (<[i := FPending o]> st)
| fa_effect acts s st i o a s' : f_atomic s0 n acts s st -> st !! i = Some (FPending o) -> word_step s o a s' ->
    f_atomic s0 n (acts ++ [FEffect i]) s' (<[i := FDone a]> st)
| fa_return acts s st i a : f_atomic s0 n acts s st -> st !! i = Some (FDone a) ->
    f_atomic s0 n (acts ++ [FEv (FRet i a)]) s (<[i := FNone]> st).
Definition f_atomically (s0 : N * bool) (n : nat) (h : list fevent) (s : N * bool) : Prop :=
  exists acts st, f_atomic s0 n acts s st /\ f_visible acts = h.
