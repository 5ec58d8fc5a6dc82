(** Specification vocabulary for explicit guards (C46): threads that hold a guard across
    several calls, and the references that [get_ref] gives them. *)
From Verif Require Import Base Key Prog Version Mem Tree SpecTree SpecLin SpecConc.

(** generic.rs:488-491 get_ref with the reference itself in the result: the address, and
    what was there when the call answered *)
Definition get_ref_at (F : nat) (kb : bytes) : P (option (N * N)) :=
  match key_new kb with
  | None => Fail Panic
  | Some k =>
      r <- load_root ;;
      o <- get_ref_loop F F k (GLayer r) ;;
      match o with
      | Some h => v <- output_from_raw h ;; Ret (Some (h, v))
      | None => Ret None
      end
  end.
(** a call's answer, and the reference the caller got *)
Definition gcall (F : nat) (o : op) : P (ans * option (N * N)) :=
  match o with
  | GetRef k => x <- get_ref_at F k ;; Ret (AGet (snd <$> x), x)
  | _ => a <- call insert F o ;; Ret (a, None)
  end.

(** ** threads with guards *)
Inductive gstate := GIdle | GRun (p : P (ans * option (N * N))).
(** [gt_pin]: the thread holds a guard of its own (generic.rs:154-156 guard; it may hold
    several, which then act as one until the last is dropped: seize counts a thread's
    guards); [gt_refs]: the references it got under that guard, with the contents they had *)
Record gthread := mk_gt { gt_st : gstate; gt_ops : list op; gt_pin : bool; gt_refs : list (N * N) }.
Record gsys := mk_gsys { g_mem : mem; g_thr : list gthread; g_blk : list (list nat); g_fault : bool; g_time : N }.
(** thread [i] proceeds (in a call, or by making or answering one); between two calls it
    takes a guard or drops it; the collector frees the [j]-th retired object if it may *)
Inductive gact := GThread (i : nat) | GPin (i : nat) | GUnpin (i : nat) | GCollect (j : nat).

(** the threads with a guard: their own, or that of the call they are in *)
Definition g_holds (t : gthread) : bool := gt_pin t || match gt_st t with GRun _ => true | GIdle => false end.
Definition g_holders (thr : list gthread) : list nat :=
  List.filter (fun j => match thr !! j with Some t => g_holds t | None => false end) (seq 0 (length thr)).
Definition opt_list {A} (x : option A) : list A := match x with Some a => [a] | None => [] end.

Definition g_step (F : nat) (a : gact) (g : gsys) : gsys * list (N * event) :=
  let same := mk_gsys (g_mem g) (g_thr g) (g_blk g) (g_fault g) (g_time g + 1) in
  match a with
  | GThread i =>
      match g_thr g !! i with
      | Some t =>
          match gt_st t, gt_ops t with
          | GIdle, o :: ops =>
              (mk_gsys (g_mem g) (<[i := mk_gt (GRun (gcall F o)) ops (gt_pin t) (gt_refs t)]> (g_thr g))
                 (g_blk g) (g_fault g) (g_time g + 1), [(g_time g, ECall i o)])
          | GRun (Ret (a, x)), ops =>
              (* the guard of the call ends with it; under its own guard the thread keeps the reference *)
              (mk_gsys (g_mem g)
                 (<[i := mk_gt GIdle ops (gt_pin t) (if gt_pin t then opt_list x ++ gt_refs t else gt_refs t)]> (g_thr g))
                 (if gt_pin t then g_blk g else map (without i) (g_blk g)) (g_fault g) (g_time g + 1),
               [(g_time g, ERet i a)])
          | GRun (Step f k), ops =>
              match f (g_mem g) with
              | Ok (r, m) =>
                  (mk_gsys m (<[i := mk_gt (GRun (k r)) ops (gt_pin t) (gt_refs t)]> (g_thr g))
                     (replicate (length (retired m) - length (g_blk g)) (g_holders (g_thr g)) ++ g_blk g)
                     (g_fault g) (g_time g + 1), [])
              | Er e =>
                  (mk_gsys (g_mem g) (<[i := mk_gt (GRun (Fail e)) ops (gt_pin t) (gt_refs t)]> (g_thr g))
                     (g_blk g) (g_fault g) (g_time g + 1), [])
              end
          | _, _ => (same, [])
          end
      | None => (same, [])
      end
  | GPin i =>
      match g_thr g !! i with
      | Some (mk_gt GIdle ops _ refs) =>
          (mk_gsys (g_mem g) (<[i := mk_gt GIdle ops true refs]> (g_thr g)) (g_blk g) (g_fault g) (g_time g + 1), [])
      | _ => (same, [])
      end
  | GUnpin i =>
      match g_thr g !! i with
      | Some (mk_gt GIdle ops _ _) =>
          (mk_gsys (g_mem g) (<[i := mk_gt GIdle ops false []]> (g_thr g)) (map (without i) (g_blk g)) (g_fault g) (g_time g + 1), [])
      | _ => (same, [])
      end
  | GCollect j =>
      match retired (g_mem g) !! j, g_blk g !! j with
      | Some x, Some [] =>
          match reclaim1 x (mwith_retired (delete j (retired (g_mem g))) (g_mem g)) with
          | Ok m => (mk_gsys m (g_thr g) (delete j (g_blk g)) (g_fault g) (g_time g + 1), [])
          | Er _ => (mk_gsys (g_mem g) (g_thr g) (g_blk g) true (g_time g + 1), [])
          end
      | _, _ => (same, [])
      end
  end.
Fixpoint g_run (F : nat) (acts : list gact) (g : gsys) : gsys * list (N * event) :=
  match acts with
  | [] => (g, [])
  | a :: acts => let '(g, h) := g_step F a g in
                 let '(g, h') := g_run F acts g in (g, h ++ h')
  end.
Definition g_start (scripts : list (list op)) : gsys :=
  mk_gsys tree_new (map (fun ops => mk_gt GIdle ops false []) scripts) [] false 0.
(** all calls have returned; all guards have been dropped *)
Definition g_quiet (g : gsys) : Prop := forall i t, g_thr g !! i = Some t -> gt_st t = GIdle.
Definition g_unpinned (g : gsys) : Prop := forall i t, g_thr g !! i = Some t -> gt_pin t = false.
Definition g_failed (g : gsys) (i : nat) (e : err) : Prop :=
  exists t, g_thr g !! i = Some t /\ gt_st t = GRun (Fail e).
