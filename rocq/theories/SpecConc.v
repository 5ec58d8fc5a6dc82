(** Specification vocabulary for concurrent executions on the whole tree (C38-C45).
    Threads perform sequences of calls, a schedule interleaves their atomic accesses, and a
    collector may free a retired value as soon as every call that was under way when it was
    retired has returned. *)
From Verif Require Import Base Perm SpecKey Suffix Prog Version Mem Tree SpecTree SpecLin.

(** [c_thr]: the threads (SpecLin.v); [c_blk]: for each retired object (in the order of
    [retired]) the calls it has to outlive; [c_fault]: the collector freed something that
    was not there; [c_time]: actions so far *)
Record csys := mk_csys { c_mem : mem; c_thr : list (tstate * list op); c_blk : list (list nat);
  c_fault : bool; c_time : N }.
(** thread [i] proceeds, or the collector frees the [j]-th retired object if it may *)
Inductive act := Thread (i : nat) | Collect (j : nat).

(** the threads inside a call: each holds a guard from its call to its return
    (generic.rs:443-446 get, 1509-1512 insert; a caller's own longer guard delays the
    collector further) *)
Definition holders (thr : list (tstate * list op)) : list nat :=
  List.filter (fun j => match thr !! j with Some (TRun _, _) => true | _ => false end) (seq 0 (length thr)).
Definition without (i : nat) (l : list nat) : list nat := List.filter (fun j => negb (j =? i)) l.

Definition c_step (F : nat) (a : act) (c : csys) : csys * list (N * event) :=
  match a with
  | Thread i =>
      let '((m, thr), h) := sys_step F i (c_mem c, c_thr c) in
      let blk := replicate (length (retired m) - length (c_blk c)) (holders (c_thr c)) ++ c_blk c in
      (mk_csys m thr (match h with [ERet _ _] => map (without i) blk | _ => blk end) (c_fault c) (c_time c + 1),
       map (pair (c_time c)) h)
  | Collect j =>
      match retired (c_mem c) !! j, c_blk c !! j with
      | Some g, Some [] =>
          match reclaim1 g (mwith_retired (delete j (retired (c_mem c))) (c_mem c)) with
          | Ok m => (mk_csys m (c_thr c) (delete j (c_blk c)) (c_fault c) (c_time c + 1), [])
          | Er _ => (mk_csys (c_mem c) (c_thr c) (c_blk c) true (c_time c + 1), [])
          end
      | _, _ => (mk_csys (c_mem c) (c_thr c) (c_blk c) (c_fault c) (c_time c + 1), [])
      end
  end.
(** the history: what was called and answered, and when *)
Fixpoint c_run (F : nat) (acts : list act) (c : csys) : csys * list (N * event) :=
  match acts with
  | [] => (c, [])
  | a :: acts => let '(c, h) := c_step F a c in
                 let '(c, h') := c_run F acts c in (c, h ++ h')
  end.
Definition c_start (scripts : list (list op)) : csys :=
  mk_csys tree_new (map (fun ops => (TIdle, ops)) scripts) [] false 0.
Definition c_failed (c : csys) (i : nat) (e : err) : Prop :=
  exists ops, c_thr c !! i = Some (TRun (Fail e), ops).
Definition c_quiet (c : csys) : Prop := forall i t ops, c_thr c !! i = Some (t, ops) -> t = TIdle.

(** the calls considered: all but [is_empty] (C37) *)
Definition conc_op (o : op) : Prop := op_ok o /\ o <> IsEmpty.
(** executions in which no deeper layer is needed: no two different inserted keys of more
    than 8 bytes agree in their first 8 bytes *)
Definition one_layer (scripts : list (list op)) : Prop := forall k v k' v',
  (k, v) ∈ inserts (concat scripts) -> (k', v') ∈ inserts (concat scripts) ->
  8 < length k -> 8 < length k' -> take 8 k = take 8 k' -> k = k'.
(** if any inserted key has more than 8 bytes, there are fewer than 16 million insertions
    (beyond 4 GiB of suffixes in a leaf the offsets wrap around, C36) *)
Definition bags_fit (scripts : list (list op)) : Prop :=
  (exists k v, (k, v) ∈ inserts (concat scripts) /\ 8 < length k) -> (N.of_nat (length (inserts (concat scripts))) < 16000000)%N.
Definition conc_calls (scripts : list (list op)) : Prop :=
  Forall (Forall conc_op) scripts /\ one_layer scripts /\ bags_fit scripts.
(** the last thing thread [i] did, and when *)
Definition last_at (i : nat) (h : list (N * event)) : option (N * event) :=
  last (filter (fun e => event_of e.2 = i) h).
(** some thread has called [insert k v] *)
Definition asked (k : bytes) (v : N) (h : list (N * event)) : Prop :=
  exists t i, (t, ECall i (Insert k v)) ∈ h.
Definition node_locked (m : mem) (p : N) : Prop :=
  match heap m !! p with
  | Some (NLeaf l) => v_is_locked (l_ver l) = true
  | Some (NInode x) => v_is_locked (i_ver x) = true
  | None => False
  end.

(** ** the number of entries *)
Definition count_of (f : event -> bool) (h : list (N * event)) : N :=
  N.of_nat (length (List.filter (fun e => f e.2) h)).
(** insertions asked for; insertions that answered that the key was not there; insertions
    that answered anything else *)
Definition insert_calls : list (N * event) -> N :=
  count_of (fun e => match e with ECall _ (Insert _ _) => true | _ => false end).
Definition added : list (N * event) -> N :=
  count_of (fun e => match e with ERet _ (AIns None) => true | _ => false end).
Definition not_added : list (N * event) -> N :=
  count_of (fun e => match e with ERet _ (AIns (Some _)) | ERet _ AInsErr => true | _ => false end).

(** the values a sequence of calls inserts *)
Definition values_of (ops : list op) : list N :=
  omap (fun o => match o with Insert _ v => Some v | _ => None end) ops.
(** some insertion has answered with the replaced value [v]: the tree has given it back *)
Definition handed_back (v : N) (h : list (N * event)) : Prop :=
  exists t i, (t, ERet i (AIns (Some v))) ∈ h.
(** the code for a key's length in a leaf: at most 8 bytes, or 64 if there is a suffix *)
Definition length_code (k : bytes) : N := if Nat.leb (length k) 8 then N.of_nat (length k) else 64.
(** a slot in use of some leaf holds value [v] under the key [k] *)
Definition stored (m : mem) (k : bytes) (v : N) : Prop :=
  exists p l s hd, heap m !! p = Some (NLeaf l) /\ s ∈ active_slots (l_perm l) /\
    l_ikey l !! s = Some (slice k 0) /\ l_klx l !! s = Some (length_code k) /\
    l_val l !! s = Some hd /\ vals m !! hd = Some v /\
    (8 < length k -> exists bg, bags m !! l_ksuf l = Some bg /\ bag_get bg s = Ok (Some (drop 8 k))).
