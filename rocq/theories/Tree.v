(** Model of src/tree/generic.rs, src/tree/split/*.rs and the leaf methods of
    src/leaf24.rs they use, access by access.  [F] bounds every loop of the code that
    may spin; running out of it is the error [Fuel], which is no outcome of the code. *)
From Verif Require Import Base Perm Key Suffix Prog Version Mem.

(** ** suffixes (leaf24.rs) *)

(** leaf24.rs:364-378 ksuf.  Reading the bytes of the bag is one step. *)
Definition ksuf (p : N) (s : nat) : P (option bytes) :=
  kx <- keylenx p s ;;
  if (kx =? KSUF_KEYLENX)%N then
    b <- ksuf_ptr p ;;
    if (b =? 0)%N then Ret None else bag_ld b (fun bg => bag_get bg s)
  else Ret None.
(** leaf24.rs:483-500 ksuf_equals *)
Definition ksuf_equals (p : N) (s : nat) (suf : bytes) : P bool :=
  kx <- keylenx p s ;;
  if (kx =? KSUF_KEYLENX)%N then
    b <- ksuf_ptr p ;;
    if (b =? 0)%N then Ret false else bag_ld b (fun bg => bag_equals bg s suf)
  else Ret false.
(** leaf24.rs:396-441 assign_ksuf; building the private new bag is one step *)
Definition assign_ksuf (p : N) (s : nat) (suf : bytes) : P unit :=
  old <- ksuf_ptr p ;;
  ok <- (if (old =? 0)%N then Ret false else bag_at old (fun bg => bag_try_assign bg s suf)) ;;
  if ok : bool then set_keylenx p s KSUF_KEYLENX
  else
    nb <- (if (old =? 0)%N then
             match bag_assign (bag_new WIDTH) s suf with Ok b => Ret b | Er e => Fail e end
           else bag_ld old (fun bg => bag_assign (bag_clone bg) s suf)) ;;
    np <- alloc_bag nb ;;
    set_ksuf_ptr p np ;;;
    (if (old =? 0)%N then Ret tt else retire (GBag old)) ;;;
    set_keylenx p s KSUF_KEYLENX.
(** leaf24.rs:452-479 clear_ksuf *)
Definition clear_ksuf (p : N) (s : nat) : P unit :=
  old <- ksuf_ptr p ;;
  if (old =? 0)%N then set_keylenx p s 0
  else
    nb <- bag_ld old (fun bg => bag_clear (bag_clone bg) s) ;;
    np <- alloc_bag nb ;;
    set_ksuf_ptr p np ;;;
    retire (GBag old) ;;;
    set_keylenx p s 0.

(** ** B-link helpers (leaf24.rs) *)

(** leaf24.rs:776-779 next_is_marked *)
Definition next_is_marked (p : N) : P bool := n <- next_raw p ;; Ret (is_marked n).
Fixpoint poll_unmarked (k : nat) (p : N) : P bool :=
  match k with
  | 0 => Ret false
  | S k => b <- next_is_marked p ;; if b : bool then poll_unmarked k p else Ret true
  end.
(** leaf24.rs:813-835 wait_for_split (MAX_RETRIES = 1000: at most 1001 rounds) *)
Fixpoint wait_rounds (F k : nat) (p : N) : P unit :=
  match k with
  | 0 => Ret tt
  | S k =>
      b <- next_is_marked p ;;
      if b : bool then
        ok <- poll_unmarked 16 p ;;
        if ok : bool then Ret tt else stable F p ;;; wait_rounds F k p
      else Ret tt
  end.
Definition wait_for_split (F : nat) (p : N) : P unit := wait_rounds F 1001 p.
(** leaf24.rs:849-886 lock_next *)
Fixpoint lock_next (F n : nat) (p : N) : P N :=
  match n with
  | 0 => Fail Fuel
  | S n =>
      nx <- next_raw p ;;
      if is_marked nx then wait_for_split F p ;;; lock_next F n p
      else
        ok <- cas_next p nx (mark_ptr nx) ;;
        if ok : bool then Ret nx else lock_next F n p
  end.
(** leaf24.rs:1432-1490 link_sibling *)
Definition link_sibling (F : nat) (p sib : N) : P unit :=
  old <- lock_next F F p ;;
  set_prev sib p ;;;
  set_next sib old ;;;
  (if (old =? 0)%N then Ret tt else set_prev old sib) ;;;
  set_next p sib.

(** ** descent (generic.rs) *)

(** generic.rs:832-854 maybe_parent_generic *)
Fixpoint maybe_parent (F : nat) (n : N) : P N :=
  match F with
  | 0 => Fail Fuel
  | S F =>
      is_leaf <- flag n v_is_leaf ;;
      pa <- (if is_leaf : bool then leaf_parent n else inode_parent n) ;;
      if (pa =? 0)%N then Ret n else maybe_parent F pa
  end.
(** ksearch.rs:371-393, the loop of upper_bound_internode_generic; [fuel] = the size *)
Fixpoint ub_loop (fuel : nat) (p ik : N) (l r : nat) : P nat :=
  if Nat.ltb l r then
    match fuel with
    | 0 => Fail Fuel
    | S fuel =>
        let m := (l + r) / 2 in
        nk <- inode_ikey p m ;;
        match (ik ?= nk)%N with
        | Lt => ub_loop fuel p ik l m
        | Eq => Ret (m + 1)
        | Gt => ub_loop fuel p ik (m + 1) r
        end
    end
  else Ret l.
Definition upper_bound_internode (p ik : N) : P nat :=
  n <- nkeys p ;; ub_loop n p ik 0 n.
(** generic.rs:866-926 reach_leaf_concurrent_generic *)
Fixpoint reach_leaf (F n : nat) (start node ik : N) : P N :=
  match n with
  | 0 => Fail Fuel
  | S n =>
      v <- stable F node ;;
      is_leaf <- flag node v_is_leaf ;;
      if is_leaf : bool then Ret node
      else
        ci <- upper_bound_internode node ik ;;
        c <- child node ci ;;
        if (c =? 0)%N then reach_leaf F n start start ik
        else
          ch <- has_changed node v ;;
          if ch : bool then
            sp <- has_split node v ;;
            if sp : bool then reach_leaf F n start start ik else reach_leaf F n start node ik
          else reach_leaf F n start c ik
  end.
(** generic.rs:1385-1413, the loop of advance_to_key_generic *)
Fixpoint advance_loop (F n : nat) (p ver ik : N) : P (N * N) :=
  match n with
  | 0 => Fail Fuel
  | S n =>
      del <- flag p v_is_deleted ;;
      if del : bool then Ret (p, ver)
      else
        nr <- next_raw p ;;
        if is_marked nr then wait_for_split F p ;;; advance_loop F n p ver ik
        else
          let np := unmark_ptr nr in
          if (np =? 0)%N then Ret (p, ver)
          else
            nb <- ikey_bound np ;;
            if (nb <=? ik)%N then
              v <- stable F np ;; advance_loop F n np v ik
            else Ret (p, ver)
  end.
(** generic.rs:1363-1416 advance_to_key_generic *)
Definition advance_to_key (F : nat) (p ik old_version : N) : P (N * N) :=
  v <- stable F p ;;
  sp <- has_split p old_version ;;
  go <- (if sp : bool then Ret true else flag p v_is_splitting) ;;
  if go : bool then v' <- stable F p ;; advance_loop F F p v' ik
  else Ret (p, v).
(** generic.rs:1425 *)
Definition MAX_BLINK_HOPS : nat := 128.
(** generic.rs:1452-1486, the loop of advance_to_key_by_bound_generic *)
Fixpoint by_bound_loop (F n : nat) (p ik : N) (hops : nat) : P (N * bool) :=
  match n with
  | 0 => Fail Fuel
  | S n =>
      if Nat.leb MAX_BLINK_HOPS hops then Ret (p, true)
      else
        nr <- next_raw p ;;
        if is_marked nr then wait_for_split F p ;;; by_bound_loop F n p ik hops
        else
          let np := unmark_ptr nr in
          if (np =? 0)%N then Ret (p, false)
          else
            nb <- ikey_bound np ;;
            if (nb <=? ik)%N then by_bound_loop F n np ik (hops + 1) else Ret (p, false)
  end.
(** generic.rs:1435-1489 advance_to_key_by_bound_generic *)
Definition advance_by_bound (F : nat) (p ik : N) : P (N * bool) :=
  sp <- flag p v_is_splitting ;;
  (if sp : bool then stable F p ;;; Ret tt else Ret tt) ;;;
  by_bound_loop F F p ik 0.

(** ** lookup *)

(** generic.rs:695-699: the keylenx a key would be stored with *)
Definition search_keylenx (k : key) : N :=
  if key_has_suffix k then KSUF_KEYLENX else N.of_nat (key_current_len k).
(** the slots of the first [size] positions *)
Definition active_slots (perm : N) : list nat := map (perm_get perm) (seq 0 (perm_size perm)).
(** generic.rs:710-742, the scan of one leaf *)
Fixpoint scan_leaf (p : N) (k : key) (slots : list nat) : P (option (N * N)) :=
  match slots with
  | [] => Ret None
  | s :: slots =>
      ik <- ikey p s ;;
      if (ik =? k_ikey k)%N then
        kx <- keylenx p s ;;
        ptr <- val_ptr p s ;;
        if (ptr =? 0)%N then scan_leaf p k slots
        else if (kx =? search_keylenx k)%N then
          eq <- (if (kx =? KSUF_KEYLENX)%N then ksuf_equals p s (key_suffix k) else Ret true) ;;
          if eq : bool then Ret (Some (kx, ptr)) else scan_leaf p k slots
        else if (LAYER_KEYLENX <=? kx)%N && key_has_suffix k then Ret (Some (kx, ptr))
        else scan_leaf p k slots
      else scan_leaf p k slots
  end.

(** where get_concurrent_generic's three nested labelled loops are *)
Inductive gstate :=
| GLayer (layer_root : N)
| GLeaf (layer_root leaf_ptr : N)
| GSearch (layer_root leaf_ptr version : N).
(** generic.rs:641-828 get_concurrent_generic; the result is the pointer of the matching
    value slot *)
Fixpoint get_loop (F n : nat) (k : key) (st : gstate) : P (option N) :=
  match n with
  | 0 => Fail Fuel
  | S n =>
      match st with
      | GLayer r =>
          r' <- maybe_parent F r ;;
          p <- reach_leaf F F r' r' (k_ikey k) ;;
          get_loop F n k (GLeaf r' p)
      | GLeaf r p => v <- stable F p ;; get_loop F n k (GSearch r p v)
      | GSearch r p v =>
          del <- flag p v_is_deleted ;;
          if del : bool then get_loop F n k (GLayer r)
          else
            perm <- permutation p ;;
            if is_frozen perm then v' <- stable F p ;; get_loop F n k (GSearch r p v')
            else
              snap <- scan_leaf p k (active_slots perm) ;;
              ch <- has_changed p v ;;
              if ch : bool then
                '(q, v') <- advance_to_key F p (k_ikey k) v ;;
                if (q =? p)%N then get_loop F n k (GSearch r p v')
                else get_loop F n k (GLeaf r q)
              else
                match snap with
                | Some (kx, ptr) =>
                    if (LAYER_KEYLENX <=? kx)%N then get_loop F n (key_shift k) (GLayer ptr)
                    else Ret (Some ptr)
                | None =>
                    dirty <- flag p v_is_dirty ;;
                    if dirty : bool then v' <- stable F p ;; get_loop F n k (GSearch r p v')
                    else
                      nr <- next_raw p ;;
                      let np := unmark_ptr nr in
                      if negb (np =? 0)%N && negb (is_marked nr) then
                        nb <- ikey_bound np ;;
                        if (nb <=? k_ikey k)%N then get_loop F n k (GLeaf r np) else Ret None
                      else Ret None
                end
      end
  end.
(** generic.rs:463-466 get_with_guard and 443-446 get: the result is the value (Arc
    contents) read through the found pointer *)
Definition get (F : nat) (kb : bytes) : P (option N) :=
  match key_new kb with
  | None => Fail Panic
  | Some k =>
      r <- load_root ;;
      o <- get_loop F F k (GLayer r) ;;
      match o with
      | Some h => v <- output_from_raw h ;; Ret (Some v)
      | None => Ret None
      end
  end.

(** generic.rs:530-567, the scan of one leaf in get_ref_generic *)
Fixpoint scan_leaf_ref (p : N) (k : key) (slots : list nat) : P (option (N * N)) :=
  match slots with
  | [] => Ret None
  | s :: slots =>
      ik <- ikey p s ;;
      if negb (ik =? k_ikey k)%N then scan_leaf_ref p k slots
      else
        kx <- keylenx p s ;;
        ptr <- val_ptr p s ;;
        if (ptr =? 0)%N then scan_leaf_ref p k slots
        else if (kx =? search_keylenx k)%N then
          eq <- (if (kx =? KSUF_KEYLENX)%N then ksuf_equals p s (key_suffix k) else Ret true) ;;
          if eq : bool then Ret (Some (kx, ptr)) else scan_leaf_ref p k slots
        else if (LAYER_KEYLENX <=? kx)%N && key_has_suffix k then Ret (Some (kx, ptr))
        else scan_leaf_ref p k slots
  end.
(** generic.rs:499-637 get_ref_generic; the result is the pointer turned into a reference *)
Fixpoint get_ref_loop (F n : nat) (k : key) (st : gstate) : P (option N) :=
  match n with
  | 0 => Fail Fuel
  | S n =>
      match st with
      | GLayer r =>
          r' <- maybe_parent F r ;;
          p <- reach_leaf F F r' r' (k_ikey k) ;;
          get_ref_loop F n k (GLeaf r' p)
      | GLeaf r p => v <- stable F p ;; get_ref_loop F n k (GSearch r p v)
      | GSearch r p v =>
          del <- flag p v_is_deleted ;;
          if del : bool then get_ref_loop F n k (GLayer r)
          else
            perm <- permutation p ;;
            if is_frozen perm then v' <- stable F p ;; get_ref_loop F n k (GSearch r p v')
            else
              snap <- scan_leaf_ref p k (active_slots perm) ;;
              ch <- has_changed p v ;;
              if ch : bool then
                '(q, v') <- advance_to_key F p (k_ikey k) v ;;
                if (q =? p)%N then get_ref_loop F n k (GSearch r p v')
                else get_ref_loop F n k (GLeaf r q)
              else
                match snap with
                | Some (kx, ptr) =>
                    if (LAYER_KEYLENX <=? kx)%N then get_ref_loop F n (key_shift k) (GLayer ptr)
                    else Ret (Some ptr)
                | None =>
                    dirty <- flag p v_is_dirty ;;
                    if dirty : bool then v' <- stable F p ;; get_ref_loop F n k (GSearch r p v')
                    else
                      nr <- next_raw p ;;
                      let np := unmark_ptr nr in
                      if negb (np =? 0)%N && negb (is_marked nr) then
                        nb <- ikey_bound np ;;
                        if (nb <=? k_ikey k)%N then get_ref_loop F n k (GLeaf r np) else Ret None
                      else Ret None
                end
      end
  end.
(** generic.rs:488-491 get_ref; the answer is what the reference points to *)
Definition get_ref (F : nat) (kb : bytes) : P (option N) :=
  match key_new kb with
  | None => Fail Panic
  | Some k =>
      r <- load_root ;;
      o <- get_ref_loop F F k (GLayer r) ;;
      match o with
      | Some h => v <- output_from_raw h ;; Ret (Some v)
      | None => Ret None
      end
  end.

(** ** splitting *)
Section Cfg.
(** [fx = false] is the code as written.  [fx = true] changes one line
    (leaf24.rs:1221-1224, [Greater => split_pos -= 1] instead of [break]) so that a split
    never separates equal slices; used to state what that repair would establish. *)
Context (fx : bool).

(** leaf24.rs:1204-1229, the adjustment loop of calculate_split_point *)
Fixpoint adjust_split (n : nat) (p perm ik : N) (size pos : nat) : P nat :=
  if Nat.ltb 0 pos && Nat.ltb pos size then
    match n with
    | 0 => Fail Fuel
    | S n =>
        l <- ikey p (perm_get perm (pos - 1)) ;;
        r <- ikey p (perm_get perm pos) ;;
        if (l =? r)%N then
          match (ik ?= l)%N with
          | Eq => adjust_split n p perm ik size (pos + 1)
          | Lt => adjust_split n p perm ik size (pos - 1)
          | Gt => if fx then adjust_split n p perm ik size (pos - 1) else Ret pos
          end
        else Ret pos
    end
  else Ret pos.
(** leaf24.rs:1185-1244 calculate_split_point (the split position; the loop moves
    monotonically, hence at most [size] rounds) *)
Definition calculate_split_point (p ik : N) : P (option nat) :=
  perm <- permutation p ;;
  let size := perm_size perm in
  if Nat.eqb size 0 || Nat.eqb (size / 2) 0 then Ret None
  else
    pos <- adjust_split size p perm ik size (size / 2) ;;
    if Nat.eqb pos 0 || Nat.leb size pos then Ret None
    else ikey p (perm_get perm pos) ;;; Ret (Some pos).

(** leaf24/freeze.rs:199-276 freeze_permutation *)
Fixpoint freeze_loop (F : nat) (p : N) : P N :=
  match F with
  | 0 => Fail Fuel
  | S F =>
      raw <- permutation p ;;
      if is_frozen raw then Fail Panic
      else
        ok <- cas_permutation p raw (freeze_raw raw) ;;
        if ok : bool then Ret raw else freeze_loop F p
  end.
Definition freeze_permutation (F : nat) (p : N) : P N :=
  lk <- flag p v_is_locked ;;
  sp <- flag p v_is_splitting ;;
  if lk && sp then freeze_loop F p else Fail Panic.

(** leaf24.rs:1292-1320, moving entry [i] to the new leaf *)
Definition move_entry (p q perm : N) (split_pos i : nat) : P unit :=
  let os := perm_get perm (split_pos + i) in
  ik <- ikey p os ;;
  kx <- keylenx p os ;;
  set_ikey q i ik ;;;
  set_keylenx q i kx ;;;
  old <- take_val_ptr p os ;;
  set_val_ptr q i old ;;;
  if (kx =? KSUF_KEYLENX)%N then
    sf <- ksuf p os ;;
    match sf with
    | Some suf => assign_ksuf q i suf
    | None => Ret tt
    end ;;;
    clear_ksuf p os
  else Ret tt.
(** leaf24.rs:1246-1353 split_into_preallocated ([q]: the freshly boxed leaf) *)
Definition split_into_preallocated (F : nat) (p q : N) (split_pos : nat) : P N :=
  src <- version p ;;
  (if v_is_locked src then leaf_up q (fun l => Some (tt, with_ver (v_new_for_split src) l))
   else Fail Panic) ;;;
  perm <- freeze_permutation F p ;;
  let size := perm_size perm in
  if Nat.ltb 0 split_pos && Nat.ltb split_pos size then
    let moved := size - split_pos in
    for_each (seq 0 moved) (move_entry p q perm split_pos) ;;;
    set_permutation q (perm_make_sorted moved) ;;;
    set_permutation p (perm_set_size perm split_pos) ;;;
    ikey q (perm_get (perm_make_sorted moved) 0)
  else Fail Panic.

(** internode.rs:433-458 insert_key_and_child *)
Definition shift_right1 (p : N) (i : nat) : P unit :=
  k <- inode_ikey p i ;;
  set_inode_ikey p (i + 1) k ;;;
  c <- child p (i + 1) ;;
  set_child p (i + 2) c.
Definition insert_key_and_child (p : N) (pos : nat) (k c : N) : P unit :=
  n <- nkeys p ;;
  (if Nat.ltb n IWIDTH && Nat.leb pos n then Ret tt else Fail Panic) ;;;
  for_each (rev (seq pos (n - pos))) (shift_right1 p) ;;;
  set_inode_ikey p pos k ;;;
  set_child p (pos + 1) c ;;;
  set_nkeys p (n + 1).
(** internode.rs:475-481 shift_from *)
Definition shift_from (dst : N) (dst_pos : nat) (src : N) (src_pos count : nat) : P unit :=
  for_each (seq 0 count) (fun i =>
    k <- inode_ikey src (src_pos + i) ;;
    set_inode_ikey dst (dst_pos + i) k ;;;
    c <- child src (src_pos + 1 + i) ;;
    set_child dst (dst_pos + 1 + i) c).
(** internode.rs:651-686, the loop over the new node's children *)
Definition reparent_children (q : N) (set_parent : N -> N -> P unit) : P unit :=
  n <- nkeys q ;;
  for_each (seq 0 (n + 1)) (fun i =>
    c <- child q i ;;
    if (c =? 0)%N then Ret tt else set_parent c q).
(** internode.rs:558-688 split_into: (popup key, insert went left) *)
Definition split_into (p q : N) (pos : nat) (ik c : N) : P (N * bool) :=
  n <- nkeys p ;;
  (if Nat.eqb n IWIDTH then Ret tt else Fail Panic) ;;;
  let mid := 8 in
  res <- (match Nat.compare pos mid with
          | Lt =>
              x <- child p mid ;; set_child q 0 x ;;;
              shift_from q 0 p mid (IWIDTH - mid) ;;;
              set_nkeys q (IWIDTH - mid) ;;;
              popup <- inode_ikey p (mid - 1) ;;
              set_nkeys p (mid - 1) ;;;
              insert_key_and_child p pos ik c ;;;
              Ret (popup, true)
          | Eq =>
              set_child q 0 c ;;;
              shift_from q 0 p mid (IWIDTH - mid) ;;;
              set_nkeys q (IWIDTH - mid) ;;;
              set_nkeys p mid ;;;
              Ret (ik, false)
          | Gt =>
              let rpos := pos - (mid + 1) in
              x <- child p (mid + 1) ;; set_child q 0 x ;;;
              shift_from q 0 p (mid + 1) rpos ;;;
              set_inode_ikey q rpos ik ;;;
              set_child q (rpos + 1) c ;;;
              shift_from q (rpos + 1) p pos (IWIDTH - pos) ;;;
              set_nkeys q (IWIDTH - mid) ;;;
              popup <- inode_ikey p mid ;;
              set_nkeys p mid ;;;
              Ret (popup, false)
          end) ;;
  h <- height p ;;
  set_height q h ;;;
  (if Nat.ltb 0 h then reparent_children q set_inode_parent else Ret tt) ;;;
  Ret res.

(** propagation.rs:530-600 helpers *)
Definition get_parent (p : N) (is_leaf : bool) : P N :=
  if is_leaf then leaf_parent p else inode_parent p.
Definition set_parent (p pa : N) (is_leaf : bool) : P unit :=
  if is_leaf then set_leaf_parent p pa else set_inode_parent p pa.
(** parent_locking.rs:22-33 find_child_index *)
Fixpoint find_child (p c : N) (idx : list nat) : P (option nat) :=
  match idx with
  | [] => Ret None
  | i :: idx => x <- child p i ;; if (x =? c)%N then Ret (Some i) else find_child p c idx
  end.
Definition find_child_index (p c : N) : P (option nat) :=
  n <- nkeys p ;; find_child p c (seq 0 (n + 1)).

(** root_creation.rs:69-141, 158-223 create_root_from_leaves / _from_internodes *)
Definition create_main_root (l r sk : N) (is_leaf : bool) : P unit :=
  h <- (if is_leaf then Ret 0 else h <- height l ;; Ret (h + 1)) ;;
  nr <- alloc_node (NInode (inode_new (v_mark_root (v_new false)) h)) ;;
  set_child nr 0 l ;;;
  set_inode_ikey nr 0 sk ;;;
  set_child nr 1 r ;;;
  set_nkeys nr 1 ;;;
  track nr ;;;
  ok <- cas_root l nr ;;
  if ok : bool then
    set_parent l nr is_leaf ;;;
    set_parent r nr is_leaf ;;;
    mark_nonroot l
  else Fail Panic.
(** root_creation.rs:248-297, 312-361 promote_layer_root_leaves / _internodes *)
Definition promote_layer_root (l r sk : N) (is_leaf : bool) : P unit :=
  h <- (if is_leaf then Ret 0 else h <- height l ;; Ret (h + 1)) ;;
  nr <- alloc_node (NInode (inode_new (v_new false) h)) ;;
  set_child nr 0 l ;;;
  set_inode_ikey nr 0 sk ;;;
  set_child nr 1 r ;;;
  set_nkeys nr 1 ;;;
  mark_root nr ;;;
  track nr ;;;
  set_parent l nr is_leaf ;;;
  set_parent r nr is_leaf ;;;
  mark_nonroot l ;;;
  (if is_leaf then mark_nonroot r else Ret tt).

(** propagation.rs:54,57 *)
Definition MAX_PROPAGATION_ITERATIONS : nat := 64.
Definition MAX_STALE_PARENT_RETRIES : nat := 16.
(** propagation.rs:175-524 propagation_loop; [n]: iterations left, [lv]: the guard of
    [l]; [false] is [Err(SplitFailed)].  Unwinding after a panic is not modelled. *)
Fixpoint propagate (F n stale : nat) (l lv r sk : N) (main layer is_leaf : bool) : P bool :=
  match n with
  | 0 => Fail Limit
  | S n =>
      lp <- get_parent l is_leaf ;;
      if (lp =? 0)%N && layer then
        promote_layer_root l r sk is_leaf ;;;
        unlock_for_split r ;;; unlock l lv ;;; Ret true
      else if (lp =? 0)%N && main then
        create_main_root l r sk is_leaf ;;;
        unlock_for_split r ;;; unlock l lv ;;; Ret true
      else if (lp =? 0)%N then Fail Panic
      else
        plv <- lock F lp ;;
        cur <- get_parent l is_leaf ;;
        if negb (cur =? lp)%N then
          unlock lp plv ;;; propagate F n 0 l lv r sk main layer is_leaf
        else
          ci <- find_child_index lp l ;;
          match ci with
          | None =>
              if Nat.ltb MAX_STALE_PARENT_RETRIES (stale + 1) then
                unlock_for_split r ;;; unlock lp plv ;;; unlock l lv ;;; Ret false
              else unlock lp plv ;;; propagate F n (stale + 1) l lv r sk main layer is_leaf
          | Some ci =>
              full <- (nk <- nkeys lp ;; Ret (Nat.leb IWIDTH nk)) ;;
              if full : bool then
                plv <- mark_split lp plv ;;
                rt <- load_root ;;
                let pmain := (rt =? lp)%N in
                pp <- inode_parent lp ;;
                prt <- flag lp v_is_root ;;
                let player := negb pmain && (pp =? 0)%N && prt in
                pv <- version lp ;;
                ph <- height lp ;;
                ps <- (if v_is_locked pv
                       then alloc_node (NInode (inode_new (v_new_for_split pv) ph))
                       else Fail Panic) ;;
                track ps ;;;
                '(popup, wl) <- split_into lp ps ci sk r ;;
                ph2 <- height lp ;;
                reparent_children ps (if Nat.eqb ph2 0 then set_leaf_parent else set_inode_parent) ;;;
                set_parent r (if wl : bool then lp else ps) is_leaf ;;;
                unlock_for_split r ;;;
                unlock l lv ;;;
                propagate F n 0 lp plv ps popup pmain player false
              else
                plv <- mark_insert lp plv ;;
                insert_key_and_child lp ci sk r ;;;
                set_parent r lp is_leaf ;;;
                unlock_for_split r ;;; unlock lp plv ;;; unlock l lv ;;; Ret true
          end
  end.

(** generic.rs:1967-2104 handle_leaf_split_generic; [lv]: the guard of [p] *)
Definition handle_leaf_split (F : nat) (p lv ik : N) : P bool :=
  sp <- calculate_split_point p ik ;;
  match sp with
  | None => unlock p lv ;;; Ret false
  | Some pos =>
      rf <- flag p v_is_root ;;
      pa <- leaf_parent p ;;
      main <- (if rf : bool then rt <- load_root ;; Ret (rt =? p)%N else Ret false) ;;
      let layer := rf && (pa =? 0)%N && negb main in
      q <- alloc_node (NLeaf leaf_new) ;;
      lv <- mark_split p lv ;;
      sk <- split_into_preallocated F p q pos ;;
      track q ;;;
      link_sibling F p q ;;;
      propagate F MAX_PROPAGATION_ITERATIONS 0 p lv q sk main layer true
  end.

(** ** layers *)

(** leaf24.rs:1595-1616 try_clone_output *)
Definition try_clone_output (p : N) (s : nat) : P (option N) :=
  kx <- keylenx p s ;;
  if (LAYER_KEYLENX <=? kx)%N then Ret None
  else
    h <- val_ptr p s ;;
    if (h =? 0)%N then Ret None else v <- output_from_raw h ;; Ret (Some v).
(** leaf24.rs:1623-1676 assign_from_key_arc *)
Definition assign_from_key (p : N) (s : nat) (k : key) (o : option N) : P unit :=
  match o with
  | None => Fail Panic
  | Some v =>
      set_ikey p s (k_ikey k) ;;;
      h <- output_to_raw v ;;
      set_val_ptr p s h ;;;
      if key_has_suffix k then
        set_keylenx p s KSUF_KEYLENX ;;; assign_ksuf p s (key_suffix k)
      else set_keylenx p s (N.of_nat (Nat.min (key_current_len k) 8))
  end.
(** generic.rs:2331-2387 assign_final_layer_entries *)
Definition assign_final (p : N) (ek : key) (eo : option N) (nk : key) (no : option N)
    (cmp : comparison) : P unit :=
  let existing_first :=
    match cmp with
    | Lt => true
    | Gt => false
    | Eq => Nat.leb (key_current_len ek) (key_current_len nk)
    end in
  (if existing_first then assign_from_key p 0 ek eo ;;; assign_from_key p 1 nk no
   else assign_from_key p 0 nk no ;;; assign_from_key p 1 ek eo) ;;;
  set_permutation p (perm_make_sorted 2).
(** allocating a leaf with [new_layer_root_boxed] and [alloc_leaf] *)
Definition new_layer_leaf : P N := q <- alloc_node (NLeaf leaf_new_root) ;; track q ;;; Ret q.
(** generic.rs:2241-2284: the loop creating the twig chain; [tail] is the last twig or 0,
    [head] the first; returns (head, tail, existing key, new key, comparison) *)
Fixpoint twig_loop (n : nat) (head tail : N) (ek nk : key)
    : P (N * N * key * key * comparison) :=
  let cmp := key_compare ek (k_ikey nk) (key_current_len nk) in
  match cmp with
  | Eq =>
      if key_has_suffix ek && key_has_suffix nk then
        match n with
        | 0 => Fail Fuel
        | S n =>
            t <- new_layer_leaf ;;
            set_ikey t 0 (k_ikey ek) ;;;
            set_permutation t (perm_make_sorted 1) ;;;
            head' <- (if (head =? 0)%N then Ret t
                      else set_keylenx tail 0 LAYER_KEYLENX ;;; set_val_ptr tail 0 t ;;; Ret head) ;;
            twig_loop n head' t (key_shift ek) (key_shift nk)
        end
      else Ret (head, tail, ek, nk, cmp)
  | _ => Ret (head, tail, ek, nk, cmp)
  end.
(** generic.rs:2187-2316 create_layer_concurrent_generic *)
Definition create_layer (F : nat) (p : N) (s : nat) (nk : key) (v : N) : P N :=
  esuf <- ksuf p s ;;
  match key_from_suffix (default [] esuf) with
  | None => Fail Panic
  | Some ek =>
      eo <- try_clone_output p s ;;
      let nk := if key_has_suffix nk then key_shift nk else nk in
      '(head, tail, ek, nk, cmp) <- twig_loop F 0 0 ek nk ;;
      fin <- new_layer_leaf ;;
      assign_final fin ek eo nk (Some v) cmp ;;;
      if (head =? 0)%N then Ret fin
      else set_keylenx tail 0 LAYER_KEYLENX ;;; set_val_ptr tail 0 fin ;;; Ret head
  end.

(** ** insert *)

(** tree.rs:214-225 InsertSearchResultGeneric *)
Inductive ins_search := Found (s : nat) | NotFound (pos : nat) | Conflict (s : nat) | Layer (s : nat).
(** generic.rs:1269-1356 search_for_insert_generic; [i]: logical position of the head *)
Fixpoint search_slots (p : N) (k : key) (i : nat) (slots : list nat) : P ins_search :=
  match slots with
  | [] => Ret (NotFound i)
  | s :: slots =>
      ik <- ikey p s ;;
      let next := if (k_ikey k <? ik)%N then Ret (NotFound i) else search_slots p k (i + 1) slots in
      if (ik =? k_ikey k)%N then
        kx <- keylenx p s ;;
        ptr <- val_ptr p s ;;
        if (ptr =? 0)%N then search_slots p k (i + 1) slots
        else if (LAYER_KEYLENX <=? kx)%N then
          if key_has_suffix k then Ret (Layer s) else search_slots p k (i + 1) slots
        else if (kx =? search_keylenx k)%N then
          if (kx =? KSUF_KEYLENX)%N then
            sf <- ksuf p s ;;
            match sf with
            | Some suf => Ret (if bool_decide (key_suffix k = suf) then Found s else Conflict s)
            | None => Ret (Conflict s)
            end
          else Ret (Found s)
        else if (kx =? KSUF_KEYLENX)%N && key_has_suffix k then Ret (Conflict s)
        else next
      else next
  end.
Definition search_for_insert (p perm : N) (k : key) : P ins_search :=
  search_slots p k 0 (active_slots perm).

(** generic.rs:1883-1914 assign_slot_generic *)
Definition assign_slot (p lv : N) (s : nat) (k : key) (v : N) : P N :=
  h <- output_to_raw v ;;
  lv <- mark_insert p lv ;;
  set_ikey p s (k_ikey k) ;;;
  set_val_ptr p s h ;;;
  (if key_has_suffix k then
     set_keylenx p s KSUF_KEYLENX ;;; assign_ksuf p s (key_suffix k)
   else set_keylenx p s (N.of_nat (key_current_len k))) ;;;
  Ret lv.

(** result of insert: [IOk old] is [Ok(old)], [IErr] is [Err(SplitFailed)] *)
Inductive ins_res := IOk (old : option N) | IErr.

(** generic.rs:1741-1748: first usable offset in the free region *)
Fixpoint find_alt (perm : N) (offs : list nat) : option (nat * nat) :=
  match offs with
  | [] => None
  | o :: offs =>
      let c := perm_back_at_offset perm o in
      if Nat.eqb c 0 then find_alt perm offs else Some (c, o)
  end.

(** generic.rs:1549-1874 insert_concurrent_generic; [v] is the new value *)
Fixpoint insert_loop (F n : nat) (k : key) (v layer_root : N) : P ins_res :=
  match n with
  | 0 => Fail Fuel
  | S n =>
      r <- maybe_parent F layer_root ;;
      p0 <- reach_leaf F F r r (k_ikey k) ;;
      '(p, exceeded) <- advance_by_bound F p0 (k_ikey k) ;;
      if exceeded : bool then rt <- load_root ;; insert_loop F n k v rt
      else
      lv <- lock F p ;;
      nr <- next_raw p ;;
      if is_marked nr then
        wait_for_split F p ;;; unlock p lv ;;; insert_loop F n k v r
      else
      let np := unmark_ptr nr in
      moved <- (if (np =? 0)%N then Ret false
                else nb <- ikey_bound np ;; Ret (nb <=? k_ikey k)%N) ;;
      if moved : bool then unlock p lv ;;; insert_loop F n k v r
      else
      perm <- permutation p ;;
      sr <- search_for_insert p perm k ;;
      match sr with
      | Found s =>
          old <- val_ptr p s ;;
          if (old =? 0)%N then unlock p lv ;;; insert_loop F n k v r
          else
            ov <- output_from_raw old ;;
            h <- output_to_raw v ;;
            lv <- mark_insert p lv ;;
            set_val_ptr p s h ;;;
            unlock p lv ;;;
            retire (GVal old) ;;;
            Ret (IOk (Some ov))
      | NotFound pos =>
          let split :=
            ok <- handle_leaf_split F p lv (k_ikey k) ;;
            if ok : bool then insert_loop F n k v r else Ret IErr in
          let finish := fun (lv new_perm : N) (alloc want : nat) =>
            (if Nat.eqb alloc want then Ret tt else Fail Panic) ;;;
            set_permutation p new_perm ;;;
            unlock p lv ;;;
            inc_count ;;;
            Ret (IOk None) in
          if Nat.leb WIDTH (perm_size perm) then split
          else
            let s := perm_back perm in
            reuse <- (if Nat.eqb s 0 then can_reuse_slot0 p (k_ikey k) else Ret true) ;;
            if reuse : bool then
              lv <- assign_slot p lv s k v ;;
              let '(np, al) := perm_insert_from_back perm pos in
              finish lv np al s
            else
              match find_alt perm (seq 1 (WIDTH - perm_size perm - 1)) with
              | Some (alt, off) =>
                  lv <- assign_slot p lv alt k v ;;
                  let perm' := perm_swap_free_slots perm (WIDTH - 1) (WIDTH - 1 - off) in
                  let '(np, al) := perm_insert_from_back perm' pos in
                  finish lv np al alt
              | None => split
              end
      | Layer s =>
          lp <- val_ptr p s ;;
          unlock p lv ;;;
          insert_loop F n (key_shift k) v lp
      | Conflict s =>
          lv <- mark_insert p lv ;;
          layer <- create_layer F p s k v ;;
          old <- take_val_ptr p s ;;
          (if (old =? 0)%N then Ret tt else retire (GVal old)) ;;;
          clear_ksuf p s ;;;
          set_keylenx p s LAYER_KEYLENX ;;;
          set_val_ptr p s layer ;;;
          unlock p lv ;;;
          inc_count ;;;
          Ret (IOk None)
      end
  end.
(** generic.rs:1532-1540 insert_with_guard *)
Definition insert_gen (F : nat) (kb : bytes) (v : N) : P ins_res :=
  match key_new kb with
  | None => Fail Panic
  | Some k => r <- load_root ;; insert_loop F F k v r
  end.
End Cfg.

(** the code as written, and with the one-line repair *)
Definition insert := insert_gen false.
Definition insert_repaired := insert_gen true.

(** generic.rs:163-165 len *)
Definition len : P N := load_count.
(** generic.rs:170-179 is_empty *)
Definition is_empty : P bool :=
  r <- load_root ;;
  lf <- flag r v_is_leaf ;;
  if lf : bool then
    r2 <- load_root ;;
    pm <- permutation r2 ;; Ret (Nat.eqb (perm_size pm) 0)
  else Ret false.

(** generic.rs:132-146 with_allocator: a tree with one empty root leaf, at address 2 *)
Definition tree_new : mem :=
  mk_mem {[ 2%N := NLeaf leaf_new_root ]} ∅ ∅ 2 0 4 [] [2%N].

(** ** Drop (tree.rs:227-247, alloc24.rs:196-215, leaf24.rs:1548-1586) *)
Definition free_val (h : N) (m : mem) : res mem := reclaim1 (GVal h) m.
Fixpoint drop_slots (sl : list (N * N)) (m : mem) : res mem :=
  match sl with
  | [] => Ok m
  | (ptr, kx) :: sl =>
      if negb (ptr =? 0)%N && (kx <? LAYER_KEYLENX)%N
      then res_bind (free_val ptr m) (drop_slots sl)
      else drop_slots sl m
  end.
Definition drop_node (p : N) (m : mem) : res mem :=
  match heap m !! p with
  | Some (NLeaf l) =>
      res_bind (drop_slots (combine (l_val l) (l_klx l)) m) (fun m =>
      res_bind (if (l_ksuf l =? 0)%N then Ok m else reclaim1 (GBag (l_ksuf l)) m) (fun m =>
      Ok (mwith_heap (delete p (heap m)) m)))
  | Some (NInode _) => Ok (mwith_heap (delete p (heap m)) m)
  | None => Er UB
  end.
Fixpoint drop_nodes (ps : list N) (m : mem) : res mem :=
  match ps with
  | [] => Ok m
  | p :: ps => res_bind (drop_node p m) (drop_nodes ps)
  end.
Definition drop_tree (m : mem) : res mem :=
  res_bind (run reclaim_all m) (fun '(_, m) =>
  res_bind (drop_nodes (tracked m) m) (fun m => Ok (mwith_tracked [] m))).
