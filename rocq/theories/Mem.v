(** Shared memory: leaves, internodes, suffix bags, value handles, the tree header.
    Addresses are even numbers, 0 is null, addresses are never reused. *)
From Verif Require Import Base Perm Suffix Prog Version.

(** leaf24.rs:75-127 struct LeafNode24 (padding and the unused modstate omitted).
    [l_ikey], [l_klx], [l_val] are the 24-element arrays ikey0, keylenx, leaf_values. *)
Record leaf := mk_leaf {
  l_ver : N; l_perm : N; l_ikey : list N; l_klx : list N; l_val : list N;
  l_ksuf : N; l_next : N; l_prev : N; l_parent : N }.
(** internode.rs:87-121 struct InternodeNode, WIDTH = 15; [i_child] is child[0..15]
    followed by rightmost_child *)
Record inode := mk_inode {
  i_ver : N; i_nkeys : nat; i_height : nat; i_keys : list N; i_child : list N; i_parent : N }.
Inductive node := NLeaf (l : leaf) | NInode (i : inode).

(** objects handed to [defer_retire] *)
Inductive garbage := GVal (h : N) | GBag (b : N).

(** tree.rs:137-165 MassTreeGeneric plus what it owns.  [vals]: live value handles (each
    stands for one strong count of an Arc, or one Box); [tracked]: the allocator's lists
    (alloc24.rs:70-76, leaves and internodes in one list); [retired]: the collector *)
Record mem := mk_mem {
  heap : gmap N node; bags : gmap N bag; vals : gmap N N;
  root : N; cnt : N; nxt : N; retired : list garbage; tracked : list N }.

Definition WIDTH : nat := 24.
Definition IWIDTH : nat := 15.
(** leaf24.rs:35-38 *)
Definition KSUF_KEYLENX : N := 64.
Definition LAYER_KEYLENX : N := 128.

(** field updates *)
Definition with_ver v (l : leaf) := mk_leaf v (l_perm l) (l_ikey l) (l_klx l) (l_val l) (l_ksuf l) (l_next l) (l_prev l) (l_parent l).
Definition with_perm v (l : leaf) := mk_leaf (l_ver l) v (l_ikey l) (l_klx l) (l_val l) (l_ksuf l) (l_next l) (l_prev l) (l_parent l).
Definition with_ikey v (l : leaf) := mk_leaf (l_ver l) (l_perm l) v (l_klx l) (l_val l) (l_ksuf l) (l_next l) (l_prev l) (l_parent l).
Definition with_klx v (l : leaf) := mk_leaf (l_ver l) (l_perm l) (l_ikey l) v (l_val l) (l_ksuf l) (l_next l) (l_prev l) (l_parent l).
Definition with_val v (l : leaf) := mk_leaf (l_ver l) (l_perm l) (l_ikey l) (l_klx l) v (l_ksuf l) (l_next l) (l_prev l) (l_parent l).
Definition with_ksuf v (l : leaf) := mk_leaf (l_ver l) (l_perm l) (l_ikey l) (l_klx l) (l_val l) v (l_next l) (l_prev l) (l_parent l).
Definition with_next v (l : leaf) := mk_leaf (l_ver l) (l_perm l) (l_ikey l) (l_klx l) (l_val l) (l_ksuf l) v (l_prev l) (l_parent l).
Definition with_prev v (l : leaf) := mk_leaf (l_ver l) (l_perm l) (l_ikey l) (l_klx l) (l_val l) (l_ksuf l) (l_next l) v (l_parent l).
Definition with_parent v (l : leaf) := mk_leaf (l_ver l) (l_perm l) (l_ikey l) (l_klx l) (l_val l) (l_ksuf l) (l_next l) (l_prev l) v.

Definition iwith_ver v (i : inode) := mk_inode v (i_nkeys i) (i_height i) (i_keys i) (i_child i) (i_parent i).
Definition iwith_nkeys v (i : inode) := mk_inode (i_ver i) v (i_height i) (i_keys i) (i_child i) (i_parent i).
Definition iwith_height v (i : inode) := mk_inode (i_ver i) (i_nkeys i) v (i_keys i) (i_child i) (i_parent i).
Definition iwith_keys v (i : inode) := mk_inode (i_ver i) (i_nkeys i) (i_height i) v (i_child i) (i_parent i).
Definition iwith_child v (i : inode) := mk_inode (i_ver i) (i_nkeys i) (i_height i) (i_keys i) v (i_parent i).
Definition iwith_parent v (i : inode) := mk_inode (i_ver i) (i_nkeys i) (i_height i) (i_keys i) (i_child i) v.

Definition mwith_heap v (m : mem) := mk_mem v (bags m) (vals m) (root m) (cnt m) (nxt m) (retired m) (tracked m).
Definition mwith_bags v (m : mem) := mk_mem (heap m) v (vals m) (root m) (cnt m) (nxt m) (retired m) (tracked m).
Definition mwith_vals v (m : mem) := mk_mem (heap m) (bags m) v (root m) (cnt m) (nxt m) (retired m) (tracked m).
Definition mwith_root v (m : mem) := mk_mem (heap m) (bags m) (vals m) v (cnt m) (nxt m) (retired m) (tracked m).
Definition mwith_cnt v (m : mem) := mk_mem (heap m) (bags m) (vals m) (root m) v (nxt m) (retired m) (tracked m).
Definition mwith_nxt v (m : mem) := mk_mem (heap m) (bags m) (vals m) (root m) (cnt m) v (retired m) (tracked m).
Definition mwith_retired v (m : mem) := mk_mem (heap m) (bags m) (vals m) (root m) (cnt m) (nxt m) v (tracked m).
Definition mwith_tracked v (m : mem) := mk_mem (heap m) (bags m) (vals m) (root m) (cnt m) (nxt m) (retired m) v.

(** leaf24.rs:147-168 new_with_root(false) *)
Definition leaf_new : leaf :=
  mk_leaf (v_new true) perm_empty (repeat 0%N WIDTH) (repeat 0%N WIDTH) (repeat 0%N WIDTH) 0 0 0 0.
(** leaf24.rs:183-187 new_root, 195-215 new_layer_root *)
Definition leaf_new_root : leaf := with_ver (v_mark_root (v_new true)) leaf_new.
(** internode.rs:156-173 new, 210-229 new_for_split *)
Definition inode_new (ver : N) (height : nat) : inode :=
  mk_inode ver 0 height (repeat 0%N IWIDTH) (repeat 0%N (IWIDTH + 1)) 0.

Definition P := prog mem.

(** ** atomic accesses to the fields of one node *)
(** load; a dangling or wrongly typed pointer is UB, an index out of range a panic *)
Definition leaf_ld {R} (p : N) (f : leaf -> option R) : P R :=
  atomic (fun m => match heap m !! p with
                   | Some (NLeaf l) => match f l with Some r => Ok (r, m) | None => Er Panic end
                   | _ => Er UB end).
(** store / swap / compare-exchange *)
Definition leaf_up {R} (p : N) (f : leaf -> option (R * leaf)) : P R :=
  atomic (fun m => match heap m !! p with
                   | Some (NLeaf l) =>
                       match f l with
                       | Some (r, l') => Ok (r, mwith_heap (<[p := NLeaf l']> (heap m)) m)
                       | None => Er Panic end
                   | _ => Er UB end).
Definition inode_ld {R} (p : N) (f : inode -> option R) : P R :=
  atomic (fun m => match heap m !! p with
                   | Some (NInode i) => match f i with Some r => Ok (r, m) | None => Er Panic end
                   | _ => Er UB end).
Definition inode_up {R} (p : N) (f : inode -> option (R * inode)) : P R :=
  atomic (fun m => match heap m !! p with
                   | Some (NInode i) =>
                       match f i with
                       | Some (r, i') => Ok (r, mwith_heap (<[p := NInode i']> (heap m)) m)
                       | None => Er Panic end
                   | _ => Er UB end).

Definition list_set (l : list N) (i : nat) (v : N) : option (list N) :=
  match l !! i with Some _ => Some (<[i := v]> l) | None => None end.

(** version word of a leaf or internode (both have it as first field) *)
Definition rd_ver (p : N) (m : mem) : option N :=
  match heap m !! p with
  | Some (NLeaf l) => Some (l_ver l)
  | Some (NInode i) => Some (i_ver i)
  | None => None
  end.
Definition wr_ver (p v : N) (m : mem) : mem :=
  match heap m !! p with
  | Some (NLeaf l) => mwith_heap (<[p := NLeaf (with_ver v l)]> (heap m)) m
  | Some (NInode i) => mwith_heap (<[p := NInode (iwith_ver v i)]> (heap m)) m
  | None => m
  end.
Definition version (p : N) : P N := ver_load (rd_ver p).
Definition stable (F : nat) (p : N) : P N := ver_stable (rd_ver p) F.
Definition lock (F : nat) (p : N) : P N := ver_lock (rd_ver p) (wr_ver p) F.
Definition mark_insert (p lv : N) : P N := guard_mark_insert (rd_ver p) (wr_ver p) lv.
Definition mark_split (p lv : N) : P N := guard_mark_split (rd_ver p) (wr_ver p) lv.
Definition unlock (p lv : N) : P unit := guard_drop (rd_ver p) (wr_ver p) lv.
Definition mark_nonroot (p : N) : P unit := ver_mark_nonroot (rd_ver p) (wr_ver p).
Definition mark_root (p : N) : P unit := ver_mark_root (rd_ver p) (wr_ver p).
Definition unlock_for_split (p : N) : P unit := ver_unlock_for_split (rd_ver p) (wr_ver p).
Definition has_changed (p old : N) : P bool := ver_has_changed (rd_ver p) old.
Definition has_split (p old : N) : P bool := ver_has_split (rd_ver p) old.
Definition flag (p : N) (f : N -> bool) : P bool := v <- version p ;; Ret (f v).

(** leaf24.rs:237-290 ikey, set_ikey, keylenx, set_keylenx, 302 ikey_bound *)
Definition ikey (p : N) (s : nat) : P N := leaf_ld p (fun l => l_ikey l !! s).
Definition set_ikey (p : N) (s : nat) (v : N) : P unit :=
  leaf_up p (fun l => x ← list_set (l_ikey l) s v; Some (tt, with_ikey x l)).
Definition keylenx (p : N) (s : nat) : P N := leaf_ld p (fun l => l_klx l !! s).
Definition set_keylenx (p : N) (s : nat) (v : N) : P unit :=
  leaf_up p (fun l => x ← list_set (l_klx l) s v; Some (tt, with_klx x l)).
Definition ikey_bound (p : N) : P N := ikey p 0.
(** leaf24.rs:621-655 *)
Definition val_ptr (p : N) (s : nat) : P N := leaf_ld p (fun l => l_val l !! s).
Definition set_val_ptr (p : N) (s : nat) (v : N) : P unit :=
  leaf_up p (fun l => x ← list_set (l_val l) s v; Some (tt, with_val x l)).
Definition take_val_ptr (p : N) (s : nat) : P N :=
  leaf_up p (fun l => o ← l_val l !! s; x ← list_set (l_val l) s 0%N; Some (o, with_val x l)).
(** leaf24.rs:672-695 *)
Definition permutation (p : N) : P N := leaf_ld p (fun l => Some (l_perm l)).
Definition set_permutation (p v : N) : P unit := leaf_up p (fun l => Some (tt, with_perm v l)).
Definition cas_permutation (p old new : N) : P bool :=
  leaf_up p (fun l => if (l_perm l =? old)%N then Some (true, with_perm new l) else Some (false, l)).
(** leaf24.rs:345-347 *)
Definition ksuf_ptr (p : N) : P N := leaf_ld p (fun l => Some (l_ksuf l)).
Definition set_ksuf_ptr (p v : N) : P unit := leaf_up p (fun l => Some (tt, with_ksuf v l)).
(** leaf24.rs:760-785 next_raw, set_next; link.rs:9-24 *)
Definition next_raw (p : N) : P N := leaf_ld p (fun l => Some (l_next l)).
Definition set_next (p v : N) : P unit := leaf_up p (fun l => Some (tt, with_next v l)).
Definition cas_next (p old new : N) : P bool :=
  leaf_up p (fun l => if (l_next l =? old)%N then Some (true, with_next new l) else Some (false, l)).
Definition is_marked (p : N) : bool := N.testbit p 0.
Definition mark_ptr (p : N) : N := N.lor p 1.
Definition unmark_ptr (p : N) : N := N.ldiff p 1.
(** leaf24.rs:899-910 prev, set_prev; 920-930 parent, set_parent *)
Definition prev (p : N) : P N := leaf_ld p (fun l => Some (l_prev l)).
Definition set_prev (p v : N) : P unit := leaf_up p (fun l => Some (tt, with_prev v l)).
Definition leaf_parent (p : N) : P N := leaf_ld p (fun l => Some (l_parent l)).
Definition set_leaf_parent (p v : N) : P unit := leaf_up p (fun l => Some (tt, with_parent v l)).
(** leaf24.rs:954-960 can_reuse_slot0 *)
Definition can_reuse_slot0 (p ik : N) : P bool :=
  pv <- prev p ;;
  if (pv =? 0)%N then Ret true else b <- ikey_bound p ;; Ret (b =? ik)%N.

(** internode.rs:247-395 accessors *)
Definition nkeys (p : N) : P nat := inode_ld p (fun i => Some (i_nkeys i)).
Definition set_nkeys (p : N) (n : nat) : P unit := inode_up p (fun i => Some (tt, iwith_nkeys n i)).
Definition inode_ikey (p : N) (j : nat) : P N := inode_ld p (fun i => i_keys i !! j).
Definition set_inode_ikey (p : N) (j : nat) (v : N) : P unit :=
  inode_up p (fun i => x ← list_set (i_keys i) j v; Some (tt, iwith_keys x i)).
Definition child (p : N) (j : nat) : P N := inode_ld p (fun i => i_child i !! j).
Definition set_child (p : N) (j : nat) (v : N) : P unit :=
  inode_up p (fun i => x ← list_set (i_child i) j v; Some (tt, iwith_child x i)).
Definition height (p : N) : P nat := inode_ld p (fun i => Some (i_height i)).
Definition set_height (p : N) (h : nat) : P unit := inode_up p (fun i => Some (tt, iwith_height h i)).
Definition inode_parent (p : N) : P N := inode_ld p (fun i => Some (i_parent i)).
Definition set_inode_parent (p v : N) : P unit := inode_up p (fun i => Some (tt, iwith_parent v i)).

(** ** the tree header *)
Definition load_root : P N := atomic (fun m => Ok (root m, m)).
Definition cas_root (old new : N) : P bool :=
  atomic (fun m => if (root m =? old)%N then Ok (true, mwith_root new m) else Ok (false, m)).
Definition inc_count : P unit := atomic (fun m => Ok (tt, mwith_cnt (cnt m + 1) m)).
Definition load_count : P N := atomic (fun m => Ok (cnt m, m)).

(** ** allocation and reclamation *)
Definition alloc_node (n : node) : P N :=
  atomic (fun m => Ok (nxt m, mwith_nxt (nxt m + 2) (mwith_heap (<[nxt m := n]> (heap m)) m))).
(** alloc24.rs:117-140: push on the allocator's list *)
Definition track (p : N) : P unit := atomic (fun m => Ok (tt, mwith_tracked (p :: tracked m) m)).
Definition alloc_bag (b : bag) : P N :=
  atomic (fun m => Ok (nxt m, mwith_nxt (nxt m + 2) (mwith_bags (<[nxt m := b]> (bags m)) m))).
(** slot.rs:289-305, 399-417 output_to_raw / output_consume_to_raw: a new owned handle *)
Definition output_to_raw (v : N) : P N :=
  atomic (fun m => Ok (nxt m, mwith_nxt (nxt m + 2) (mwith_vals (<[nxt m := v]> (vals m)) m))).
(** slot.rs:293-300, 406-411 output_from_raw; also the dereference in get_ref.
    Reading through a pointer that is no live value is UB. *)
Definition output_from_raw (h : N) : P N :=
  atomic (fun m => match vals m !! h with Some v => Ok (v, m) | None => Er UB end).
(** [guard.defer_retire]: reclaimed later, when no guard can reach it any more *)
Definition retire (g : garbage) : P unit :=
  atomic (fun m => Ok (tt, mwith_retired (g :: retired m) m)).
Definition bag_at {R} (b : N) (f : bag -> res (R * bag)) : P R :=
  atomic (fun m => match bags m !! b with
                   | Some bg => match f bg with
                                | Ok (r, bg') => Ok (r, mwith_bags (<[b := bg']> (bags m)) m)
                                | Er e => Er e end
                   | None => Er UB end).
Definition bag_ld {R} (b : N) (f : bag -> res R) : P R :=
  atomic (fun m => match bags m !! b with
                   | Some bg => match f bg with Ok r => Ok (r, m) | Er e => Er e end
                   | None => Er UB end).

(** seize reclaiming one retired object; freeing twice is UB *)
Definition reclaim1 (g : garbage) (m : mem) : res mem :=
  match g with
  | GVal h => match vals m !! h with Some _ => Ok (mwith_vals (delete h (vals m)) m) | None => Er UB end
  | GBag b => match bags m !! b with Some _ => Ok (mwith_bags (delete b (bags m)) m) | None => Er UB end
  end.
Fixpoint reclaim_list (l : list garbage) (m : mem) : res mem :=
  match l with
  | [] => Ok m
  | g :: l => res_bind (reclaim1 g m) (reclaim_list l)
  end.
(** [collector.reclaim_all()] *)
Definition reclaim_all : P unit :=
  atomic (fun m => res_bind (reclaim_list (retired m) (mwith_retired [] m)) (fun m => Ok (tt, m))).
(** seize may reclaim retired objects whenever no guard protects them; between the calls
    of a single thread none does.  It may leave the [keep] newest for later. *)
Definition reclaim_old (keep : nat) : P unit :=
  atomic (fun m => res_bind (reclaim_list (drop keep (retired m)) (mwith_retired (take keep (retired m)) m)) (fun m => Ok (tt, m))).
