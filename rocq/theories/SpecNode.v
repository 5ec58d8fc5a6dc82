(** Specification vocabulary for operations on one node (C22, C25). *)
From Verif Require Import Base Perm SpecPerm Suffix SpecSuffix SpecSearch Mem.

(** the separators in use, and the child a search key is sent to: the one behind as many
    separators as are not above the key *)
Definition separators (i : inode) : list N := take (i_nkeys i) (i_keys i).
Definition routes (i : inode) (x : N) : option N := i_child i !! n_not_above (separators i) x.
(** an internode: room for 15 separators and 16 children *)
Definition is_internode (i : inode) : Prop :=
  length (i_keys i) = 15 /\ length (i_child i) = 16 /\ i_nkeys i <= 15 /\ ascending (separators i).
(** [k] lies in the range of the child at position [pos] *)
Definition within (i : inode) (pos : nat) (k : N) : Prop :=
  pos <= i_nkeys i /\
  (forall t x, t < pos -> separators i !! t = Some x -> (x < k)%N) /\
  (forall t x, pos <= t -> separators i !! t = Some x -> (k < x)%N).
(** where a key goes after the child at [pos] was divided at [k], the upper part being [c] *)
Definition rerouted (i : inode) (pos : nat) (k c x : N) : option N :=
  if bool_decide (n_not_above (separators i) x = pos /\ (k <= x)%N) then Some c else routes i x.
(** the two nodes are the same except perhaps for their parent pointer *)
Definition same_but_parent (a b : option node) : Prop :=
  a = b \/ exists i pa, a = Some (NInode i) /\ b = Some (NInode (iwith_parent pa i)).

(** an entry of a leaf: slice, length class, suffix, value pointer *)
Definition entry : Type := N * N * option bytes * N.
(** the suffix stored for a slot of class 64 *)
Definition suffix_of (m : mem) (l : leaf) (kx : N) (s : nat) : option bytes :=
  if (kx =? 64)%N then
    match bags m !! l_ksuf l with
    | Some b => match bag_get b s with Ok o => o | Er _ => None end
    | None => None
    end
  else None.
Definition entry_of (m : mem) (l : leaf) (s : nat) : option entry :=
  match l_ikey l !! s, l_klx l !! s, l_val l !! s with
  | Some ik, Some kx, Some v => Some (ik, kx, suffix_of m l kx s, v)
  | _, _, _ => None
  end.
(** the entries of a leaf in logical order *)
Definition entries (m : mem) (p : N) : list entry :=
  match heap m !! p with
  | Some (NLeaf l) => omap (entry_of m l) (active P24 (l_perm l))
  | _ => []
  end.
(** a leaf of 24 slots with a permutation of them; its suffix storage, if it has one, is the
    result of storage operations *)
Definition is_leaf_node (m : mem) (l : leaf) : Prop :=
  length (l_ikey l) = 24 /\ length (l_klx l) = 24 /\ length (l_val l) = 24 /\
  perm_word P24 (l_perm l) /\
  (l_ksuf l = 0%N \/ exists b cap ops mm, bags m !! l_ksuf l = Some b /\
     Forall (op_in_range 24) ops /\ (bytes_written ops < 2 ^ 32 - 1)%N /\
     bag_run (bag_with_capacity 24 cap) (fun _ => None) ops = Ok (b, mm)).
(** the allocator has not handed out the addresses from its counter on, and none at 0 *)
Definition allocator_fresh (m : mem) : Prop :=
  (0 < nxt m)%N /\ bags m !! 0%N = None /\ forall a, (nxt m <= a)%N -> bags m !! a = None.
