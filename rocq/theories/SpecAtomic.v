(** Specification vocabulary for atomicity on the whole tree (C49, C50): each call takes
    effect at one instant, on an object that may be less obliging than a map. *)
From Verif Require Import Base Prog Mem Tree SpecTree SpecLin SpecConc.

(** ** atomic objects *)
(** what [n] threads may do with an object of which [step s o a s'] says that the operation
    [o] may answer [a] and lead from [s] to [s']: a call takes effect exactly once, after it
    was made and before it answers, and answers what the operation answered at that instant
    (as [atomic_map] of SpecLin.v) *)
Inductive atomic {S} (step : S -> op -> ans -> S -> Prop) (s0 : S) (n : nat) : list action -> S -> list status -> Prop :=
| at_start : atomic step s0 n [] s0 (replicate n Idle)
| at_call acts s st i o :
    atomic step s0 n acts s st -> st !! i = Some Idle ->
    atomic step s0 n (acts ++ [Ev (ECall i o)]) s (<[i := Pending o]> st)
| at_effect acts s st i o a s' :
    atomic step s0 n acts s st -> st !! i = Some (Pending o) -> step s o a s' ->
    atomic step s0 n (acts ++ [TakeEffect i]) s' (<[i := Done a]> st)
| at_return acts s st i a :
    atomic step s0 n acts s st -> st !! i = Some (Done a) ->
    atomic step s0 n (acts ++ [Ev (ERet i a)]) s (<[i := Idle]> st).
(** the history is one of such an object, whose final state is [s] *)
Definition atomically {S} (step : S -> op -> ans -> S -> Prop) (s0 : S) (n : nat) (h : list (N * event)) (s : S) : Prop :=
  exists acts st, atomic step s0 n acts s st /\ visible acts = map snd h.

(** ** entries *)
(** a collection of entries, several of which may have the same key: an insertion adds an
    entry, saying so, or puts its value in the place of that of one entry with its key and
    hands that back; a lookup finds the value of some entry with its key, or misses *)
Definition entries : Type := gset (bytes * N).
Inductive entries_step : entries -> op -> ans -> entries -> Prop :=
| es_add s k v : entries_step s (Insert k v) (AIns None) ({[(k, v)]} ∪ s)
| es_replace s k v v' : (k, v') ∈ s ->
    entries_step s (Insert k v) (AIns (Some v')) ({[(k, v)]} ∪ (s ∖ {[(k, v')]}))
| es_get s k v : (k, v) ∈ s -> entries_step s (Get k) (AGet (Some v)) s
| es_miss s k : entries_step s (Get k) (AGet None) s
| es_get_ref s k v : (k, v) ∈ s -> entries_step s (GetRef k) (AGet (Some v)) s
| es_miss_ref s k : entries_step s (GetRef k) (AGet None) s
| es_len s n : entries_step s Len (ALen n) s.

(** ** maps whose lookups may miss *)
(** [map_step] (SpecTree.v) except that a lookup may find nothing, and that nothing is said
    of [len] (C42) *)
Inductive missing_step : gmap bytes N -> op -> ans -> gmap bytes N -> Prop :=
| ms_map mu o a mu' : map_step mu o = (a, mu') -> missing_step mu o a mu'
| ms_miss mu k : missing_step mu (Get k) (AGet None) mu
| ms_miss_ref mu k : missing_step mu (GetRef k) (AGet None) mu
| ms_len mu n : missing_step mu Len (ALen n) mu.

(** ** histories *)
(** no lookup takes 2^19 or more actions (of all threads together): the version counters
    wrap around (C20) *)
Definition prompt (h : list (N * event)) : Prop := forall h1 t i a h2 t1 k o,
  h = h1 ++ (t, ERet i a) :: h2 -> last_at i h1 = Some (t1, ECall i o) -> o = Get k \/ o = GetRef k ->
  (t < t1 + 2 ^ 19)%N.
(** the insertion of [v] under [k] answered that the key was not there *)
Definition said_new (h : list (N * event)) (k : bytes) (v : N) : Prop := exists h1 t i h2 t1,
  h = h1 ++ (t, ERet i (AIns None)) :: h2 /\ last_at i h1 = Some (t1, ECall i (Insert k v)).
(** no two insertions of a key have said so *)
Definition new_once (h : list (N * event)) : Prop := forall k v v',
  said_new h k v -> said_new h k v' -> v = v'.
