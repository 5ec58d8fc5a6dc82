(** Properties C17, C18, C36. *)
From Verif Require Import Base Key Suffix SpecKey SpecSuffix SuffixFacts.

Theorem C17_suffix_storage_faithful : forall width cap ops,
  Forall (op_in_range width) ops -> (bytes_written ops < 2 ^ 32 - 1)%N ->
  exists b m, bag_run (bag_with_capacity width cap) (fun _ => None) ops = Ok (b, m) /\
    forall s, s < width -> bag_get b s = Ok (m s).
Proof. exact faithful. Qed.
Print Assumptions C17_suffix_storage_faithful.

Example C17_example :
  let ops := [BTry 3 [1; 2; 3]; BAssign 0 [9]; BTry 3 [4]; BClone; BTry 1 [5; 5]; BAssign 1 [5; 6];
              BClear 0; BCompact [1; 3]%nat]%N in
  Forall (op_in_range 24) ops /\ (bytes_written ops < 2 ^ 32 - 1)%N /\
  match bag_run (bag_with_capacity 24 4) (fun _ => None) ops with
  | Ok (b, m) => bag_get b 3 = Ok (Some [4%N]) /\ bag_get b 1 = Ok (Some [5; 6]%N) /\
                 bag_get b 0 = Ok None /\ m 3 = Some [4%N]
  | Er _ => False
  end.
Proof.
  split; [repeat (constructor; [cbn; repeat constructor; try set_solver; lia|]); constructor|].
  vm_compute. repeat split.
Qed.

(** the read accessors: presence, contents, equality and order of the stored suffix *)
Theorem C17_accessors : forall width cap ops,
  Forall (op_in_range width) ops -> (bytes_written ops < 2 ^ 32 - 1)%N ->
  forall b m, bag_run (bag_with_capacity width cap) (fun _ => None) ops = Ok (b, m) ->
  bag_count b = length (filter (fun s => m s <> None) (seq 0 width)) /\
  forall s, s < width ->
    bag_has b s = Ok (match m s with Some _ => true | None => false end) /\
    bag_get_or_empty b s = Ok (match m s with Some x => x | None => [] end) /\
    (forall x, bag_equals b s x = Ok (bool_decide (m s = Some x))) /\
    (forall x, bag_compare b s x = Ok (match m s with Some y => Some (lex y x) | None => None end)).
Proof. exact accessors. Qed.
Print Assumptions C17_accessors.

(** try_assign_in_place stores exactly when the old suffix of the slot or the spare
    capacity has room, otherwise it changes nothing; it never reallocates the buffer and
    never moves or changes another slot *)
Theorem C17_try_assign_in_place : forall width cap ops s x,
  Forall (op_in_range width) ops -> (bytes_written (ops ++ [BTry s x]) < 2 ^ 32 - 1)%N ->
  op_in_range width (BTry s x) ->
  forall b m, bag_run (bag_with_capacity width cap) (fun _ => None) ops = Ok (b, m) ->
  exists ok b', bag_try_assign b s x = Ok (ok, b') /\
    b_cap b' = b_cap b /\ bag_used b' <= b_cap b /\
    (ok = true <-> (exists y, m s = Some y /\ length x <= length y) \/ bag_used b + length x <= b_cap b) /\
    (ok = false -> b' = b) /\ (ok = true -> bag_get b' s = Ok (Some x)) /\
    forall t, t < width -> t <> s -> b_slots b' !! t = b_slots b !! t /\ bag_get b' t = bag_get b t.
Proof. exact try_assign_spec. Qed.
Print Assumptions C17_try_assign_in_place.

Example C17_try_example :
  let ops := [BTry 3 [1; 2; 3]; BAssign 0 [9]]%N in
  match bag_run (bag_with_capacity 24 4) (fun _ => None) ops with
  | Ok (b, m) => b_cap b = 4 /\ bag_used b = 4 /\ bag_count b = 2 /\ bag_has b 0 = Ok true /\
      bag_compare b 3 [1; 2]%N = Ok (Some Gt) /\ bag_equals b 3 [1; 2; 3]%N = Ok true /\
      (exists b', bag_try_assign b 3 [4; 4]%N = Ok (true, b') /\ bag_get b' 3 = Ok (Some [4; 4]%N)) /\
      bag_try_assign b 1 [7]%N = Ok (false, b)
  | Er _ => False
  end.
Proof. vm_compute. repeat split. eexists. repeat split. Qed.

Theorem C18_compaction : forall width cap ops active,
  Forall (op_in_range width) ops -> (bytes_written ops < 2 ^ 32 - 1)%N -> NoDup active ->
  forall b m, bag_run (bag_with_capacity width cap) (fun _ => None) ops = Ok (b, m) ->
  exists b', bag_compact b active = Ok (bag_used b - bag_used b', b') /\
    (forall s, s < width -> bag_get b' s = Ok (if bool_decide (s ∈ active) then m s else None)) /\
    bag_used b' = sum_list (map (fun s => match m s with Some x => length x | None => 0 end) active).
Proof. exact compact_faithful. Qed.
Print Assumptions C18_compaction.

(** compact_with_permuter drops the excluded slot as well *)
Theorem C18_compaction_excluding : forall width cap ops active exclude,
  Forall (op_in_range width) ops -> (bytes_written ops < 2 ^ 32 - 1)%N -> NoDup active ->
  forall b m, bag_run (bag_with_capacity width cap) (fun _ => None) ops = Ok (b, m) ->
  exists n b', bag_compact_with b active exclude = Ok (n, b') /\
    forall s, s < width ->
      bag_get b' s = Ok (if bool_decide (s ∈ active /\ exclude <> Some s) then m s else None).
Proof. exact compact_with_faithful. Qed.
Print Assumptions C18_compaction_excluding.

Example C18_example :
  match bag_run (bag_new 24) (fun _ => None)
          [BAssign 0 [1; 2]; BAssign 5 [3; 4; 5]; BAssign 0 [6]; BAssign 7 []]%N with
  | Ok (b, _) => match bag_compact b [7; 0] with
                 | Ok (n, b') => n = 5 /\ bag_used b' = 1 /\ bag_get b' 0 = Ok (Some [6%N])
                                 /\ bag_get b' 7 = Ok (Some []) /\ bag_get b' 5 = Ok None
                 | Er _ => False
                 end
  | Er _ => False
  end.
Proof. vm_compute. repeat split. Qed.

(** C36 is false: a bag that was never compacted silently loses a suffix once 4 GiB have
    been appended, because the offset is cast to 32 bits. *)
Theorem C36_suffix_offsets_refuted :
  exists ops b m, Forall (op_in_range 2) ops /\
    bag_run (bag_new 2) (fun _ => None) ops = Ok (b, m) /\
    m 1 = Some [7%N] /\ bag_get b 1 = Ok None.
Proof. exact beyond_4GiB. Qed.
Print Assumptions C36_suffix_offsets_refuted.
