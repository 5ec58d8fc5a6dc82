(** Properties C11, C12. *)
From Verif Require Import Base Key SpecKey KeyFacts.

(** 32 shifts are enough for every accepted key (at most 256 bytes) *)
Theorem C11_slice_order_is_lexicographic : forall a b ka kb,
  is_bytes a -> is_bytes b -> key_new a = Some ka -> key_new b = Some kb ->
  slice_order 32 ka kb = lex a b.
Proof. exact slice_order_lex. Qed.
Print Assumptions C11_slice_order_is_lexicographic.

(** comparing two slice values is comparing the zero-padded slices as byte strings *)
Theorem C11_compare_ikey : forall a b n n', is_bytes a -> is_bytes b ->
  key_compare_ikey (slice a n) (slice b n')
  = lex (take 8 (drop (n * 8) a ++ repeat 0%N 8)) (take 8 (drop (n' * 8) b ++ repeat 0%N 8)).
Proof. exact compare_slices. Qed.
Print Assumptions C11_compare_ikey.

Example C11_example :
  let a := [104; 101; 108; 108; 111; 32; 119; 111; 114]%N in
  let b := [104; 101; 108; 108; 111; 32; 119; 111]%N in
  is_bytes a /\ is_bytes b /\ (exists ka kb, key_new a = Some ka /\ key_new b = Some kb /\
  slice_order 32 ka kb = Gt /\ lex a b = Gt).
Proof.
  split; [repeat constructor|]. split; [repeat constructor|].
  do 2 eexists. repeat split.
Qed.

Theorem C12_slices_identify_the_key : forall a b,
  is_bytes a -> is_bytes b -> length a = length b ->
  (forall n, n * 8 <= length a -> slice a n = slice b n) -> a = b.
Proof. exact slices_inj. Qed.
Print Assumptions C12_slices_identify_the_key.

(** one layer: slice, remaining length and suffix identify the remaining bytes *)
Theorem C12_slice_length_suffix_identify_the_rest : forall a b n,
  is_bytes a -> is_bytes b -> n * 8 <= length a -> n * 8 <= length b ->
  slice a n = slice b n ->
  length (drop (n * 8) a) = length (drop (n * 8) b) ->
  drop (n * 8 + 8) a = drop (n * 8 + 8) b ->
  drop (n * 8) a = drop (n * 8) b.
Proof. exact slice_tail_inj. Qed.
Print Assumptions C12_slice_length_suffix_identify_the_rest.

(** shift / shift_by / unshift / unshift_all move between slices and never change the key *)
Theorem C12_navigation : forall d k l,
  key_new d = Some k -> nav_ok (length d) 0 l ->
  let k' := nav_apply k l in let n := nav_pos 0 l in
  k_data k' = d /\ k_ikey k' = slice d n /\
  key_current_len k' = length (drop (n * 8) d) /\
  key_has_suffix k' = Nat.ltb 8 (length (drop (n * 8) d)) /\
  key_suffix k' = drop (n * 8 + 8) d /\ key_suffix_len k' = length (drop (n * 8 + 8) d) /\
  key_len k' = length d /\ key_is_empty k' = bool_decide (d = []) /\ key_is_shifted k' = negb (Nat.eqb n 0).
Proof. exact nav_spec. Qed.
Print Assumptions C12_navigation.

(** a key made from a bare slice knows how many significant bytes the slice has *)
Theorem C12_from_ikey : forall bs, is_bytes bs -> length bs <= 8 -> last bs <> Some 0%N ->
  k_ikey (key_from_ikey (slice bs 0)) = slice bs 0 /\
  k_sufstart (key_from_ikey (slice bs 0)) = length bs /\
  key_suffix (key_from_ikey (slice bs 0)) = [].
Proof. exact from_ikey_spec. Qed.
Print Assumptions C12_from_ikey.

Example C12_from_ikey_example :
  is_bytes [1; 0; 2]%N /\ last [1; 0; 2]%N <> Some 0%N /\ k_sufstart (key_from_ikey (slice [1; 0; 2]%N 0)) = 3.
Proof. split; [repeat constructor|]. split; [done|reflexivity]. Qed.

Example C12_example :
  nav_ok (length (repeat 7%N 20)) 0 [NShift; NShift; NUnshift; NShift; NUnshiftAll; NShiftBy 2] /\
  is_bytes (repeat 7%N 20) /\ slice (repeat 7%N 20) 2 = 506381209748635648%N.
Proof.
  split; [cbn; repeat split; lia|]. split; [apply (Forall_forall (fun b => (b < 256)%N)); intros x Hx%elem_of_list_In%repeat_spec; subst; reflexivity|vm_compute; reflexivity].
Qed.
