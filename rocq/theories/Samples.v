(** Concrete histories showing that the hypotheses of the tree theorems are met. *)
From Verif Require Import Base Prog Mem Tree SpecTree SpecHist SpecShape Counterexamples TreeLaws.

(** keys of many lengths, two sharing 18 bytes, 30 short ones (several leaf splits), and
    one key inserted twice *)
Definition sample : list op :=
  [Insert [] 1%N; Insert [97; 98]%N 2%N; Insert (repeat 7%N 18 ++ [1; 2]%N) 3%N; Insert (repeat 7%N 18 ++ [1; 3; 4; 5]%N) 4%N;
   Insert (repeat 255%N 256) 5%N; Insert [97; 98]%N 6%N; Get [97; 98]%N; GetRef (repeat 255%N 256); Len; IsEmpty]
  ++ map (fun i => Insert [1; 2; N.of_nat i; 3]%N (N.of_nat i + 100)) (seq 0 30).
Lemma sample_ok : history_ok sample.
Proof. split; [apply ops_ok; vm_compute; reflexivity|]. vm_compute. reflexivity. Qed.
Lemma sample_unambiguous : unambiguous sample.
Proof. apply unambb_ok. vm_compute. reflexivity. Qed.
(** keys the code may confuse *)
Definition sample_bad : list op := hist_b ++ [Insert (dig 11) 55%N].
Lemma sample_bad_ok : history_ok sample_bad.
Proof. split; [apply ops_ok; vm_compute; reflexivity|]. vm_compute. reflexivity. Qed.
Lemma sample_bad_ambiguous : ~ unambiguous sample_bad.
Proof.
  intros H. apply (H (dig 11) (dig 11 ++ [120%N]) 11%N 100%N).
  - apply elem_of_list_In. vm_compute. tauto.
  - apply elem_of_list_In. vm_compute. tauto.
  - split; [vm_compute; discriminate|]. exists 0. vm_compute. split; [done|]. split; [done|]. left. lia.
Qed.

Definition sample_fixed : list op := map (fun i => Insert (dig i) 1%N) (seq 0 40).
Lemma sample_fixed_ok : history_ok sample_fixed /\ forall k v, (k, v) ∈ inserts sample_fixed -> length k = 8.
Proof.
  split; [split; [apply ops_ok; vm_compute; reflexivity|vm_compute; reflexivity]|].
  intros k v H. assert (X : Forall (fun x => length x.1 = 8) (inserts sample_fixed)) by (apply Forall_forall; intros x Hx; unfold sample_fixed, inserts in Hx;
    apply elem_of_list_omap in Hx as (o & Ho & Hx); apply elem_of_list_fmap in Ho as (i & -> & _); injection Hx as <-; done).
  rewrite Forall_forall in X. exact (X _ H).
Qed.
Lemma sample_bad_get_ok : history_ok (sample_bad ++ [Get []]).
Proof. split; [apply ops_ok; vm_compute; reflexivity|]. vm_compute. reflexivity. Qed.
Lemma sample_again : history_ok (sample ++ [Insert [97; 98]%N 9%N]) /\ unambiguous (sample ++ [Insert [97; 98]%N 9%N]) /\
  last_value [97; 98]%N (inserts sample) = Some 6%N.
Proof. split; [split; [apply ops_ok; vm_compute; reflexivity|vm_compute; reflexivity]|]. split; [apply unambb_ok; vm_compute; reflexivity|vm_compute; reflexivity]. Qed.
Lemma sample_size : distinct_keys (inserts sample) = 35%N.
Proof. vm_compute. reflexivity. Qed.
Lemma sample_empty : history_ok [Get []] /\ inserts [Get []] = [] /\ history_ok sample_bad /\ inserts sample_bad <> [].
Proof.
  split; [split; [apply ops_ok; vm_compute; reflexivity|vm_compute; reflexivity]|]. split; [done|]. split; [apply sample_bad_ok|].
  vm_compute. discriminate.
Qed.
Lemma get_nil_ok : op_ok (Get []).
Proof. split; [cbn; lia|constructor]. Qed.
Lemma long_short : 256 < length (repeat 0%N 257) /\ history_ok ([] ++ [Insert (repeat 0%N 256) 1%N]).
Proof. split; [rewrite repeat_length; lia|]. split; [apply ops_ok; vm_compute; reflexivity|]. vm_compute. reflexivity. Qed.
Lemma sample_get : exists m r, reachable m /\ run (get 300 [97; 98]%N) m = Ok (Some r, m).
Proof.
  destruct (get_present 300 sample [97; 98]%N 6%N) as (m & H1 & H2).
  - lia.
  - split; [apply ops_ok; vm_compute; reflexivity|vm_compute; reflexivity].
  - apply sample_unambiguous.
  - apply sample_again.
  - exists m, 6%N. split; [exact H1|exact H2].
Qed.
Lemma same_call_sat : Forall2 (Forall2 same_call) [[Get []; Len]; [Insert [] 1%N]] [[GetRef []; Len]; [Insert [] 1%N]].
Proof.
  constructor; [|constructor; [|constructor]].
  - constructor; [right; by eexists|constructor; [by left|constructor]].
  - constructor; [by left|constructor].
Qed.
(** the sample builds a main layer of two levels and more layers *)
Lemma sample_shape : exists m ls, after 300 sample m /\ leaves_at m 1 (root m) = Some ls /\ 2 <= length ls /\ 3 <= size (heap m).
Proof.
  destruct (holds_elim (run_calls insert 300 sample tree_new)
    (fun x => match leaves_at x.2 1 (root x.2) with Some ls => Nat.leb 2 (length ls) && Nat.leb 5 (size (heap x.2)) | None => false end)) as ([l m] & E & H).
  { vm_compute. reflexivity. }
  cbn [snd] in H. destruct (leaves_at m 1 (root m)) as [ls|] eqn:El; [|done]. apply andb_true_iff in H as [H1 H2]. apply Nat.leb_le in H1, H2.
  exists m, ls. split; [exists l; exact E|]. split; [exact El|]. split; [exact H1|]. lia.
Qed.
Definition sample_events : list event :=
  [Call (Insert [97]%N 1%N); Collect 0; Call (Insert [97]%N 2%N); Call (Insert [97]%N 3%N); Collect 1; Call (Get [97]%N); Call (Insert (repeat 7%N 20) 4%N);
   Call (Insert (repeat 7%N 21) 5%N); Collect 0].
Lemma sample_events_ok : history_ok (calls sample_events) /\ unambiguous (calls sample_events).
Proof. split; [split; [apply ops_ok; vm_compute; reflexivity|vm_compute; reflexivity]|]. apply unambb_ok; vm_compute; reflexivity. Qed.
