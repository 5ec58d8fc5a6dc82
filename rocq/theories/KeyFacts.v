(** Proofs about keys. *)
From Verif Require Import Base Key SpecKey.

Lemma be_word_acc bs a :
  fold_left (fun acc b => acc * 256 + b)%N bs a = (a * 256 ^ N.of_nat (length bs) + be_word bs)%N.
Proof.
  unfold be_word. revert a. induction bs as [|b bs IH]; intros a; cbn [fold_left length].
  - rewrite N.pow_0_r. lia.
  - rewrite IH, (IH (0 * 256 + b)%N). rewrite Nat2N.inj_succ, N.pow_succ_r'. lia.
Qed.
Lemma be_word_cons b bs :
  be_word (b :: bs) = (b * 256 ^ N.of_nat (length bs) + be_word bs)%N.
Proof. unfold be_word at 1. cbn [fold_left]. rewrite be_word_acc. lia. Qed.
Lemma be_word_lt bs : is_bytes bs -> (be_word bs < 256 ^ N.of_nat (length bs))%N.
Proof.
  induction 1 as [|b bs Hb Hbs IH]; [done|].
  rewrite be_word_cons. cbn [length]. rewrite Nat2N.inj_succ, N.pow_succ_r'. nia.
Qed.
Lemma be_word_inj a b : is_bytes a -> is_bytes b -> length a = length b ->
  be_word a = be_word b -> a = b.
Proof.
  intros Ha. revert b. induction Ha as [|x a Hx Ha IH]; intros [|y b] Hb Hl; try done.
  inversion Hb; subst. injection Hl as Hl. rewrite !be_word_cons, Hl. intros He.
  pose proof (be_word_lt a Ha) as H1'. pose proof (be_word_lt b ltac:(done)) as H2'.
  rewrite Hl in H1'. set (q := (256 ^ N.of_nat (length b))%N) in *.
  assert (x = y) by nia. subst. f_equal. apply IH; [done|done|lia].
Qed.
Lemma be_word_lex a b : is_bytes a -> is_bytes b -> length a = length b ->
  (be_word a ?= be_word b)%N = lex a b.
Proof.
  intros Ha. revert b. induction Ha as [|x a Hx Ha IH]; intros [|y b] Hb Hl; try done.
  inversion Hb; subst. injection Hl as Hl. rewrite !be_word_cons, Hl. cbn [lex].
  pose proof (be_word_lt a Ha) as H1'. pose proof (be_word_lt b ltac:(done)) as H2'.
  rewrite Hl in H1'. rewrite <- (IH b) by done.
  set (q := (256 ^ N.of_nat (length b))%N) in *. clearbody q.
  destruct (N.compare_spec x y) as [->|Hlt|Hgt].
  - destruct (N.compare_spec (be_word a) (be_word b)); [apply N.compare_eq_iff|apply N.compare_lt_iff|apply N.compare_gt_iff]; lia.
  - apply N.compare_lt_iff. nia.
  - apply N.compare_gt_iff. nia.
Qed.

Definition pad8 (l : bytes) : bytes := take 8 l ++ repeat 0%N (8 - length l).
Lemma pad8_length l : length (pad8 l) = 8.
Proof. unfold pad8. rewrite app_length, take_length, repeat_length. lia. Qed.
Lemma pad8_bytes l : is_bytes l -> is_bytes (pad8 l).
Proof.
  intros H. apply Forall_app. split; [by apply Forall_take|].
  apply Forall_forall. intros x Hx%elem_of_list_In%repeat_spec. by subst.
Qed.
Lemma read_ikey_pad d off : off <= length d -> read_ikey d off = be_word (pad8 (drop off d)).
Proof.
  intros H. unfold read_ikey, read_ikey_slow, pad8, IKEY_SIZE.
  destruct (Nat.leb_spec off (length d)); [|lia].
  destruct (Nat.leb_spec 8 (length (drop off d))).
  - replace (8 - length (drop off d)) with 0 by lia. cbn [repeat]. by rewrite app_nil_r.
  - destruct (Nat.eqb_spec (length (drop off d)) 0) as [He|He].
    + apply nil_length_inv in He. rewrite He. done.
    + rewrite take_ge by lia. done.
Qed.
Lemma read_ikey_lt d off : is_bytes d -> (read_ikey d off < 2^64)%N.
Proof.
  intros H. destruct (decide (off <= length d)).
  - rewrite read_ikey_pad by done.
    pose proof (be_word_lt (pad8 (drop off d))) as Hlt. rewrite pad8_length in Hlt.
    apply Hlt. apply pad8_bytes. by apply Forall_drop.
  - unfold read_ikey. destruct (Nat.leb_spec off (length d)); [lia|done].
Qed.

Lemma lex_refl a : lex a a = Eq.
Proof. induction a; cbn; [done|]. by rewrite N.compare_refl. Qed.
Lemma lex_eq a b : lex a b = Eq <-> a = b.
Proof.
  split; [|intros ->; apply lex_refl]. revert b.
  induction a as [|x a IH]; intros [|y b]; cbn; try done.
  destruct (N.compare_spec x y); try done. subst. intros H. by rewrite (IH _ H).
Qed.
Lemma lex_app_same p a b : lex (p ++ a) (p ++ b) = lex a b.
Proof. induction p; cbn; [done|]. by rewrite N.compare_refl. Qed.

(** ordering of zero-padded slices versus ordering of the byte strings *)
Lemma lex_pad8 a b : lex (pad8 a) (pad8 b) <> Eq -> lex a b = lex (pad8 a) (pad8 b).
Proof.
  unfold pad8. generalize 8. intros n. revert a b.
  induction n as [|n IH]; intros a b; [cbn; by rewrite ?app_nil_r|].
  destruct a as [|x a], b as [|y b]; cbn [take length Nat.sub app repeat lex].
  - by rewrite lex_refl.
  - destruct (N.compare_spec 0 y); try lia; [|done]. subst.
    intros Hne. 
    assert (Hz : forall m b, lex (repeat 0%N m) (take m b ++ repeat 0%N (m - length b)) <> Gt).
    { induction m as [|m IHm]; intros [|z b']; cbn [lex repeat take length Nat.sub app]; try done.
      - by rewrite N.compare_refl, lex_refl.
      - destruct (N.compare_spec 0 z); try lia; [apply IHm|done]. }
    specialize (Hz n b). try rewrite Nat.sub_0_r in *.
    destruct (lex (repeat 0%N n) _); congruence.
  - destruct (N.compare_spec x 0); try lia; [|done]. subst.
    intros Hne. 
    assert (Hz : forall m b, lex (take m b ++ repeat 0%N (m - length b)) (repeat 0%N m) <> Lt).
    { induction m as [|m IHm]; intros [|z b']; cbn [lex repeat take length Nat.sub app]; try done.
      - by rewrite N.compare_refl, lex_refl.
      - destruct (N.compare_spec z 0); try lia; [apply IHm|done]. }
    specialize (Hz n a). try rewrite Nat.sub_0_r in *.
    destruct (lex _ (repeat 0%N n)); congruence.
  - destruct (N.compare_spec x y); try done. apply IH.
Qed.
Lemma pad8_eq_lex a b : pad8 a = pad8 b ->
  lex a b = if Nat.ltb 8 (length a) && Nat.ltb 8 (length b) then lex (drop 8 a) (drop 8 b)
            else Nat.compare (Nat.min (length a) 9) (Nat.min (length b) 9).
Proof.
  unfold pad8. change 9 with (S 8). generalize 8. intros n. revert a b.
  induction n as [|n IH]; intros a b.
  - destruct a, b; cbn; done.
  - destruct a as [|x a], b as [|y b]; cbn [take length Nat.sub app repeat lex drop];
      intros He; try done.
    { cbn [Nat.ltb Nat.leb]. by rewrite andb_false_r. }
    injection He as -> He. rewrite N.compare_refl. rewrite (IH a b He).
    destruct (Nat.ltb_spec n (length a)), (Nat.ltb_spec n (length b)),
      (Nat.ltb_spec (S n) (S (length a))), (Nat.ltb_spec (S n) (S (length b))); try lia; done.
Qed.

(** a key positioned at slice [n] of a byte string [d] *)
Definition kpos (d : bytes) (n : nat) : key :=
  {| k_data := d; k_ikey := read_ikey d (n * 8); k_shift := n;
     k_sufstart := Nat.min (n * 8 + 8) (length d) |}.
Definition krest (k : key) : bytes := drop (k_shift k * 8) (k_data k).

Lemma key_new_pos d k : key_new d = Some k -> k = kpos d 0 /\ length d <= 256.
Proof.
  unfold key_new, kpos, MAX_KEY_LENGTH. destruct (Nat.leb_spec (length d) 256); [|done].
  intros [= <-]. split; [done|lia].
Qed.
Lemma key_new_ok d : length d <= 256 -> key_new d = Some (kpos d 0).
Proof.
  intros H. unfold key_new, MAX_KEY_LENGTH. destruct (Nat.leb_spec (length d) 256); [done|lia].
Qed.
Lemma key_new_none d : 256 < length d -> key_new d = None.
Proof.
  intros H. unfold key_new, MAX_KEY_LENGTH. destruct (Nat.leb_spec (length d) 256); [lia|done].
Qed.
Lemma shift_pos d n : key_shift (kpos d n) = kpos d (n + 1).
Proof. reflexivity. Qed.
Lemma unshift_pos d n : 0 < n -> key_unshift (kpos d n) = kpos d (n - 1).
Proof. reflexivity. Qed.
Lemma unshift_all_pos d n : key_unshift_all (kpos d n) = kpos d 0.
Proof. unfold key_unshift_all. cbn. destruct n; done. Qed.
Lemma current_len_pos d n : key_current_len (kpos d n) = length (drop (n * 8) d).
Proof. unfold key_current_len. cbn. by rewrite drop_length. Qed.
Lemma has_suffix_pos d n : key_has_suffix (kpos d n) = Nat.ltb 8 (length (drop (n * 8) d)).
Proof. unfold key_has_suffix. by rewrite current_len_pos. Qed.
Lemma suffix_pos d n : key_suffix (kpos d n) = drop 8 (drop (n * 8) d).
Proof.
  unfold key_suffix. cbn [kpos k_data k_sufstart]. rewrite drop_drop.
  destruct (Nat.ltb_spec (Nat.min (n * 8 + 8) (length d)) (length d)).
  - f_equal. lia.
  - rewrite drop_ge by lia. done.
Qed.
Lemma ikey_pos d n : n * 8 <= length d -> k_ikey (kpos d n) = be_word (pad8 (drop (n*8) d)).
Proof. intros H. cbn. by apply read_ikey_pad. Qed.

Lemma compare_pos a b i j : is_bytes a -> is_bytes b -> i * 8 <= length a -> j * 8 <= length b ->
  let ra := drop (i * 8) a in let rb := drop (j * 8) b in
  key_compare (kpos a i) (k_ikey (kpos b j)) (key_current_len (kpos b j))
  = if bool_decide (pad8 ra = pad8 rb) && (Nat.ltb 8 (length ra) && Nat.ltb 8 (length rb)) then Eq
    else lex ra rb.
Proof.
  intros Ha Hb Hi Hj ra rb. unfold key_compare.
  rewrite !ikey_pos, !current_len_pos by done. fold ra rb.
  assert (Hra : is_bytes ra) by (by apply Forall_drop).
  assert (Hrb : is_bytes rb) by (by apply Forall_drop).
  rewrite be_word_lex by (rewrite ?pad8_length; done || by apply pad8_bytes).
  destruct (decide (pad8 ra = pad8 rb)) as [He|Hne].
  - rewrite bool_decide_true by done. rewrite He, lex_refl. cbn [andb].
    rewrite (pad8_eq_lex ra rb He). unfold IKEY_SIZE.
    destruct (Nat.ltb_spec 8 (length ra)), (Nat.ltb_spec 8 (length rb)), (Nat.leb_spec (length rb) 8);
      cbn [andb]; try lia; try done.
    + symmetry. apply Nat.compare_gt_iff. lia.
    + replace (Nat.min (length ra) 9) with (length ra) by lia.
      replace (Nat.min (length rb) 9) with 9 by lia.
      destruct (Nat.compare_spec (length ra) (length rb)), (Nat.compare_spec (length ra) 9); lia || done.
    + do 2 f_equal; lia.
  - rewrite bool_decide_false by done. cbn [andb].
    assert (lex (pad8 ra) (pad8 rb) <> Eq) as Hn by (by rewrite lex_eq).
    rewrite (lex_pad8 _ _ Hn). destruct (lex (pad8 ra) (pad8 rb)); done.
Qed.

Lemma slice_order_pos n a b i : is_bytes a -> is_bytes b ->
  i * 8 <= length a -> i * 8 <= length b ->
  length (drop (i * 8) a) <= n * 8 + 8 ->
  slice_order n (kpos a i) (kpos b i) = lex (drop (i * 8) a) (drop (i * 8) b).
Proof.
  intros Ha Hb. revert i. induction n as [|n IH]; intros i Hi Hj Hn; cbn [slice_order];
    rewrite compare_pos by done; rewrite !has_suffix_pos.
  - destruct (Nat.ltb_spec 8 (length (drop (i * 8) a))); [lia|]. cbn [andb].
    rewrite andb_false_r. destruct (lex _ _); done.
  - destruct (decide (pad8 (drop (i * 8) a) = pad8 (drop (i * 8) b))) as [He|Hne].
    + rewrite bool_decide_true by done. cbn [andb].
      rewrite (pad8_eq_lex _ _ He).
      destruct (Nat.ltb_spec 8 (length (drop (i * 8) a))), (Nat.ltb_spec 8 (length (drop (i * 8) b)));
        cbn [andb]; try (destruct (Nat.compare _ _); done).
      rewrite !shift_pos, IH.
      * rewrite !drop_drop. do 2 f_equal; lia.
      * rewrite drop_length in *. lia.
      * rewrite drop_length in *. lia.
      * rewrite drop_length in *. lia.
    + rewrite bool_decide_false by done. cbn [andb].
      assert (lex (pad8 (drop (i * 8) a)) (pad8 (drop (i * 8) b)) <> Eq) as Hn' by (by rewrite lex_eq).
      rewrite (lex_pad8 _ _ Hn'). destruct (lex (pad8 _) _); done.
Qed.
Lemma slice_order_lex a b ka kb : is_bytes a -> is_bytes b ->
  key_new a = Some ka -> key_new b = Some kb ->
  slice_order 32 ka kb = lex a b.
Proof.
  intros Ha Hb [-> HLa]%key_new_pos [-> HLb]%key_new_pos.
  rewrite slice_order_pos; try done; try lia. rewrite drop_length. cbn. lia.
Qed.

(** the ikey and the remaining length (<= 8) determine the remaining bytes *)
Lemma pad8_inj a b : length a = length b -> length a <= 8 -> pad8 a = pad8 b -> a = b.
Proof.
  intros Hl H8. unfold pad8. rewrite !take_ge by lia. intros He.
  apply app_inj_1 in He as [? _]; done.
Qed.
Lemma pad8_take a : pad8 (take 8 a) = pad8 a.
Proof.
  unfold pad8. rewrite take_take, take_length. f_equal. f_equal. lia.
Qed.
Lemma ikey_len_inj a b i j : is_bytes a -> is_bytes b -> i * 8 <= length a -> j * 8 <= length b ->
  k_ikey (kpos a i) = k_ikey (kpos b j) ->
  Nat.min 8 (key_current_len (kpos a i)) = Nat.min 8 (key_current_len (kpos b j)) ->
  take 8 (drop (i*8) a) = take 8 (drop (j*8) b).
Proof.
  intros Ha Hb Hi Hj Hk Hl. rewrite !ikey_pos in Hk by done. rewrite !current_len_pos in Hl.
  apply be_word_inj in Hk; [|apply pad8_bytes; by apply Forall_drop..|by rewrite !pad8_length].
  apply pad8_inj; [rewrite !take_length; lia|rewrite take_length; lia|]. by rewrite !pad8_take.
Qed.

Lemma slices_determine n a b i : is_bytes a -> is_bytes b ->
  i * 8 <= length a -> i * 8 <= length b -> length (drop (i*8) a) <= n * 8 + 8 ->
  key_current_len (kpos a i) = key_current_len (kpos b i) ->
  (forall j, i <= j -> j * 8 <= length a -> k_ikey (kpos a j) = k_ikey (kpos b j)) ->
  drop (i*8) a = drop (i*8) b.
Proof.
  intros Ha Hb. revert i. induction n as [|n IH]; intros i Hi Hj Hn Hl Hk.
  - rewrite <- (take_ge (drop (i*8) a) 8) by lia.
    rewrite <- (take_ge (drop (i*8) b) 8) by (rewrite !current_len_pos in Hl; lia).
    apply ikey_len_inj; try done; [by apply Hk|]. by rewrite Hl.
  - rewrite <- (take_drop 8 (drop (i*8) a)), <- (take_drop 8 (drop (i*8) b)). f_equal.
    + apply ikey_len_inj; try done; [by apply Hk|]. by rewrite Hl.
    + rewrite !current_len_pos, !drop_length in Hl. rewrite drop_length in Hn.
      rewrite !drop_drop. replace (i * 8 + 8) with ((i+1) * 8) by lia.
      destruct (decide ((i+1) * 8 <= length a)).
      * apply IH; try lia; [rewrite drop_length; lia|..].
        -- rewrite !current_len_pos, !drop_length. lia.
        -- intros j Hj1 Hj2. apply Hk; lia.
      * rewrite !drop_ge by lia. done.
Qed.

Lemma shift_by_pos d n q : key_shift_by (kpos d n) (8 * q) = kpos d (n + q).
Proof.
  unfold key_shift_by. replace (8 * q / IKEY_SIZE) with q by (unfold IKEY_SIZE; rewrite Nat.mul_comm, Nat.div_mul; lia).
  induction q as [|q IH]; cbn [Nat.iter nat_rect]; [by rewrite Nat.add_0_r|].
  change (key_shift (Nat.iter q key_shift (kpos d n)) = kpos d (n + S q)).
  rewrite IH, shift_pos. f_equal. lia.
Qed.
Lemma nav_lemma d l p : nav_ok (length d) p l -> nav_apply (kpos d p) l = kpos d (nav_pos p l).
Proof.
  revert p. induction l as [|[] l IH]; intros p; cbn [nav_ok nav_apply nav_pos fold_left]; [done|..].
  - intros [_ H]. by apply IH.
  - intros [_ H]. rewrite shift_by_pos. by apply IH.
  - intros [H0 H]. by apply IH.
  - intros H. rewrite unshift_all_pos. by apply IH.
Qed.

Lemma pad8_alt l : pad8 l = take 8 (l ++ repeat 0%N 8).
Proof.
  unfold pad8. destruct (decide (8 <= length l)).
  - rewrite take_app_le by lia. replace (8 - length l) with 0 by lia. by rewrite app_nil_r.
  - rewrite take_ge by lia. rewrite take_app_ge by lia. f_equal.
    assert (H : forall q m, q <= m -> take q (repeat 0%N m) = repeat 0%N q).
    { induction q as [|q IH]; intros [|m] Hm; [done|done|lia|]. cbn. f_equal. apply IH. lia. }
    symmetry. apply H. lia.
Qed.
Lemma slice_ikey d n : n * 8 <= length d -> k_ikey (kpos d n) = slice d n.
Proof. intros H. rewrite ikey_pos by done. unfold slice. by rewrite pad8_alt. Qed.
Lemma nav_pos_le (d : bytes) l p : p * 8 <= length d -> nav_ok (length d) p l -> nav_pos p l * 8 <= length d.
Proof.
  revert p. induction l as [|[] l IH]; intros p Hp; cbn [nav_ok nav_pos fold_left]; [done|..].
  - intros [H1 H]. apply IH; [lia|done].
  - intros [H1 H]. apply IH; [lia|done].
  - intros [H0 H]. apply IH; [lia|done].
  - intros H. apply IH; [lia|done].
Qed.
Lemma nav_spec d k l : key_new d = Some k -> nav_ok (length d) 0 l ->
  let k' := nav_apply k l in let n := nav_pos 0 l in
  k_data k' = d /\ k_ikey k' = slice d n /\
  key_current_len k' = length (drop (n * 8) d) /\
  key_has_suffix k' = Nat.ltb 8 (length (drop (n * 8) d)) /\
  key_suffix k' = drop (n * 8 + 8) d /\ key_suffix_len k' = length (drop (n * 8 + 8) d) /\
  key_len k' = length d /\ key_is_empty k' = bool_decide (d = []) /\ key_is_shifted k' = negb (Nat.eqb n 0).
Proof.
  intros [-> HL]%key_new_pos Hok. cbn zeta. rewrite nav_lemma by done.
  pose proof (nav_pos_le d l 0 ltac:(lia) Hok).
  rewrite slice_ikey, current_len_pos, has_suffix_pos, suffix_pos, !drop_drop by done.
  do 5 (split; [done|]). split; [|split; [done|split]].
  - unfold key_suffix_len. cbn [kpos key_at k_data k_sufstart]. rewrite drop_length. unfold IKEY_SIZE. lia.
  - unfold key_is_empty. cbn [kpos k_data]. destruct d as [|x d].
    + rewrite slice_ikey by done. rewrite bool_decide_true by done.
      cbn [length] in H. replace (nav_pos 0 l) with 0 by lia. reflexivity.
    + cbn [length Nat.eqb]. rewrite andb_false_r. symmetry. by apply bool_decide_eq_false.
  - unfold key_is_shifted. cbn [kpos k_shift]. by destruct (nav_pos 0 l).
Qed.
Lemma compare_ikey_spec a b : key_compare_ikey a b = (a ?= b)%N.
Proof.
  unfold key_compare_ikey. rewrite N.compare_antisym. destruct (N.ltb_spec a b), (N.ltb_spec b a).
  - lia.
  - by rewrite (proj2 (N.compare_gt_iff b a)).
  - by rewrite (proj2 (N.compare_lt_iff b a)).
  - assert (a = b) as -> by lia. by rewrite N.compare_refl.
Qed.
Lemma compare_slices a b n n' : is_bytes a -> is_bytes b ->
  key_compare_ikey (slice a n) (slice b n')
  = lex (take 8 (drop (n * 8) a ++ repeat 0%N 8)) (take 8 (drop (n' * 8) b ++ repeat 0%N 8)).
Proof.
  intros Ha Hb. rewrite compare_ikey_spec. unfold slice. rewrite <- !pad8_alt.
  apply be_word_lex; [by apply pad8_bytes, Forall_drop..|]. by rewrite !pad8_length.
Qed.
(** [from_ikey] *)
Lemma tzb_app bs z : is_bytes bs -> last bs <> Some 0%N -> bs <> [] -> forall f, z < f ->
  trailing_zero_bytes f (be_word (bs ++ repeat 0%N z)) = z.
Proof.
  intros Hb Hl Hn. induction z as [|z IH]; intros [|f] Hf; try lia.
  - cbn [repeat trailing_zero_bytes]. rewrite app_nil_r.
    destruct (exists_last Hn) as (bs' & x & ->). rewrite last_snoc in Hl.
    unfold be_word. rewrite fold_left_app. cbn [fold_left].
    apply Forall_app in Hb as [_ Hx%Forall_inv].
    rewrite (N.add_comm (_ * 256)), N.mod_add, N.mod_small by done.
    destruct (N.eqb_spec x 0); [congruence|done].
  - replace (bs ++ repeat 0%N (S z)) with ((bs ++ repeat 0%N z) ++ [0%N])
      by (rewrite <- app_assoc; f_equal; symmetry; apply repeat_cons).
    unfold be_word. rewrite fold_left_app. cbn [fold_left]. fold (be_word (bs ++ repeat 0%N z)).
    cbn [trailing_zero_bytes]. rewrite N.add_0_r, N.mod_mul, N.div_mul by done.
    cbn. f_equal. apply IH. lia.
Qed.
Lemma from_ikey_spec bs : is_bytes bs -> length bs <= 8 -> last bs <> Some 0%N ->
  k_ikey (key_from_ikey (slice bs 0)) = slice bs 0 /\
  k_sufstart (key_from_ikey (slice bs 0)) = length bs /\
  key_suffix (key_from_ikey (slice bs 0)) = [].
Proof.
  intros Hb H8 Hl. split; [done|]. split; [|done].
  assert (E : slice bs 0 = be_word (bs ++ repeat 0%N (8 - length bs))).
  { unfold slice. change (drop (0 * 8) bs) with bs. rewrite <- pad8_alt. unfold pad8. by rewrite take_ge by lia. }
  rewrite E. destruct bs as [|b bs]; [reflexivity|].
  unfold key_from_ikey. cbn [k_sufstart].
  destruct (N.eqb_spec (be_word ((b :: bs) ++ repeat 0%N (8 - length (b :: bs)))) 0) as [H0|H0].
  - exfalso. assert (Hz : be_word (repeat 0%N 8) = 0%N) by reflexivity. rewrite <- Hz in H0.
    apply be_word_inj in H0.
    + destruct (@exists_last _ (b :: bs)) as (bs' & x & Ex); [done|]. rewrite Ex in *.
      rewrite last_snoc in Hl. assert (Hin : x ∈ repeat 0%N 8).
      { rewrite <- H0. set_solver. }
      apply elem_of_list_In, repeat_spec in Hin. congruence.
    + apply Forall_app. split; [done|]. apply Forall_forall. intros y Hy%elem_of_list_In%repeat_spec. by subst.
    + apply Forall_forall. intros y Hy%elem_of_list_In%repeat_spec. by subst.
    + rewrite app_length, !repeat_length. lia.
  - rewrite tzb_app; [unfold IKEY_SIZE; cbn [length] in *; lia|done|done|done|cbn [length]; lia].
Qed.
Lemma slices_inj a b : is_bytes a -> is_bytes b -> length a = length b ->
  (forall n, n * 8 <= length a -> slice a n = slice b n) -> a = b.
Proof.
  intros Ha Hb Hl Hs. apply (slices_determine (length a) a b 0); try done; try lia; cbn.
  - rewrite drop_length. lia.
  - unfold key_current_len. cbn. by rewrite Hl.
  - intros j _ Hj. change (k_ikey (kpos a j) = k_ikey (kpos b j)).
    rewrite !slice_ikey by lia. by apply Hs.
Qed.
Lemma slice_tail_inj a b n : is_bytes a -> is_bytes b -> n * 8 <= length a -> n * 8 <= length b ->
  slice a n = slice b n ->
  length (drop (n*8) a) = length (drop (n*8) b) -> drop (n*8+8) a = drop (n*8+8) b ->
  drop (n*8) a = drop (n*8) b.
Proof.
  intros Ha Hb Hna Hnb Hs Hl Hd. rewrite <- !slice_ikey in Hs by done.
  pose proof (ikey_len_inj a b n n Ha Hb Hna Hnb Hs) as Ht.
  rewrite !current_len_pos, Hl in Ht. specialize (Ht eq_refl).
  rewrite <- (take_drop 8 (drop (n*8) a)), <- (take_drop 8 (drop (n*8) b)), !drop_drop.
  by rewrite Ht, Hd.
Qed.
