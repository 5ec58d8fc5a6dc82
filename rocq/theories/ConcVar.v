(** Insertion without its two branches for deeper layers.  Executions in which it does not
    fail are executions of the insertion of Tree.v. *)
From Verif Require Import Base Perm Key SpecKey Prog Version Mem Tree SpecTree SpecLin SpecConc.

(** [p'] does what [p] does until it gives up with [Panic] *)
Fixpoint agree {A} (p p' : P A) : Prop :=
  match p' with
  | Ret a => p = Ret a
  | Fail e => e = Panic \/ p = Fail e
  | Step f k' => exists k, p = Step f k /\ forall r, agree (k r) (k' r)
  end.
Lemma agree_refl {A} (p : P A) : agree p p.
Proof. induction p as [a|e|R f k IH]; cbn; [done|by right|]. by exists k. Qed.
Lemma agree_bind {A B} (p p' : P A) (f f' : A -> P B) : agree p p' -> (forall a, agree (f a) (f' a)) -> agree (bind p f) (bind p' f').
Proof.
  intros H Hf. revert p H. induction p' as [a|e|R g k IH]; intros p; cbn.
  - intros ->. apply Hf.
  - intros [->| ->]; [by left|by right].
  - intros (k' & -> & H). exists (fun r => bind (k' r) f). split; [done|]. intros r. by apply IH.
Qed.
Lemma agree_then {A B} (p : P A) (f f' : A -> P B) : (forall a, agree (f a) (f' a)) -> agree (bind p f) (bind p f').
Proof. apply agree_bind, agree_refl. Qed.

(** as in Tree.v (generic.rs:1549-1874) up to the branches [Layer] and [Conflict] *)
Fixpoint insert_loop_v (F n : nat) (k : key) (v layer_root : N) : P ins_res :=
  match n with
  | 0 => Fail Fuel
  | S n =>
      r <- maybe_parent F layer_root ;;
      p0 <- reach_leaf F F r r (k_ikey k) ;;
      '(p, exceeded) <- advance_by_bound F p0 (k_ikey k) ;;
      if exceeded : bool then rt <- load_root ;; insert_loop_v F n k v rt
      else
      lv <- lock F p ;;
      nr <- next_raw p ;;
      if is_marked nr then
        wait_for_split F p ;;; unlock p lv ;;; insert_loop_v F n k v r
      else
      let np := unmark_ptr nr in
      moved <- (if (np =? 0)%N then Ret false
                else nb <- ikey_bound np ;; Ret (nb <=? k_ikey k)%N) ;;
      if moved : bool then unlock p lv ;;; insert_loop_v F n k v r
      else
      perm <- permutation p ;;
      sr <- search_for_insert p perm k ;;
      match sr with
      | Found s =>
          old <- val_ptr p s ;;
          if (old =? 0)%N then unlock p lv ;;; insert_loop_v F n k v r
          else
            ov <- output_from_raw old ;;
            h <- output_to_raw v ;;
            lv <- mark_insert p lv ;;
            set_val_ptr p s h ;;;
            unlock p lv ;;;
            retire (GVal old) ;;;
            Ret (IOk (Some ov))
      | NotFound pos =>
          let split :=
            ok <- handle_leaf_split false F p lv (k_ikey k) ;;
            if ok : bool then insert_loop_v F n k v r else Ret IErr in
          let finish := fun (lv new_perm : N) (alloc want : nat) =>
            (if Nat.eqb alloc want then Ret tt else Fail Panic) ;;;
            set_permutation p new_perm ;;;
            unlock p lv ;;;
            inc_count ;;;
            Ret (IOk None) in
          if Nat.leb WIDTH (perm_size perm) then split
          else
            let s := perm_back perm in
            reuse <- (if Nat.eqb s 0 then can_reuse_slot0 p (k_ikey k) else Ret true) ;;
            if reuse : bool then
              lv <- assign_slot p lv s k v ;;
              let '(np, al) := perm_insert_from_back perm pos in
              finish lv np al s
            else
              match find_alt perm (seq 1 (WIDTH - perm_size perm - 1)) with
              | Some (alt, off) =>
                  lv <- assign_slot p lv alt k v ;;
                  let perm' := perm_swap_free_slots perm (WIDTH - 1) (WIDTH - 1 - off) in
                  let '(np, al) := perm_insert_from_back perm' pos in
                  finish lv np al alt
              | None => split
              end
      | Layer s => Fail Panic
      | Conflict s => Fail Panic
      end
  end.
Definition insert_v (F : nat) (kb : bytes) (v : N) : P ins_res :=
  match key_new kb with
  | None => Fail Panic
  | Some k => r <- load_root ;; insert_loop_v F F k v r
  end.

Ltac ag1 IH := lazymatch goal with
  | |- forall _, _ => intros ?
  | |- agree ?p ?p => apply agree_refl
  | |- agree (insert_loop _ _ _ _ _ _) _ => apply IH
  | |- agree _ (Fail Panic) => left; reflexivity
  | |- agree (bind _ _) (bind _ _) => apply agree_then
  | |- agree (match ?x with _ => _ end) _ => destruct x
  end.
Lemma agree_insert_loop F n : forall k v r, agree (insert_loop false F n k v r) (insert_loop_v F n k v r).
Proof. induction n as [|n IH]; intros k v r; cbn [insert_loop insert_loop_v]; cbv zeta; [by right|]. repeat ag1 IH. Qed.
Lemma agree_call F o : agree (call insert F o) (call insert_v F o).
Proof.
  destruct o; cbn [call]; try apply agree_refl. apply agree_bind; [|intros; apply agree_refl].
  unfold insert, insert_gen, insert_v. destruct (key_new k); [|by right]. apply agree_then. intros. apply agree_insert_loop.
Qed.

(** ** systems whose threads call it *)
Definition sys_stepv (F : nat) (i : nat) (c : sys) : sys * list event :=
  match c.2 !! i with
  | Some (TIdle, o :: ops) => ((c.1, <[i := (TRun (call insert_v F o), ops)]> c.2), [ECall i o])
  | Some (TRun (Ret a), ops) => ((c.1, <[i := (TIdle, ops)]> c.2), [ERet i a])
  | Some (TRun (Step f k), ops) =>
      match f c.1 with
      | Ok (r, m') => ((m', <[i := (TRun (k r), ops)]> c.2), [])
      | Er e => ((c.1, <[i := (TRun (Fail e), ops)]> c.2), [])
      end
  | _ => (c, [])
  end.
Definition c_stepv (F : nat) (a : act) (c : csys) : csys * list (N * event) :=
  match a with
  | Thread i =>
      let '((m, thr), h) := sys_stepv F i (c_mem c, c_thr c) in
      let blk := replicate (length (retired m) - length (c_blk c)) (holders (c_thr c)) ++ c_blk c in
      (mk_csys m thr (match h with [ERet _ _] => map (without i) blk | _ => blk end) (c_fault c) (c_time c + 1),
       map (pair (c_time c)) h)
  | Collect j =>
      match retired (c_mem c) !! j, c_blk c !! j with
      | Some g, Some [] =>
          match reclaim1 g (mwith_retired (delete j (retired (c_mem c))) (c_mem c)) with
          | Ok m => (mk_csys m (c_thr c) (delete j (c_blk c)) (c_fault c) (c_time c + 1), [])
          | Er _ => (mk_csys (c_mem c) (c_thr c) (c_blk c) true (c_time c + 1), [])
          end
      | _, _ => (mk_csys (c_mem c) (c_thr c) (c_blk c) (c_fault c) (c_time c + 1), [])
      end
  end.
Fixpoint c_runv (F : nat) (acts : list act) (c : csys) : csys * list (N * event) :=
  match acts with
  | [] => (c, [])
  | a :: acts => let '(c, h) := c_stepv F a c in
                 let '(c, h') := c_runv F acts c in (c, h ++ h')
  end.

Definition agree_t (t t' : tstate * list op) : Prop := t.2 = t'.2 /\
  match t.1, t'.1 with TIdle, TIdle => True | TRun p, TRun p' => agree p p' | _, _ => False end.
(** no thread has given up *)
Definition running (c : csys) : Prop := forall i ops, c_thr c !! i <> Some (TRun (Fail Panic), ops).
Record sim (c c' : csys) : Prop := {
  sim_mem : c_mem c = c_mem c'; sim_blk : c_blk c = c_blk c'; sim_fault : c_fault c = c_fault c'; sim_time : c_time c = c_time c';
  sim_thr : Forall2 agree_t (c_thr c) (c_thr c') }.
Lemma sim_start scripts : sim (c_start scripts) (c_start scripts).
Proof. split; try done. cbn. induction scripts; cbn; constructor; [by split|done]. Qed.
Lemma sim_holders thr thr' : Forall2 agree_t thr thr' -> holders thr = holders thr'.
Proof.
  intros H. unfold holders. rewrite (Forall2_length _ _ _ H). apply filter_ext. intros j.
  pose proof (Forall2_lookup_lr agree_t thr thr' j) as E. destruct (thr !! j) as [[t ops]|] eqn:E1.
  - destruct (Forall2_lookup_l _ _ _ _ _ H E1) as ([t' ops'] & E2 & _ & Ha). rewrite E2. cbn in Ha. by destruct t, t'.
  - rewrite lookup_ge_None, (Forall2_length _ _ _ H), <- lookup_ge_None in E1. by rewrite E1.
Qed.
Lemma sim_step F a c c' : sim c c' -> running c' -> (c_step F a c).2 = (c_stepv F a c').2 /\ sim (c_step F a c).1 (c_stepv F a c').1.
Proof.
  intros [E1 E2 E3 E4 E5] Hr. pose proof (sim_holders _ _ E5) as Eh. destruct a as [i|j]; cbn [c_step c_stepv].
  - unfold sys_step, sys_stepv. cbn [fst snd]. rewrite E1, E2, E3, E4, Eh. destruct (c_thr c !! i) as [[t ops]|] eqn:Ei.
    + destruct (Forall2_lookup_l _ _ _ _ _ E5 Ei) as ([t' ops'] & Ei' & Eo & Ha). rewrite Ei'. cbn in Eo, Ha. subst ops'.
      destruct t as [|p], t' as [|p']; try done.
      * destruct ops as [|o ops]; cbn; (split; [done|]); split; try done. apply Forall2_insert; [done|]. split; [done|]. apply agree_call.
      * destruct p' as [a|e|R f k]; cbn in Ha.
        -- subst p. cbn. split; [done|]. split; try done. by apply Forall2_insert.
        -- destruct Ha as [->| ->]; [by destruct (Hr i ops)|]. cbn. split; [done|]. by split.
        -- destruct Ha as (k' & -> & Ha). destruct (f (c_mem c')) as [[r m']|e]; cbn; (split; [done|]); split; try done; apply Forall2_insert; try done; split; try done.
           ++ apply Ha.
           ++ by right.
    + assert (c_thr c' !! i = None) as ->. { rewrite lookup_ge_None, (Forall2_length _ _ _ E5), <- lookup_ge_None in Ei. done. }
      cbn. split; [done|]. by split.
  - rewrite E1, E2, E3, E4. destruct (retired (c_mem c') !! j) as [g|]; [|cbn; split; [done|by split]].
    destruct (c_blk c' !! j) as [[|x B]|]; [|cbn; split; [done|by split]..].
    destruct (reclaim1 _ _); cbn; (split; [done|]); by split.
Qed.
Lemma sim_run F acts : forall c c', sim c c' -> (forall acts', running (c_runv F acts' c').1) ->
  (c_run F acts c).2 = (c_runv F acts c').2 /\ sim (c_run F acts c).1 (c_runv F acts c').1.
Proof.
  induction acts as [|a acts IH]; intros c c' Hs Hr; cbn [c_run c_runv]; [done|].
  destruct (sim_step F a c c' Hs (Hr [])) as [Eh Hs1]. destruct (c_step F a c) as [c1 h1]. destruct (c_stepv F a c') as [c1' h1'] eqn:E. cbn [fst snd] in *. subst h1'.
  destruct (IH c1 c1' Hs1) as [Eh2 Hs2].
  - intros acts'. specialize (Hr (a :: acts')). cbn [c_runv] in Hr. rewrite E in Hr. by destruct (c_runv F acts' c1').
  - destruct (c_run F acts c1), (c_runv F acts c1'). cbn [fst snd] in *. subst. done.
Qed.
