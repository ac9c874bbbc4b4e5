(** The largest number of items during an evaluation. *)
From Verif Require Import Base M_Script M_Interp S_Interp P_Interp.
Open Scope Z_scope.

Notation one := (BA [x01]) (only parsing).
Lemma repeat_app' {A} (x : A) n m : repeat x (n + m) = repeat x n ++ repeat x m.
Proof. apply repeat_app. Qed.
Lemma step_triple st n : executing st -> s_nop st < 201 -> s_stack st = repeat one (n + 3) ->
  step st (Instr x6f None) = Ok (Next (counted st (repeat one (n + 6)) (s_alt st))).
Proof.
  intros X N S. rewrite (repeat_app' one n 6).
  apply (stack_word_step 111 3 [0; 1; 2; 0; 1; 2]%nat st (Instr x6f None) (repeat one n) [one; one; one] (repeat one 6)).
  - cbn [stack_words In]. auto.
  - split; reflexivity.
  - exact X.
  - exact N.
  - rewrite S, repeat_app'. reflexivity.
  - reflexivity.
  - repeat constructor.
Qed.
Lemma run_triples k : forall st n, executing st -> s_nop st + Z.of_nat k <= 201 -> s_stack st = repeat one (n + 3) ->
  exists st', run (repeat (Instr x6f None) k) st = Ok (Next st') /\ s_stack st' = repeat one (n + 3 + 3 * k) /\ s_alt st' = s_alt st.
Proof.
  induction k as [|k IH]; intros st n X N S.
  - exists st. cbn [repeat run]. rewrite Nat.mul_0_r, Nat.add_0_r. auto.
  - cbn [repeat run]. rewrite (step_triple st n X ltac:(lia) S). cbn [bind].
    destruct (IH (counted st (repeat one (n + 6)) (s_alt st)) (n + 3)%nat X) as (st' & R & S' & A).
    + cbn [counted s_nop]. lia.
    + cbn [counted s_stack]. f_equal. lia.
    + exists st'. split; [exact R|]. split; [rewrite S'; f_equal; lia|exact A].
Qed.
Lemma triples_bytes k : ins_list_to_bytes (repeat (Instr x6f None) k) = Ok (repeat x6f k).
Proof. induction k as [|k IH]; cbn [repeat ins_list_to_bytes]; [reflexivity|]. rewrite IH. reflexivity. Qed.

(** 9799 times 1 and 201 times 3DUP *)
Definition full : script := Script None (repeat (Instr x51 None) (Z.to_nat 9799) ++ repeat (Instr x6f None) 201).
Lemma full_peak : exists st st1 l1, reaches st st1 l1 /\ s_nop st = 0 /\ items st = 1000 /\ small_items st /\ items st1 = 11402.
Proof.
  set (st := ready full (repeat one 1000) 0).
  pose proof (run_ones (Z.to_nat 9799) st ltac:(intros [])) as R1.
  remember (Z.to_nat 9799) as k eqn:K.
  set (s1 := Interp _ _ _ _ _ _ _ _ _) in R1.
  assert (S1 : s_stack s1 = repeat one (997 + k + 3)).
  { unfold s1. cbn [s_stack st ready]. rewrite <- repeat_app'. f_equal. lia. }
  destruct (run_triples 201 s1 (997 + k) ltac:(intros []) ltac:(cbn; lia) S1) as (s2 & R2 & S2 & A2).
  exists st, s2, (s_ins full). split; [|split; [|split; [|split]]].
  - exists (repeat x51 k ++ repeat x6f 201), []. split; [|split; [|split]].
    + unfold st, ready, full, script_to_bytes. cbn [s_script s_ins]. rewrite <- K, ones_bytes, triples_bytes. reflexivity.
    + unfold blen. rewrite app_length, !repeat_length. lia.
    + rewrite app_nil_r. reflexivity.
    + unfold full. cbn [s_ins]. rewrite <- K, run_app, R1. cbn [bind]. exact R2.
  - reflexivity.
  - reflexivity.
  - unfold small_items, st. cbn [ready s_stack s_alt].
    split; [|constructor]. apply Forall_forall. intros x I. apply repeat_spec in I. subst x. unfold small_item. cbn. lia.
  - unfold items. rewrite S2, A2. unfold s1. cbn [s_alt st ready]. unfold blen. rewrite repeat_length. cbn [length]. lia.
Qed.
