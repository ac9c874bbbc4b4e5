(** Property theorems C51-C61 and C72: the script interpreter. *)
From Verif Require Import Base M_Hash M_Codec S_Codec M_Keys M_Script S_Script P_Script M_Interp S_Interp P_Interp P_InterpIf.
Open Scope Z_scope.

(** *** C51 *)
Theorem C51_words : forall z k ks st i s args out, In (z, (k, ks)) stack_words -> plain z i -> executing st -> room st ->
  s_stack st = s ++ args -> length args = k -> pick args ks out ->
  step st i = Ok (Next (counted st (s ++ out) (s_alt st))).
Proof. exact stack_word_step. Qed.
Print Assumptions C51_words.

Theorem C51_words_total : forall z k ks (args : list pyb), In (z, (k, ks)) stack_words -> length args = k -> exists out, pick args ks out.
Proof. exact stack_word_total. Qed.
Print Assumptions C51_words_total.

Theorem C51_words_underflow : forall z k ks st i, In (z, (k, ks)) stack_words -> plain z i -> executing st -> room st ->
  (length (s_stack st) < k)%nat -> step st i = Ok (Fail IE_InvalidStack).
Proof. exact stack_word_short. Qed.
Print Assumptions C51_words_underflow.

Theorem C51_ifdup : forall st i s x, plain 115 i -> executing st -> room st -> s_stack st = s ++ [x] ->
  (true_item x -> step st i = Ok (Next (counted st (s ++ [x; x]) (s_alt st)))) /\
  (~ true_item x -> step st i = Ok (Next (counted st (s ++ [x]) (s_alt st)))).
Proof. exact ifdup_step. Qed.
Print Assumptions C51_ifdup.

Theorem C51_depth : forall st i, plain 116 i -> executing st -> room st ->
  exists p, number_item p (blen (s_stack st)) /\ step st i = Ok (Next (counted st (s_stack st ++ [p]) (s_alt st))).
Proof. exact depth_step. Qed.
Print Assumptions C51_depth.

Theorem C51_size : forall st i s x, plain 130 i -> executing st -> room st -> s_stack st = s ++ [x] ->
  exists p, number_item p (pyb_len x) /\ step st i = Ok (Next (counted st (s ++ [x; p]) (s_alt st))).
Proof. exact size_step. Qed.
Print Assumptions C51_size.

Theorem C51_toaltstack : forall st i s x, plain 107 i -> executing st -> room st -> s_stack st = s ++ [x] ->
  step st i = Ok (Next (counted st s (s_alt st ++ [x]))).
Proof. exact toalt_step. Qed.
Print Assumptions C51_toaltstack.

Theorem C51_fromaltstack : forall st i a x, plain 108 i -> executing st -> room st -> s_alt st = a ++ [x] ->
  step st i = Ok (Next (counted st (s_stack st ++ [x]) a)).
Proof. exact fromalt_step. Qed.
Print Assumptions C51_fromaltstack.

Theorem C51_fromaltstack_underflow : forall st i, plain 108 i -> executing st -> room st -> s_alt st = [] -> step st i = Ok (Fail IE_InvalidAltStack).
Proof. exact fromalt_empty. Qed.
Print Assumptions C51_fromaltstack_underflow.

Theorem C51_equal : forall st i s x y, plain 135 i -> executing st -> room st -> s_stack st = s ++ [x; y] ->
  (pyb_bytes x = pyb_bytes y -> step st i = Ok (Next (counted st (s ++ [BA [x01]]) (s_alt st)))) /\
  (pyb_bytes x <> pyb_bytes y -> step st i = Ok (Next (counted st (s ++ [BA []]) (s_alt st)))).
Proof. exact equal_step. Qed.
Print Assumptions C51_equal.

Theorem C51_equalverify : forall st i s x y, plain 136 i -> executing st -> room st -> s_stack st = s ++ [x; y] ->
  (pyb_bytes x = pyb_bytes y -> step st i = Ok (Next (counted st s (s_alt st)))) /\
  (pyb_bytes x <> pyb_bytes y -> step st i = Ok (Fail IE_EqualVerify)).
Proof. exact equalverify_step. Qed.
Print Assumptions C51_equalverify.

Theorem C51_verify : forall st i s x, plain 105 i -> executing st -> room st -> s_stack st = s ++ [x] ->
  (true_item x -> step st i = Ok (Next (counted st s (s_alt st)))) /\
  (~ true_item x -> step st i = Ok (Fail IE_Verify)).
Proof. exact verify_step. Qed.
Print Assumptions C51_verify.

Theorem C51_pick : forall st i a x b p, plain 121 i -> executing st -> room st -> s_stack st = a ++ x :: b ++ [p] ->
  operand (minimal_of st) p (blen b) -> step st i = Ok (Next (counted st (a ++ x :: b ++ [x]) (s_alt st))).
Proof. exact pick_step. Qed.
Print Assumptions C51_pick.

Theorem C51_roll : forall st i a x b p, plain 122 i -> executing st -> room st -> s_stack st = a ++ x :: b ++ [p] ->
  operand (minimal_of st) p (blen b) -> step st i = Ok (Next (counted st (a ++ b ++ [x]) (s_alt st))).
Proof. exact roll_step. Qed.
Print Assumptions C51_roll.

Theorem C51_pick_roll_range : forall z st i s p n, z = 121 \/ z = 122 -> plain z i -> executing st -> room st -> s_stack st = s ++ [p] ->
  operand (minimal_of st) p n -> n < 0 \/ blen s <= n -> step st i = Ok (Fail IE_InvalidStack).
Proof. exact pick_roll_range. Qed.
Print Assumptions C51_pick_roll_range.

Theorem C51_pick_roll_not_a_number : forall z st i s y p, z = 121 \/ z = 122 -> plain z i -> executing st -> room st -> s_stack st = s ++ [y; p] ->
  (forall n, ~ operand (minimal_of st) p n) -> exists e, step st i = Err e.
Proof. exact pick_roll_bad. Qed.
Print Assumptions C51_pick_roll_not_a_number.

Theorem C51_underflow : forall z n st i, In (z, n) needs -> plain z i -> executing st -> room st -> blen (s_stack st) < n ->
  step st i = Ok (Fail IE_InvalidStack).
Proof. exact needs_short. Qed.
Print Assumptions C51_underflow.

Theorem C51_drop : forall st i s x y, plain 117 i -> executing st -> room st ->
  (s_stack st = s ++ [x; y] -> step st i = Ok (Next (counted st s (s_alt st)))) /\
  (s_stack st = [x] -> step st i = Ok (Next (counted st [] (s_alt st)))).
Proof. exact drop_step. Qed.
Print Assumptions C51_drop.

Theorem C51_drop_refuted : exists st i s x, plain 117 i /\ executing st /\ room st /\ s_stack st = s ++ [x] /\
  step st i <> Ok (Next (counted st s (s_alt st))).
Proof. exact drop_refuted. Qed.
Print Assumptions C51_drop_refuted.

Theorem C51_push_zero : forall st i, executing st -> plain 0 i -> step st i = Ok (Next (uncounted st (s_stack st ++ [BA []]))).
Proof. exact zero_step. Qed.
Print Assumptions C51_push_zero.

Theorem C51_push_number : forall st i n, executing st -> plain (80 + n) i -> 1 <= n <= 16 \/ n = -1 ->
  exists p, number_item p n /\ step st i = Ok (Next (uncounted st (s_stack st ++ [p]))).
Proof. exact const_step. Qed.
Print Assumptions C51_push_number.

Theorem C51_nop : forall st i z, executing st -> room st -> plain z i -> z = 97 \/ z = 176 \/ 178 <= z <= 185 ->
  (z = 97 \/ ~ flag (s_flags st) DISCOURAGE -> step st i = Ok (Next (counted st (s_stack st) (s_alt st)))) /\
  (z <> 97 -> flag (s_flags st) DISCOURAGE -> step st i = Ok (Fail IE_DiscourageNops)).
Proof. exact nop_step. Qed.
Print Assumptions C51_nop.

Theorem C51_codeseparator : forall st i, executing st -> room st -> plain 171 i ->
  step st i = Ok (Next (set_begin (counted st (s_stack st) (s_alt st)) (s_pc st + 1))).
Proof. exact codesep_step. Qed.
Print Assumptions C51_codeseparator.

Theorem C51_return : forall st i, executing st -> room st -> plain 106 i -> step st i = Ok (Fail IE_OpReturn).
Proof. exact return_step. Qed.
Print Assumptions C51_return.

Theorem C51_hash : forall st i z f s x, executing st -> room st -> plain z i -> hash_op z f -> s_stack st = s ++ [x] ->
  step st i = Ok (Next (counted st (s ++ [Str (f (pyb_bytes x))]) (s_alt st))).
Proof. exact hash_step. Qed.
Print Assumptions C51_hash.

Theorem C51_hash_underflow : forall st i z, executing st -> room st -> plain z i -> 166 <= z <= 170 -> s_stack st = [] -> step st i = Ok (Fail IE_InvalidStack).
Proof. exact hash_short. Qed.
Print Assumptions C51_hash_underflow.

Theorem C51_reserved : forall st i z, plain z i -> reserved z -> executing st -> room st -> step st i = Ok (Fail IE_BadOpcode).
Proof. exact reserved_step. Qed.
Print Assumptions C51_reserved.

Definition ex_st (stack : list pyb) (fl : Z) : interp := ready (Script None [Instr x51 None]) stack fl.
Definition ex_a : pyb := BA [x0a].
Definition ex_b : pyb := Str [x0b; x0c].
Definition ex_c : pyb := BA [].
Example C51_ex : In (123, (3%nat, [1; 2; 0]%nat)) stack_words /\ plain 123 (Instr x7b None) /\ executing (ex_st [ex_a; ex_b; ex_c] 0)
  /\ room (ex_st [ex_a; ex_b; ex_c] 0) /\ pick [ex_a; ex_b; ex_c] [1; 2; 0]%nat [ex_b; ex_c; ex_a]
  /\ step (ex_st [ex_a; ex_b; ex_c] 0) (Instr x7b None) = Ok (Next (counted (ex_st [ex_a; ex_b; ex_c] 0) [ex_b; ex_c; ex_a] []))
  /\ step (ex_st [ex_a; ex_b] 0) (Instr x7b None) = Ok (Fail IE_InvalidStack)
  /\ step (ex_st [ex_a; ex_b; ex_c; BA [x02]] 0) (Instr x7a None) = Ok (Next (counted (ex_st [ex_a; ex_b; ex_c; BA [x02]] 0) [ex_b; ex_c; ex_a] []))
  /\ step (ex_st [ex_a; ex_b; ex_c; BA [x83]] 0) (Instr x7a None) = Ok (Fail IE_InvalidStack)
  /\ step (ex_st [ex_a; Str [x02]] 0) (Instr x7a None) = Err E_TypeError
  /\ step (ex_st [ex_a; ex_b; ex_c] 0) (Instr x75 None) = Ok (Next (counted (ex_st [ex_a; ex_b; ex_c] 0) [ex_a] [])).
Proof.
  split; [repeat (first [left; reflexivity | right])|]. split; [split; reflexivity|]. split; [intros []|]. split; [reflexivity|].
  split; [repeat constructor|]. repeat split.
Qed.

(** *** C52 *)
Theorem C52_unary : forall z n r st i s p, unary_op z n r -> plain z i -> executing st -> room st -> s_stack st = s ++ [p] ->
  operand (minimal_of st) p n -> exists q, number_item q r /\ step st i = Ok (Next (counted st (s ++ [q]) (s_alt st))).
Proof. exact unary_step. Qed.
Print Assumptions C52_unary.

Theorem C52_unary_total : forall z n, In z [139; 140; 143; 145; 146] -> exists r, unary_op z n r.
Proof. exact unary_total. Qed.
Print Assumptions C52_unary_total.

Theorem C52_unary_not_a_number : forall z st i s p, In z unaries -> plain z i -> executing st -> room st -> s_stack st = s ++ [p] ->
  (forall n, ~ operand (minimal_of st) p n) -> exists e, step st i = Err e.
Proof. exact unary_bad. Qed.
Print Assumptions C52_unary_not_a_number.

Theorem C52_unary_underflow : forall z st i, In z unaries -> plain z i -> executing st -> room st -> s_stack st = [] ->
  step st i = Ok (Fail IE_InvalidStack).
Proof. exact unary_short. Qed.
Print Assumptions C52_unary_underflow.

Theorem C52_binary : forall z a b r st i s p q, binary_op z a b r -> plain z i -> executing st -> room st -> s_stack st = s ++ [p; q] ->
  operand (minimal_of st) p a -> operand (minimal_of st) q b ->
  exists v, number_item v r /\ step st i = Ok (Next (counted st (s ++ [v]) (s_alt st))).
Proof. exact binary_step. Qed.
Print Assumptions C52_binary.

Theorem C52_binary_total : forall z a b, In z [147; 148; 154; 155; 156; 158; 159; 160; 161; 162; 163; 164] -> exists r, binary_op z a b r.
Proof. exact binary_total. Qed.
Print Assumptions C52_binary_total.

Theorem C52_binary_not_a_number : forall z st i s p q, In z binaries -> plain z i -> executing st -> room st -> s_stack st = s ++ [p; q] ->
  (forall n, ~ operand (minimal_of st) p n) \/ (forall n, ~ operand (minimal_of st) q n) -> exists e, step st i = Err e.
Proof. exact binary_bad. Qed.
Print Assumptions C52_binary_not_a_number.

Theorem C52_binary_underflow : forall z st i, In z binaries -> plain z i -> executing st -> room st -> blen (s_stack st) < 2 ->
  step st i = Ok (Fail IE_InvalidStack).
Proof. exact binary_short. Qed.
Print Assumptions C52_binary_underflow.

Theorem C52_numequalverify : forall st i s p q a b, plain 157 i -> executing st -> room st -> s_stack st = s ++ [p; q] ->
  operand (minimal_of st) p a -> operand (minimal_of st) q b ->
  (a = b -> step st i = Ok (Next (counted st s (s_alt st)))) /\ (a <> b -> step st i = Ok (Fail IE_NumEqualVerify)).
Proof. exact numequalverify_step. Qed.
Print Assumptions C52_numequalverify.

Theorem C52_within : forall st i s p q r a b c, plain 165 i -> executing st -> room st -> s_stack st = s ++ [p; q; r] ->
  operand false p a -> operand false q b -> operand false r c ->
  (b <= a < c -> step st i = Ok (Next (counted st (s ++ [BA [x01]]) (s_alt st)))) /\
  (~ b <= a < c -> step st i = Ok (Next (counted st (s ++ [BA []]) (s_alt st)))).
Proof. exact within_step. Qed.
Print Assumptions C52_within.

Theorem C52_within_not_a_number : forall st i s p q r, plain 165 i -> executing st -> room st -> s_stack st = s ++ [p; q; r] ->
  (exists x, In x [p; q; r] /\ forall n, ~ operand false x n) -> exists e, step st i = Err e.
Proof. exact within_bad. Qed.
Print Assumptions C52_within_not_a_number.

Theorem C52_within_underflow : forall st i, plain 165 i -> executing st -> room st -> blen (s_stack st) < 3 -> step st i = Ok (Fail IE_InvalidStack).
Proof. exact within_short. Qed.
Print Assumptions C52_within_underflow.

Theorem C52_operand_unique : forall m p n n', operand m p n -> operand m p n' -> n = n'.
Proof. exact operand_fun. Qed.
Print Assumptions C52_operand_unique.

Theorem C52_abs : forall st i s p n, plain 144 i -> executing st -> room st -> s_stack st = s ++ [p] ->
  operand (minimal_of st) p n -> step st i = Ok (Next (counted st (s ++ [BA [x01]]) (s_alt st))).
Proof. exact abs_step. Qed.
Print Assumptions C52_abs.

Theorem C52_abs_refuted : exists st i s p n, plain 144 i /\ executing st /\ room st /\ s_stack st = s ++ [p] /\ operand (minimal_of st) p n /\
  forall q, number_item q (Z.abs n) -> step st i <> Ok (Next (counted st (s ++ [q]) (s_alt st))).
Proof. exact abs_refuted. Qed.
Print Assumptions C52_abs_refuted.

Example C52_ex : binary_op 148 5 300 (-295) /\ operand false (BA [x05]) 5 /\ operand false (BA [x2c; x01]) 300
  /\ step (ex_st [ex_b; BA [x05]; BA [x2c; x01]] 0) (Instr x94 None)
     = Ok (Next (counted (ex_st [ex_b; BA [x05]; BA [x2c; x01]] 0) [ex_b; BA [x27; x81]] []))
  /\ ~ operand true (BA [x05; x00]) 5 /\ operand false (BA [x05; x00]) 5
  /\ step (ex_st [BA [x01; x02; x03; x04]] 0) (Instr x8b None) = Err E_InvalidScriptNumber
  /\ step (ex_st [BA [x85]] 0) (Instr x90 None) = Ok (Next (counted (ex_st [BA [x85]] 0) [BA [x01]] [])).
Proof.
  split; [exact (b_sub 5 300)|]. split; [apply operand_iff; reflexivity|]. split; [apply operand_iff; reflexivity|].
  split; [reflexivity|].
  split; [intros K; apply operand_iff in K; vm_compute in K; discriminate|]. split; [apply operand_iff; reflexivity|]. split; reflexivity.
Qed.

(** *** C53 *)
Theorem C53_truth : forall p, cast_to_bool p = true <-> true_item p.
Proof. exact cast_iff. Qed.
Print Assumptions C53_truth.

Theorem C53_falsehood : forall p, cast_to_bool p = false <-> ~ true_item p.
Proof. exact cast_false. Qed.
Print Assumptions C53_falsehood.

Theorem C53_bitcoin : forall p, (true_item p <-> bitcoin_true (pyb_bytes p)) <-> ~ (exists r, pyb_bytes p = x00 :: r /\ bitcoin_true (pyb_bytes p)).
Proof. exact bitcoin_agree. Qed.
Print Assumptions C53_bitcoin.

Theorem C53_bitcoin_refuted : exists p, bitcoin_true (pyb_bytes p) /\ ~ true_item p.
Proof. exact truth_refuted. Qed.
Print Assumptions C53_bitcoin_refuted.

Example C53_ex : cast_to_bool (BA [x80]) = false /\ cast_to_bool (BA [x80; x00]) = true /\ cast_to_bool (BA [x00; x01]) = false
  /\ bitcoin_true [x00; x01] /\ ~ bitcoin_true [x00; x80].
Proof.
  split; [reflexivity|]. split; [reflexivity|]. split; [reflexivity|]. split.
  - exists [x00], x01, []. split; [reflexivity|]. split; [discriminate|]. intros [K _]. discriminate.
  - intros (a & c & r & E & N & K). destruct a as [|a0 [|a1 a]]; injection E; intros.
    + subst c. apply N. reflexivity.
    + subst c r. apply K. split; reflexivity.
    + destruct a; discriminate.
Qed.

(** *** C54 *)
Theorem C54_balanced : forall st st', evaluate st = Ok (Next st') -> s_vf st = [] -> block (ops (s_ins (s_script st))).
Proof. exact evaluate_balanced. Qed.
Print Assumptions C54_balanced.

Theorem C54_if : forall st i z s x, plain z i -> z = 99 \/ z = 100 -> executing st -> room st -> s_stack st = s ++ [x] ->
  (true_item x -> step st i = Ok (Next (branched st s (s_vf st ++ [z =? 99])))) /\
  (~ true_item x -> step st i = Ok (Next (branched st s (s_vf st ++ [z =? 100])))).
Proof. exact if_step. Qed.
Print Assumptions C54_if.

Theorem C54_if_underflow : forall st i z, plain z i -> z = 99 \/ z = 100 -> executing st -> room st -> s_stack st = [] -> step st i = Ok (Fail IE_Unbalanced).
Proof. exact if_empty. Qed.
Print Assumptions C54_if_underflow.

Theorem C54_if_unexecuted : forall st i, bZ (i_op i) = 99 \/ bZ (i_op i) = 100 -> ~ long_push i -> In false (s_vf st) -> room st ->
  step st i = Ok (Next (branched st (s_stack st) (s_vf st ++ [false]))).
Proof. exact if_skip. Qed.
Print Assumptions C54_if_unexecuted.

Theorem C54_else_endif : forall st i z l v, plain z i -> room st -> s_vf st = l ++ [v] ->
  (z = 103 -> step st i = Ok (Next (branched st (s_stack st) (l ++ [negb v])))) /\
  (z = 104 -> step st i = Ok (Next (branched st (s_stack st) l))).
Proof. exact else_endif_plain. Qed.
Print Assumptions C54_else_endif.

Theorem C54_else_endif_alone : forall st i z, plain z i -> z = 103 \/ z = 104 -> room st -> s_vf st = [] -> step st i = Ok (Fail IE_Unbalanced).
Proof. exact else_endif_none. Qed.
Print Assumptions C54_else_endif_alone.

Theorem C54_then_branch : forall st st2 i z e f a b s x, plain z i -> z = 99 \/ z = 100 -> plain 103 e -> plain 104 f ->
  executing st -> room st -> s_stack st = s ++ [x] -> (true_item x <-> z = 99) ->
  block (ops a) -> run a (branched st s (s_vf st ++ [true])) = Ok (Next st2) ->
  block (ops b) -> Forall passable b -> s_nop st2 + 2 + counted_ops b <= 201 ->
  run (i :: a ++ e :: b ++ [f]) st = Ok (Next (set_vf (passed st2 (e :: b ++ [f])) (s_vf st))).
Proof. exact then_branch. Qed.
Print Assumptions C54_then_branch.

Theorem C54_else_branch : forall st st2 i z e f a b s x, plain z i -> z = 99 \/ z = 100 -> plain 103 e -> plain 104 f ->
  executing st -> room st -> s_stack st = s ++ [x] -> (true_item x <-> z = 100) ->
  block (ops a) -> Forall passable a -> s_nop st + 2 + counted_ops a <= 201 -> block (ops b) ->
  run b (set_vf (passed (branched st s (s_vf st)) (a ++ [e])) (s_vf st ++ [true])) = Ok (Next st2) -> s_nop st2 < 201 ->
  run (i :: a ++ e :: b ++ [f]) st = Ok (Next (branched st2 (s_stack st2) (s_vf st))).
Proof. exact else_branch. Qed.
Print Assumptions C54_else_branch.

Definition ex_if : script := Script None
  [Instr x63 None; Instr x52 None; Instr x67 None; Instr x53 None; Instr x63 None; Instr x68 None; Instr x68 None].
Example C54_ex : block (ops (s_ins ex_if))
  /\ evaluate (ready ex_if [BA [x01]] 0) = Ok (Next (Interp [BA [x02]] [] 7 0 5 [] IE_None 0 ex_if))
  /\ evaluate (ready ex_if [BA []] 0) = Ok (Next (Interp [] [] 7 0 5 [] IE_None 0 ex_if))
  /\ evaluate (ready (Script None [Instr x63 None; Instr x52 None]) [BA [x01]] 0) = Ok (Fail IE_Unbalanced)
  /\ evaluate (ready (Script None [Instr x51 None; Instr x68 None]) [BA [x01]] 0) = Ok (Fail IE_Unbalanced).
Proof.
  split; [|repeat split]. refine (bl_if 99 [82; 103; 83; 99; 104] [] _ _ _); [left; reflexivity| |constructor].
  refine (bd_else [82] [83; 99; 104] _ _).
  - constructor. apply bl_op; [unfold conditional; lia|constructor].
  - apply bl_op; [unfold conditional; lia|]. refine (bl_if 99 [] [] _ _ _); [left; reflexivity|repeat constructor|constructor].
Qed.

(** *** C55 *)
Theorem C55_skip : forall st i, In false (s_vf st) -> ~ (99 <= bZ (i_op i) <= 104) -> ~ long_push i ->
  (97 <= bZ (i_op i) -> s_nop st < 201) -> ~ disabled (bZ (i_op i)) -> step st i = Ok (Next (skipped st i)).
Proof. exact skip_step. Qed.
Print Assumptions C55_skip.

Theorem C55_only_failures : forall st i r, In false (s_vf st) -> step st i = r ->
  (exists st', r = Ok (Next st')) \/
  (r = Ok (Fail IE_PushSize) /\ long_push i) \/ (r = Ok (Fail IE_OpCount) /\ 97 <= bZ (i_op i) /\ 201 <= s_nop st) \/
  (r = Ok (Fail IE_Disabled) /\ disabled (bZ (i_op i))) \/ (r = Ok (Fail IE_BadOpcode) /\ (bZ (i_op i) = 101 \/ bZ (i_op i) = 102)).
Proof. exact skip_fail. Qed.
Print Assumptions C55_only_failures.

Theorem C55_stacks : forall st i st', In false (s_vf st) -> step st i = Ok (Next st') -> s_stack st' = s_stack st /\ s_alt st' = s_alt st.
Proof. exact skip_stacks. Qed.
Print Assumptions C55_stacks.

Theorem C55_skip_block : forall l st, block (ops l) -> Forall passable l -> In false (s_vf st) -> s_nop st + counted_ops l <= 201 ->
  run l st = Ok (Next (passed st l)).
Proof. exact pass_block. Qed.
Print Assumptions C55_skip_block.

Definition ex_off : interp := Interp [ex_a] [ex_b] 3 0 7 [true; false] IE_None 0 (Script None []).
Example C55_ex : In false (s_vf ex_off) /\ step ex_off (Instr x75 None) = Ok (Next (skipped ex_off (Instr x75 None)))
  /\ step ex_off (Instr x7e None) = Ok (Fail IE_Disabled) /\ step ex_off (Instr x65 None) = Ok (Fail IE_BadOpcode)
  /\ run [Instr x63 None; Instr x6a None; Instr x68 None] ex_off = Ok (Next (passed ex_off [Instr x63 None; Instr x6a None; Instr x68 None])).
Proof. split; [right; left; reflexivity|]. repeat split. Qed.

(** *** C56 *)
Theorem C56_bounds : forall st st1 l1, reaches st st1 l1 -> s_nop st = 0 -> items st <= 1000 -> small_items st ->
  small_items st1 /\ counted_ops l1 <= 201 /\ s_nop st1 <= 201 /\ items st1 <= 1000 + blen l1 + 402 /\ items st1 <= 11402.
Proof. exact reach_limits. Qed.
Print Assumptions C56_bounds.

Theorem C56_script_size : forall st b, script_to_bytes (s_script st) = Ok b -> 10000 < blen b -> evaluate st = Ok (Fail IE_ScriptSize).
Proof. exact evaluate_size. Qed.
Print Assumptions C56_script_size.

Theorem C56_final_items : forall st st', evaluate st = Ok (Next st') -> items st' <= 1000.
Proof. exact evaluate_items. Qed.
Print Assumptions C56_final_items.

Theorem C56_mid_script_refuted : exists s st1 st2 l1,
  reaches (ready s [] 0) st1 l1 /\ 1000 < items st1 /\ evaluate (ready s [] 0) = Ok (Next st2).
Proof. exact stack_limit_late. Qed.
Print Assumptions C56_mid_script_refuted.

Theorem C56_element_size : forall st i, long_push i -> step st i = Ok (Fail IE_PushSize).
Proof. exact step_long. Qed.
Print Assumptions C56_element_size.

Theorem C56_operation_count : forall st i, ~ long_push i -> 97 <= bZ (i_op i) -> 201 <= s_nop st -> step st i = Ok (Fail IE_OpCount).
Proof. exact step_limit. Qed.
Print Assumptions C56_operation_count.

Example C56_ex : reaches (ready (Script None [Instr x51 None; Instr x76 None; Instr x93 None]) [] 0)
    (Interp [BA [x01]; BA [x01]] [] 2 0 1 [] IE_None 0 (Script None [Instr x51 None; Instr x76 None; Instr x93 None])) [Instr x51 None; Instr x76 None]
  /\ step (Interp [] [] 0 0 201 [] IE_None 0 (Script None [])) (Instr x61 None) = Ok (Fail IE_OpCount)
  /\ step (Interp [] [] 0 0 200 [] IE_None 0 (Script None [])) (Instr x61 None) = Ok (Next (Interp [] [] 1 0 201 [] IE_None 0 (Script None []))).
Proof.
  split; [|split; reflexivity]. exists [x51; x76; x93], [Instr x93 None]. split; [reflexivity|]. split; [vm_compute; discriminate|]. split; reflexivity.
Qed.

(** *** C57 *)
Theorem C57_evaluate : forall st st', Exists (fun i => disabled (bZ (i_op i))) (s_ins (s_script st)) -> evaluate st <> Ok (Next st').
Proof. exact disabled_never. Qed.
Print Assumptions C57_evaluate.

Theorem C57_verify : forall self a b f e, Exists (fun i => disabled (bZ (i_op i))) (s_ins a ++ s_ins b) -> verify self a b f <> Ok (true, e).
Proof. exact verify_disabled. Qed.
Print Assumptions C57_verify.

Theorem C57_step : forall st i, ~ long_push i -> room st -> disabled (bZ (i_op i)) -> step st i = Ok (Fail IE_Disabled).
Proof. exact step_disabled. Qed.
Print Assumptions C57_step.

Example C57_ex : disabled (bZ x7e)
  /\ evaluate (ready (Script None [Instr x00 None; Instr x63 None; Instr x7e None; Instr x68 None; Instr x51 None]) [] 0) = Ok (Fail IE_Disabled)
  /\ verify (ready (Script None []) [] 0) (Script None [Instr x51 None]) (Script None [Instr x00 None; Instr x63 None; Instr x7e None; Instr x68 None]) 0
     = Ok (false, IE_Disabled).
Proof. split; [left; vm_compute; split; discriminate|]. split; reflexivity. Qed.

(** *** C58 *)
Theorem C58_step : forall st i st', executing st -> hopeless (bZ (i_op i)) -> step st i <> Ok (Next st').
Proof. exact hopeless_never. Qed.
Print Assumptions C58_step.

Theorem C58_evaluate : forall st st', s_vf st = [] -> straight_line (s_ins (s_script st)) ->
  Exists (fun i => hopeless (bZ (i_op i))) (s_ins (s_script st)) -> evaluate st <> Ok (Next st').
Proof. exact hopeless_script. Qed.
Print Assumptions C58_evaluate.

Theorem C58_verify : forall self a b f e, straight_line (s_ins b) -> Exists (fun i => hopeless (bZ (i_op i))) (s_ins b) -> verify self a b f <> Ok (true, e).
Proof. exact verify_hopeless. Qed.
Print Assumptions C58_verify.

Theorem C58_p2pkh_never : forall self a b f e, shape PayToPubkeyOut (s_ins b) -> verify self a b f <> Ok (true, e).
Proof. exact verify_p2pkh. Qed.
Print Assumptions C58_p2pkh_never.

Theorem C58_p2sh_never : forall self a b f e, shape PayToScriptOut (s_ins b) -> verify self a b f <> Ok (true, e).
Proof. exact verify_p2sh_out. Qed.
Print Assumptions C58_p2sh_never.

Theorem C58_checkmultisig : forall st i z st', executing st -> plain z i -> z = 174 \/ z = 175 ->
  step st i = Ok (Next st') <->
  exists s dummy zero keys k, s_stack st = s ++ [dummy; zero] ++ keys ++ [k] /\
    operand (minimal_of st) k (blen keys) /\ operand (minimal_of st) zero 0 /\
    blen keys <= 20 /\ s_nop st + 1 + blen keys <= 201 /\ (flag (s_flags st) NULLDUMMY -> pyb_len dummy = 0) /\
    st' = multisig_done st (blen keys) (if z =? 175 then s else s ++ [BA [x01]]).
Proof. exact multisig_step. Qed.
Print Assumptions C58_checkmultisig.

Theorem C58_multisig_script : forall m keys n c st st' ds nm nn, s_vf st = [] -> plain (80 + nm) m -> plain (80 + nn) n -> plain 174 c ->
  1 <= nm <= 16 -> 1 <= nn <= 16 -> blen keys = nn -> Forall2 pushes_data keys ds ->
  run (m :: keys ++ [n; c]) st <> Ok (Next st').
Proof. exact multisig_never. Qed.
Print Assumptions C58_multisig_script.

Theorem C58_multisig_never : forall self a b f e m keys n c ds nm nn, s_ins b = m :: keys ++ [n; c] -> plain (80 + nm) m -> plain (80 + nn) n -> plain 174 c ->
  1 <= nm <= 16 -> 1 <= nn <= 16 -> blen keys = nn -> Forall2 pushes_data keys ds -> verify self a b f <> Ok (true, e).
Proof. exact verify_multisig. Qed.
Print Assumptions C58_multisig_never.

Definition ex_sigpush : script := Script None [Instr x02 (Some (BA [x30; x01])); Instr x03 (Some (BA [x02; x03; x04]))].
Definition ex_pkh : script := Script (Some PayToPubkeyOut)
  [Instr x76 None; Instr xa9 None; Instr x14 (Some (BA (repeat x07 20))); Instr x88 None; Instr xac None].
Definition ex_ms : script := Script None
  [Instr x51 None; Instr x03 (Some (BA [x02; x03; x04])); Instr x01 (Some (BA [x09])); Instr x52 None; Instr xae None].
Example C58_ex : shape PayToPubkeyOut (s_ins ex_pkh)
  /\ verify (ready (Script None []) [] 0) ex_sigpush ex_pkh 0 = Ok (false, IE_Unknown E_AttributeError)
  /\ verify (ready (Script None []) [] 0) ex_sigpush (Script None [Instr xac None]) 0 = Ok (false, IE_Unknown E_AttributeError)
  /\ verify (ready (Script None []) [] 0) (Script None [Instr x00 None; Instr x02 (Some (BA [x30; x01]))]) ex_ms 0 = Ok (false, IE_Unknown E_AttributeError)
  /\ verify (ready (Script None []) [] 0) (Script None [Instr x00 None]) (Script None [Instr x00 None; Instr x00 None; Instr xae None]) 0 = Ok (true, IE_None).
Proof.
  split; [apply sh_pk_out; vm_compute; intuition congruence|]. repeat split; vm_compute; reflexivity.
Qed.

(** *** C59 *)
Theorem C59_p2sh : forall self a b f e, flag f P2SH -> verify self a b f <> Ok (true, e).
Proof. exact verify_p2sh. Qed.
Print Assumptions C59_p2sh.

Theorem C59_sigpushonly : forall self a b f, flag f SIGPUSHONLY -> Exists (fun i => 97 <= bZ (i_op i)) (s_ins a) ->
  verify self a b f = Ok (false, IE_SigPushOnly).
Proof. exact verify_sigpushonly. Qed.
Print Assumptions C59_sigpushonly.

Theorem C59_minimaldata_step : forall st i d, executing st -> pushes_data i d ->
  (minimal_of st = false -> step st i = Ok (Next (uncounted st (s_stack st ++ [d])))) /\
  (minimal_of st = true -> forall st', step st i <> Ok (Next st')).
Proof. exact push_step. Qed.
Print Assumptions C59_minimaldata_step.

Theorem C59_minimaldata_evaluate : forall st st', s_vf st = [] -> flag (s_flags st) MINIMALDATA -> straight_line (s_ins (s_script st)) ->
  Exists (fun i => exists d, pushes_data i d) (s_ins (s_script st)) -> evaluate st <> Ok (Next st').
Proof. exact minimal_script. Qed.
Print Assumptions C59_minimaldata_evaluate.

Theorem C59_minimaldata_verify : forall self a b f e, flag f MINIMALDATA -> straight_line (s_ins a) -> Exists (fun i => exists d, pushes_data i d) (s_ins a) ->
  verify self a b f <> Ok (true, e).
Proof. exact verify_minimal. Qed.
Print Assumptions C59_minimaldata_verify.

Theorem C59_pushdata_evaluate : forall st, Forall well_formed (s_ins (s_script st)) -> Exists (fun i => pushdata (i_op i)) (s_ins (s_script st)) ->
  evaluate st = Err E_TypeError.
Proof. exact evaluate_pushdata. Qed.
Print Assumptions C59_pushdata_evaluate.

Theorem C59_pushdata_verify : forall self a b f, Forall well_formed (s_ins a) -> Exists (fun i => pushdata (i_op i)) (s_ins a) -> 
  (flag f SIGPUSHONLY -> Forall (fun i => bZ (i_op i) <= 96) (s_ins a)) -> verify self a b f = Err E_TypeError.
Proof. exact verify_pushdata. Qed.
Print Assumptions C59_pushdata_verify.

Theorem C59_exceptions : forall self a b f e, Forall well_formed (s_ins a ++ s_ins b) -> verify self a b f = Err e ->
  (e = E_TypeError /\ Exists (fun i => pushdata (i_op i)) (s_ins a ++ s_ins b)) \/ (e = E_AttributeError /\ flag f P2SH).
Proof. exact verify_raises. Qed.
Print Assumptions C59_exceptions.

Theorem C59_flags_used : forall self a b f g, agree f g -> verify self a b f = verify self a b g.
Proof. exact verify_flags. Qed.
Print Assumptions C59_flags_used.

Example C59_ex :
     verify (ready (Script None []) [] 0) (Script None [Instr x51 None]) (Script None [Instr x61 None]) 1 = Err E_AttributeError
  /\ verify (ready (Script None []) [] 0) (Script None [Instr x51 None; Instr x61 None]) (Script None [Instr x61 None]) 32 = Ok (false, IE_SigPushOnly)
  /\ (exists e, verify (ready (Script None []) [] 0) (Script None [Instr x01 (Some (BA [x07]))]) (Script None [Instr x61 None]) 64 = Ok (false, e) /\ e <> IE_None)
  /\ verify (ready (Script None []) [] 0) (Script None [Instr x01 (Some (BA [x07]))]) (Script None [Instr x61 None]) 14 = Ok (true, IE_None)
  /\ agree 14 0
  /\ verify (ready (Script None []) [] 0) (Script None [Instr x4c (Some (BA [x07]))]) (Script None [Instr x61 None]) 0 = Err E_TypeError.
Proof.
  split; [reflexivity|]. split; [reflexivity|]. split; [eexists; split; [vm_compute; reflexivity|discriminate]|]. split; [reflexivity|].
  split; [|reflexivity]. intros k H. repeat (destruct H as [<-|H]; [reflexivity|]). destruct H.
Qed.

(** *** C60 *)
Theorem C60_fresh : forall self self' a b f, verify self a b f = verify self' a b f.
Proof. exact verify_fresh. Qed.
Print Assumptions C60_fresh.

Example C60_ex :
     verify (Interp [BA [x01]] [BA [x02]] 17 3 200 [false] IE_Verify 255 ex_pkh) (Script None [Instr x51 None]) (Script None [Instr x61 None]) 0 = Ok (true, IE_None)
  /\ verify (ready (Script None []) [] 0) (Script None [Instr x51 None]) (Script None [Instr x61 None]) 0 = Ok (true, IE_None).
Proof. split; reflexivity. Qed.

(** *** C61 *)
Theorem C61_exactly : forall self a b f e, verify self a b f = Ok (true, e) <->
  e = IE_None /\ ~ flag f P2SH /\ (flag f SIGPUSHONLY -> Forall (fun i => bZ (i_op i) <= 96) (s_ins a)) /\
  exists st1 st2 s x, evaluate (ready a [] f) = Ok (Next st1) /\ evaluate (ready b (s_stack st1) f) = Ok (Next st2) /\
    s_stack st2 = s ++ [x] /\ true_item x.
Proof. exact verify_iff. Qed.
Print Assumptions C61_exactly.

Example C61_ex : verify (ready (Script None []) [] 0) (Script None [Instr x55 None]) (Script None [Instr x93 None; Instr x59 None; Instr x9c None]) 0
    = Ok (false, IE_InvalidStack)
  /\ verify (ready (Script None []) [] 0) (Script None [Instr x54 None; Instr x55 None]) (Script None [Instr x93 None; Instr x59 None; Instr x9c None]) 0 = Ok (true, IE_None)
  /\ verify (ready (Script None []) [] 0) (Script None [Instr x54 None; Instr x54 None]) (Script None [Instr x93 None; Instr x59 None; Instr x9c None]) 0 = Ok (false, IE_EvalFalseInStack)
  /\ verify (ready (Script None []) [] 0) (Script None []) (Script None [Instr x61 None]) 0 = Ok (false, IE_EvalFalseNoResult).
Proof. repeat split. Qed.

(** *** C72 *)
Theorem C72_hash_lock : forall self z f o i1 x i2 h e fl c1 c2, hash_op z f -> plain z o -> pushes_data i1 x -> pushes_data i2 h -> plain 135 e ->
  ~ flag fl MINIMALDATA -> ~ flag fl P2SH ->
  (f (pyb_bytes x) = pyb_bytes h -> verify self (Script c1 [i1]) (Script c2 [o; i2; e]) fl = Ok (true, IE_None)) /\
  (f (pyb_bytes x) <> pyb_bytes h -> verify self (Script c1 [i1]) (Script c2 [o; i2; e]) fl = Ok (false, IE_EvalFalseInStack)).
Proof. exact hashlock. Qed.
Print Assumptions C72_hash_lock.

Definition ex_pre : bytes := [x61; x62; x63].
Definition ex_dig : bytes := sha1 ex_pre.
Example C72_ex : hash_op 167 sha1 /\ plain 167 (Instr xa7 None) /\ pushes_data (Instr x03 (Some (BA ex_pre))) (BA ex_pre)
  /\ pushes_data (Instr x14 (Some (BA ex_dig))) (BA ex_dig)
  /\ verify (ready (Script None []) [] 0) (Script None [Instr x03 (Some (BA ex_pre))])
       (Script None [Instr xa7 None; Instr x14 (Some (BA ex_dig)); Instr x87 None]) 0 = Ok (true, IE_None).
Proof.
  split; [right; left; split; reflexivity|]. split; [split; reflexivity|].
  split; [split; [reflexivity|split; [vm_compute; split; discriminate|reflexivity]]|].
  split; [split; [reflexivity|split; [vm_compute; split; discriminate|vm_compute; reflexivity]]|]. vm_compute. reflexivity.
Qed.
