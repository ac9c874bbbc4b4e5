(** Proofs about the script interpreter. *)
From Verif Require Import Base M_Hash M_Codec S_Codec P_Codec P_ScriptNum M_Keys S_Keys M_EC M_Script S_Script P_Script M_Interp S_Interp.
Open Scope Z_scope.

(** ** lists *)
Lemma last_n_app {A} k (s a : list A) : length a = k -> last_n k (s ++ a) = a.
Proof.
  intros H. unfold last_n. rewrite app_length. replace (length s + length a - k)%nat with (length s) by lia.
  rewrite skipn_app, skipn_all, Nat.sub_diag. reflexivity.
Qed.
Lemma drop_last_app {A} k (s a : list A) : length a = k -> drop_last k (s ++ a) = s.
Proof.
  intros H. unfold drop_last. rewrite app_length. replace (length s + length a - k)%nat with (length s) by lia.
  rewrite firstn_app, firstn_all, Nat.sub_diag. apply app_nil_r.
Qed.
Lemma split_last {A} k (l : list A) : drop_last k l ++ last_n k l = l.
Proof. apply firstn_skipn. Qed.
Lemma last_n_length {A} k (l : list A) : length (last_n k l) = Nat.min k (length l).
Proof. unfold last_n. rewrite skipn_length. lia. Qed.
Lemma drop_last_length {A} k (l : list A) : length (drop_last k l) = (length l - k)%nat.
Proof. unfold drop_last. rewrite firstn_length. lia. Qed.
Lemma blen_app {A} (a b : list A) : blen (a ++ b) = blen a + blen b.
Proof. unfold blen. rewrite app_length. lia. Qed.
Lemma split_at_end {A} k (l : list A) : (k <= length l)%nat -> exists s a, l = s ++ a /\ length a = k.
Proof.
  intros H. exists (drop_last k l), (last_n k l). split; [symmetry; apply split_last|]. rewrite last_n_length. lia.
Qed.

(** ** flags *)
Lemma has_flag_bit f k : 0 <= k -> has_flag f (2 ^ k) = Z.testbit f k.
Proof.
  intros H. unfold has_flag. destruct (Z.testbit f k) eqn:T.
  - apply negb_true_iff, Z.eqb_neq. intros E.
    assert (X : Z.testbit (Z.land f (2 ^ k)) k = true) by (rewrite Z.land_spec, T, Z.pow2_bits_true by lia; reflexivity).
    rewrite E, Z.bits_0 in X. discriminate.
  - apply negb_false_iff, Z.eqb_eq. apply Z.bits_inj'. intros n Hn. rewrite Z.bits_0, Z.land_spec, Z.pow2_bits_eqb by lia.
    destruct (Z.eqb_spec k n) as [->|]; [rewrite T|rewrite andb_false_r]; reflexivity.
Qed.
Lemma minimal_flag st : has_flag (s_flags st) VERIFY_MINIMALDATA = minimal_of st.
Proof. apply (has_flag_bit _ 6). lia. Qed.

(** ** executed steps *)
Lemma executing_iff st : executing st <-> existsb negb (s_vf st) = false.
Proof.
  unfold executing. split.
  - intros H. destruct (existsb negb (s_vf st)) eqn:E; [|reflexivity].
    apply existsb_exists in E. destruct E as [[] [I B]]; [discriminate|contradiction].
  - intros H I. assert (existsb negb (s_vf st) = true) by (apply existsb_exists; exists false; split; auto). congruence.
Qed.

Definition quiet (i : instr) : Prop := match data_bytes i with Some d => pyb_len d <= 520 | None => True end.
Lemma disabled_spec o : op_in o disabled_ops = true <-> disabled (bZ o).
Proof. unfold disabled. destruct o; cbn -[Z.le]; split; intros; try discriminate; try reflexivity; try lia. Qed.

Lemma step_op st i : executing st -> room st -> quiet i -> 97 <= bZ (i_op i) -> ~ disabled (bZ (i_op i)) ->
  step st i = dispatch (counted st (s_stack st) (s_alt st)) (minimal_of st) true (i_op i).
Proof.
  intros X R Q O D. unfold step. rewrite minimal_flag. apply executing_iff in X. rewrite X. cbn [negb andb orb].
  assert (Z1 : match data_bytes i with Some d => pyb_len d >? MAX_SCRIPT_ELEMENT_SIZE | None => false end = false).
  { unfold quiet in Q. destruct (data_bytes i); [unfold MAX_SCRIPT_ELEMENT_SIZE; lia|reflexivity]. }
  rewrite Z1. assert (Z2 : op_leb (i_op i) OP_16 = false).
  { unfold op_leb. change (bZ OP_16) with 96. lia. }
  rewrite Z2. cbn [negb andb]. cbn [s_nop set_nop set_pc]. unfold room in R.
  replace (s_nop st + 1 >? 201) with false by lia.
  destruct (op_in (i_op i) disabled_ops) eqn:DD; [apply disabled_spec in DD; contradiction|].
  assert (Z3 : op_leb (i_op i) OP_PUSHDATA4 = false).
  { unfold op_leb. change (bZ OP_PUSHDATA4) with 78. lia. }
  rewrite Z3. destruct st; reflexivity.
Qed.
Lemma plain_inv z i : plain z i -> i = Instr (Zb z) None /\ bZ (Zb z) = z.
Proof. intros [H1 H2]. destruct i as [o d]. cbn in *. subst. rewrite Zb_bZ. auto. Qed.
Lemma plain_quiet o : quiet (Instr o None).
Proof. exact I. Qed.

(** Evaluate the chain of tests for a known opcode. *)
Ltac op_step P X R :=
  apply plain_inv in P; destruct P as [-> _];
  rewrite (step_op _ _ X R (plain_quiet _)) by (vm_compute; intuition congruence);
  match goal with |- context[i_op (Instr ?o None)] => let b := eval vm_compute in o in change (i_op (Instr o None)) with b end;
  match goal with |- context[dispatch ?s ?m ?f ?b] =>
    let e := eval cbv beta iota zeta delta [dispatch op_in op_eqb existsb Z.eqb Pos.eqb bZ Z.of_N Byte.to_N orb
      OP_1NEGATE OP_1 OP_2 OP_3 OP_4 OP_5 OP_6 OP_7 OP_8 OP_9 OP_10 OP_11 OP_12 OP_13 OP_14 OP_15 OP_16 OP_NOP
      OP_CHECKLOCKTIMEVERIFY OP_NOP1 OP_NOP3 OP_NOP4 OP_NOP5 OP_NOP6 OP_NOP7 OP_NOP8 OP_NOP9 OP_NOP10 OP_IF OP_NOTIF
      OP_ELSE OP_ENDIF OP_VERIFY OP_RETURN OP_TOALTSTACK OP_FROMALTSTACK OP_2DROP OP_2DUP OP_3DUP OP_2OVER OP_2ROT
      OP_2SWAP OP_IFDUP OP_DEPTH OP_DROP OP_DUP OP_NIP OP_OVER OP_PICK OP_ROLL OP_ROT OP_SWAP OP_TUCK OP_SIZE
      OP_EQUAL OP_EQUALVERIFY OP_1ADD OP_1SUB OP_NEGATE OP_ABS OP_NOT OP_0NOTEQUAL OP_ADD OP_SUB OP_BOOLAND
      OP_BOOLOR OP_NUMEQUAL OP_NUMEQUALVERIFY OP_NUMNOTEQUAL OP_LESSTHAN OP_GREATERTHAN OP_LESSTHANOREQUAL
      OP_GREATERTHANOREQUAL OP_MIN OP_MAX OP_WITHIN OP_RIPEMD160 OP_SHA1 OP_SHA256 OP_HASH160 OP_HASH256
      OP_CODESEPARATOR OP_CHECKSIG OP_CHECKSIGVERIFY OP_CHECKMULTISIG OP_CHECKMULTISIGVERIFY] in (dispatch s m f b) in
    change (dispatch s m f b) with e end.

Ltac list_of_length H :=
  match type of H with
  | length ?l = 0%nat => destruct l; [clear H|discriminate H]
  | length ?l = S _ => destruct l; [discriminate H|cbn [length] in H; apply Nat.succ_inj in H; list_of_length H]
  end.

Lemma need_enough st n k : n <= blen (s_stack st) -> need st n k = k.
Proof. intros H. unfold need. replace (_ <? _) with false by lia. reflexivity. Qed.
Lemma need_short st n k : blen (s_stack st) < n -> need st n k = Ok (Fail IE_InvalidStack).
Proof. intros H. unfold need. replace (_ <? _) with true by lia. reflexivity. Qed.

Lemma counted_counted st a b c d : set_stack (counted st a b) c = counted st c b /\ set_alt (counted st a b) d = counted st a d.
Proof. split; reflexivity. Qed.

Ltac pick_inv H := repeat match goal with
  | Q : Forall2 _ (_ :: _) _ |- _ => inversion Q; clear Q; subst
  | Q : Forall2 _ [] _ |- _ => inversion Q; clear Q; subst
  | Q : nth_error _ _ = Some _ |- _ => injection Q; clear Q; intros; subst
  end.

Ltac need_ok := rewrite need_enough by (cbn [s_stack counted]; unfold blen; rewrite ?app_length; cbn [length]; lia).
Ltac slices := cbn [s_stack s_alt counted]; rewrite ?last_n_app, ?drop_last_app by reflexivity.

Lemma stack_word_step z k ks st i s args out : In (z, (k, ks)) stack_words -> plain z i -> executing st -> room st ->
  s_stack st = s ++ args -> length args = k -> pick args ks out ->
  step st i = Ok (Next (counted st (s ++ out) (s_alt st))).
Proof.
  intros H P X R S L PK. unfold pick in PK.
  repeat (destruct H as [H|H]; [injection H as <- <- <-; list_of_length L; op_step P X R; cbn [nth_error] in PK; pick_inv PK;
    unfold do_2drop, do_2dup, do_3dup, do_2over, do_2rot, do_2swap, do_dup, do_nip, do_over, do_rot, do_swap, do_tuck, go;
    rewrite S; need_ok; slices; rewrite <- ?app_assoc, ?app_nil_r; reflexivity|]).
  destruct H.
Qed.
Lemma stack_word_total z k ks (args : list pyb) : In (z, (k, ks)) stack_words -> length args = k -> exists out, pick args ks out.
Proof.
  intros H L. unfold pick.
  repeat (destruct H as [H|H]; [injection H as <- <- <-; list_of_length L; eexists; repeat (first [apply Forall2_nil | apply Forall2_cons; [reflexivity|]])|]).
  destruct H.
Qed.
Lemma stack_word_short z k ks st i : In (z, (k, ks)) stack_words -> plain z i -> executing st -> room st ->
  (length (s_stack st) < k)%nat -> step st i = Ok (Fail IE_InvalidStack).
Proof.
  intros H P X R L.
  repeat (destruct H as [H|H]; [injection H as <- <- <-; op_step P X R;
    unfold do_2drop, do_2dup, do_3dup, do_2over, do_2rot, do_2swap, do_dup, do_nip, do_over, do_rot, do_swap, do_tuck;
    apply need_short; cbn [s_stack counted]; unfold blen; lia|]).
  destruct H.
Qed.

(** ** values *)
Lemma operand_iff m p n : decode_script_number p m 4 = Ok n <-> operand m p n.
Proof.
  unfold operand. split.
  - intros H. destruct (Z_le_dec 4 (pyb_len p)) as [L|L]; [rewrite decode_script_number_long in H by lia; discriminate|].
    unfold pyb_len in L. destruct p as [l|l]; cbn [pyb_bytes] in L; fold (blen l) in L.
    + right. destruct l as [|c l]; [injection H as <-; auto|]. rewrite decode_script_number_str in H by (congruence || lia). discriminate.
    + left. exists l. destruct m.
      * destruct (decode_script_number_minimal l 4) as [D1 D2]; [lia|].
        destruct (sm_shortest_dec l) as [SH|SH]; [rewrite (D1 SH) in H; injection H as <-; repeat split; auto; lia|].
        rewrite (D2 SH) in H; discriminate.
      * rewrite decode_script_number_plain in H by lia. injection H as <-. repeat split; [lia|discriminate].
  - intros [[l [-> [L [V M]]]]|[-> ->]]; [|reflexivity]. destruct m.
    + destruct (decode_script_number_minimal l 4) as [D1 _]; [lia|]. rewrite (D1 (M eq_refl)), V. reflexivity.
    + rewrite decode_script_number_plain by lia. rewrite V. reflexivity.
Qed.
Definition number_error (e : exn) : Prop := e = E_InvalidScriptNumber \/ e = E_InvalidMinimalScriptNumber \/ e = E_TypeError.
Lemma operand_err m p : (forall n, ~ operand m p n) -> exists e, decode_script_number p m 4 = Err e.
Proof.
  intros H. destruct (decode_script_number p m 4) as [n|e] eqn:E; [|eauto]. apply operand_iff in E. destruct (H n E).
Qed.
Lemma operand_fun m p n n' : operand m p n -> operand m p n' -> n = n'.
Proof. rewrite <- !operand_iff. congruence. Qed.
Lemma num_item n : number_item (num n) n.
Proof. exists (encode_script_number n). repeat split; [apply sm_val_encode|apply sm_shortest_encode]. Qed.
Lemma number_item_num p n : number_item p n -> p = num n.
Proof. intros [l [-> [<- S]]]. unfold num. rewrite encode_sm_val by exact S. reflexivity. Qed.

Lemma cast_loop_rounds l n i : bZ (nth 0 l x00) = 0 -> cast_loop l n i = false.
Proof. revert i. induction n as [|n IH]; intros i H; [reflexivity|]. cbn [cast_loop]. rewrite H. apply IH. exact H. Qed.
Lemma cast_iff p : cast_to_bool p = true <-> true_item p.
Proof.
  unfold cast_to_bool, true_item. destruct (pyb_bytes p) as [|c r].
  - cbn. split; [discriminate|]. intros [c [r [E _]]]. discriminate.
  - destruct (Z.eq_dec (bZ c) 0) as [E|E].
    + rewrite cast_loop_rounds by exact E. split; [discriminate|]. intros (c' & r' & [= <- <-] & H & _). contradiction.
    + cbn [length cast_loop nth]. replace (bZ c =? 0) with false by lia. cbn [negb]. rewrite negb_true_iff.
      unfold blen. cbn [length]. split.
      * intros H. exists c, r. repeat split; auto. intros [H1 ->]. cbn [length] in H. rewrite H1 in H. discriminate.
      * intros (c' & r' & [= <- <-] & _ & H). destruct (bZ c =? 128) eqn:E1; [|apply andb_false_r].
        destruct r; [exfalso; apply H; split; [lia|reflexivity]|cbn [length]; lia].
Qed.
Lemma cast_false p : cast_to_bool p = false <-> ~ true_item p.
Proof. rewrite <- cast_iff. destruct (cast_to_bool p); intuition congruence. Qed.
Lemma bytes_eq p q : pyb_eqb p q = true <-> pyb_bytes p = pyb_bytes q.
Proof. apply bytes_eqb_eq. Qed.

(** ** the other stack operations *)
Ltac one_op P X R S d := op_step P X R; unfold d, go; cbn [s_stack s_alt counted]; rewrite ?S; need_ok; slices.

Lemma ifdup_step st i s x : plain 115 i -> executing st -> room st -> s_stack st = s ++ [x] ->
  (true_item x -> step st i = Ok (Next (counted st (s ++ [x; x]) (s_alt st)))) /\
  (~ true_item x -> step st i = Ok (Next (counted st (s ++ [x]) (s_alt st)))).
Proof.
  intros P X R S. split; intros T.
  - one_op P X R S do_ifdup. rewrite (proj2 (cast_iff x) T), <- app_assoc. reflexivity.
  - one_op P X R S do_ifdup. rewrite (proj2 (cast_false x) T). reflexivity.
Qed.
Lemma depth_step st i : plain 116 i -> executing st -> room st ->
  exists p, number_item p (blen (s_stack st)) /\ step st i = Ok (Next (counted st (s_stack st ++ [p]) (s_alt st))).
Proof. intros P X R. exists (num (blen (s_stack st))). split; [apply num_item|]. op_step P X R. reflexivity. Qed.
Lemma size_step st i s x : plain 130 i -> executing st -> room st -> s_stack st = s ++ [x] ->
  exists p, number_item p (pyb_len x) /\ step st i = Ok (Next (counted st (s ++ [x; p]) (s_alt st))).
Proof.
  intros P X R S. exists (num (pyb_len x)). split; [apply num_item|]. one_op P X R S do_size. rewrite <- !app_assoc. reflexivity.
Qed.
Lemma toalt_step st i s x : plain 107 i -> executing st -> room st -> s_stack st = s ++ [x] ->
  step st i = Ok (Next (counted st s (s_alt st ++ [x]))).
Proof. intros P X R S. one_op P X R S do_toalt. reflexivity. Qed.
Lemma fromalt_step st i a x : plain 108 i -> executing st -> room st -> s_alt st = a ++ [x] ->
  step st i = Ok (Next (counted st (s_stack st ++ [x]) a)).
Proof.
  intros P X R S. op_step P X R. unfold do_fromalt, go. cbn [s_stack s_alt counted]. rewrite S.
  unfold blen. rewrite app_length. cbn [length]. replace (_ <? 1) with false by lia. slices. reflexivity.
Qed.
Lemma fromalt_empty st i : plain 108 i -> executing st -> room st -> s_alt st = [] -> step st i = Ok (Fail IE_InvalidAltStack).
Proof. intros P X R S. op_step P X R. unfold do_fromalt. cbn [s_alt counted]. rewrite S. reflexivity. Qed.
Lemma equal_step st i s x y : plain 135 i -> executing st -> room st -> s_stack st = s ++ [x; y] ->
  (pyb_bytes x = pyb_bytes y -> step st i = Ok (Next (counted st (s ++ [BA [x01]]) (s_alt st)))) /\
  (pyb_bytes x <> pyb_bytes y -> step st i = Ok (Next (counted st (s ++ [BA []]) (s_alt st)))).
Proof.
  intros P X R S. split; intros T.
  - one_op P X R S do_equal. rewrite (proj2 (bytes_eq x y) T). reflexivity.
  - one_op P X R S do_equal. rewrite <- bytes_eq in T. apply not_true_is_false in T. rewrite T. reflexivity.
Qed.
Lemma equalverify_step st i s x y : plain 136 i -> executing st -> room st -> s_stack st = s ++ [x; y] ->
  (pyb_bytes x = pyb_bytes y -> step st i = Ok (Next (counted st s (s_alt st)))) /\
  (pyb_bytes x <> pyb_bytes y -> step st i = Ok (Fail IE_EqualVerify)).
Proof.
  intros P X R S. split; intros T.
  - one_op P X R S do_equal. rewrite (proj2 (bytes_eq x y) T). rewrite ?drop_last_app by reflexivity. reflexivity.
  - one_op P X R S do_equal. rewrite <- bytes_eq in T. apply not_true_is_false in T. rewrite T. reflexivity.
Qed.
Lemma verify_step st i s x : plain 105 i -> executing st -> room st -> s_stack st = s ++ [x] ->
  (true_item x -> step st i = Ok (Next (counted st s (s_alt st)))) /\
  (~ true_item x -> step st i = Ok (Fail IE_Verify)).
Proof.
  intros P X R S. split; intros T.
  - one_op P X R S do_verify. rewrite (proj2 (cast_iff x) T). reflexivity.
  - one_op P X R S do_verify. rewrite (proj2 (cast_false x) T). reflexivity.
Qed.
Lemma drop_step st i s x y : plain 117 i -> executing st -> room st ->
  (s_stack st = s ++ [x; y] -> step st i = Ok (Next (counted st s (s_alt st)))) /\
  (s_stack st = [x] -> step st i = Ok (Next (counted st [] (s_alt st)))).
Proof.
  intros P X R. split; intros S.
  - one_op P X R S do_drop. change (s ++ [x; y]) with (s ++ [x] ++ [y]). rewrite app_assoc, !drop_last_app by reflexivity. reflexivity.
  - one_op P X R S do_drop. reflexivity.
Qed.

(** number of items the remaining single-stack operations need *)
Lemma needs_short z n st i : In (z, n) needs -> plain z i -> executing st -> room st -> blen (s_stack st) < n ->
  step st i = Ok (Fail IE_InvalidStack).
Proof.
  intros H P X R L.
  repeat (destruct H as [H|H]; [injection H as <- <-; op_step P X R;
    unfold do_ifdup, do_size, do_toalt, do_equal, do_verify, do_drop, do_pick_roll; apply need_short; cbn [s_stack counted]; lia|]).
  destruct H.
Qed.

Lemma nth_error_mid {A} (a b : list A) x : nth_error (a ++ x :: b) (length (a ++ x :: b) - length b - 1) = Some x.
Proof.
  rewrite app_length. cbn [length]. replace (length a + S (length b) - length b - 1)%nat with (length a) by lia.
  rewrite nth_error_app2, Nat.sub_diag by lia. reflexivity.
Qed.
Lemma pick_step st i a x b p : plain 121 i -> executing st -> room st -> s_stack st = a ++ x :: b ++ [p] ->
  operand (minimal_of st) p (blen b) -> step st i = Ok (Next (counted st (a ++ x :: b ++ [x]) (s_alt st))).
Proof.
  intros P X R S O. apply operand_iff in O. change (a ++ x :: b ++ [p]) with (a ++ (x :: b) ++ [p]) in S. rewrite app_assoc in S.
  op_step P X R. unfold do_pick_roll, go. rewrite need_enough by (cbn [s_stack counted]; rewrite S; unfold blen; rewrite !app_length; cbn [length]; lia).
  cbn [s_stack counted]. rewrite S. slices. rewrite O. cbn [bind].
  replace ((blen b <? 0) || (blen b >=? blen (a ++ x :: b))) with false by (rewrite blen_app; unfold blen; cbn [length]; lia).
  replace (Z.to_nat (blen b)) with (length b) by (unfold blen; lia). rewrite nth_error_mid.
  rewrite <- !app_assoc. reflexivity.
Qed.
Lemma roll_step st i a x b p : plain 122 i -> executing st -> room st -> s_stack st = a ++ x :: b ++ [p] ->
  operand (minimal_of st) p (blen b) -> step st i = Ok (Next (counted st (a ++ b ++ [x]) (s_alt st))).
Proof.
  intros P X R SS O. apply operand_iff in O. change (a ++ x :: b ++ [p]) with (a ++ (x :: b) ++ [p]) in SS. rewrite app_assoc in SS.
  op_step P X R. unfold do_pick_roll, go. rewrite need_enough by (cbn [s_stack counted]; rewrite SS; unfold blen; rewrite !app_length; cbn [length]; lia).
  cbn [s_stack counted]. rewrite SS. slices. rewrite O. cbn [bind].
  replace ((blen b <? 0) || (blen b >=? blen (a ++ x :: b))) with false by (rewrite blen_app; unfold blen; cbn [length]; lia).
  replace (Z.to_nat (blen b)) with (length b) by (unfold blen; lia). rewrite nth_error_mid.
  rewrite app_length. cbn [length]. replace (length a + S (length b) - length b - 1)%nat with (length a) by lia.
  rewrite firstn_app, firstn_all, Nat.sub_diag, skipn_app, (skipn_all2 a) by lia.
  replace (S (length a) - length a)%nat with 1%nat by lia. cbn [firstn skipn app]. rewrite app_nil_r, <- !app_assoc. reflexivity.
Qed.
Lemma pick_roll_range z st i s p n : z = 121 \/ z = 122 -> plain z i -> executing st -> room st -> s_stack st = s ++ [p] ->
  operand (minimal_of st) p n -> n < 0 \/ blen s <= n -> step st i = Ok (Fail IE_InvalidStack).
Proof.
  intros Z P X R S O N. destruct s as [|y s].
  { destruct Z as [-> | ->]; [apply (needs_short 121 2 st i); auto|apply (needs_short 122 2 st i); auto]; try (cbn; tauto); rewrite S; reflexivity. }
  apply operand_iff in O.
  destruct Z as [-> | ->]; (op_step P X R; unfold do_pick_roll; rewrite need_enough by (cbn [s_stack counted]; rewrite S; unfold blen; rewrite !app_length; cbn [length]; lia);
  cbn [s_stack counted]; rewrite S; slices; rewrite O; cbn [bind];
  replace ((n <? 0) || (n >=? blen (y :: s))) with true by lia; reflexivity).
Qed.
Lemma pick_roll_bad z st i s y p : z = 121 \/ z = 122 -> plain z i -> executing st -> room st -> s_stack st = s ++ [y; p] ->
  (forall n, ~ operand (minimal_of st) p n) -> exists e, step st i = Err e.
Proof.
  intros Z P X R S O. destruct (operand_err _ _ O) as [e E]. exists e.
  change (s ++ [y; p]) with (s ++ [y] ++ [p]) in S. rewrite app_assoc in S.
  destruct Z as [-> | ->]; (op_step P X R; unfold do_pick_roll; rewrite need_enough by (cbn [s_stack counted]; rewrite S; unfold blen; rewrite !app_length; cbn [length]; lia);
  cbn [s_stack counted]; rewrite S; slices; rewrite E; reflexivity).
Qed.

(** ** arithmetic *)
Lemma of_bool_b2z (b : bool) (P : Prop) r : (b = true <-> P) -> of_bool P r -> b2z b = r.
Proof. intros H [[T ->]|[T ->]]; destruct b; cbn; intuition congruence. Qed.

Lemma next_num st x a s u r : u = r ->
  Ok (Next (set_stack (counted st x a) (s ++ [num u]))) = Ok (Next (counted st (s ++ [num r]) a)).
Proof. intros ->. reflexivity. Qed.
Lemma unary_step z n r st i s p : unary_op z n r -> plain z i -> executing st -> room st -> s_stack st = s ++ [p] ->
  operand (minimal_of st) p n -> exists q, number_item q r /\ step st i = Ok (Next (counted st (s ++ [q]) (s_alt st))).
Proof.
  intros U P X R S O. apply operand_iff in O. exists (num r). split; [apply num_item|].
  destruct U as [n|n|n|n r B|n r B];
    (op_step P X R; unfold do_unary, go; cbn [s_stack s_alt counted]; rewrite S; need_ok; slices; rewrite O; cbn [bind];
     apply next_num); try reflexivity.
  - apply (of_bool_b2z _ (n = 0)); [lia|exact B].
  - apply (of_bool_b2z _ (n <> 0)); [lia|exact B].
Qed.
Lemma unary_total z n : In z [139; 140; 143; 145; 146] -> exists r, unary_op z n r.
Proof.
  intros H. repeat (destruct H as [<-|H]); [eexists; constructor..| | |destruct H].
  - destruct (Z.eq_dec n 0); eexists; constructor; [left|right]; eauto.
  - destruct (Z.eq_dec n 0); eexists; constructor; [right|left]; split; eauto.
Qed.
Lemma abs_step st i s p n : plain 144 i -> executing st -> room st -> s_stack st = s ++ [p] ->
  operand (minimal_of st) p n -> step st i = Ok (Next (counted st (s ++ [BA [x01]]) (s_alt st))).
Proof.
  intros P X R S O. apply operand_iff in O.
  op_step P X R; unfold do_unary, go; cbn [s_stack s_alt counted]; rewrite S; need_ok; slices; rewrite O; cbn [bind]. reflexivity.
Qed.
Lemma unary_bad z st i s p : In z unaries -> plain z i -> executing st -> room st -> s_stack st = s ++ [p] ->
  (forall n, ~ operand (minimal_of st) p n) -> exists e, step st i = Err e.
Proof.
  intros H P X R S O. destruct (operand_err _ _ O) as [e E]. exists e.
  repeat (destruct H as [<-|H]; [op_step P X R; unfold do_unary, go; cbn [s_stack s_alt counted]; rewrite S; need_ok; slices; rewrite E; reflexivity|]).
  destruct H.
Qed.
Lemma unary_short z st i : In z unaries -> plain z i -> executing st -> room st -> s_stack st = [] ->
  step st i = Ok (Fail IE_InvalidStack).
Proof.
  intros H P X R S.
  repeat (destruct H as [<-|H]; [op_step P X R; apply need_short; cbn [s_stack counted]; rewrite S; reflexivity|]).
  destruct H.
Qed.

Lemma binary_step z a b r st i s p q : binary_op z a b r -> plain z i -> executing st -> room st -> s_stack st = s ++ [p; q] ->
  operand (minimal_of st) p a -> operand (minimal_of st) q b ->
  exists v, number_item v r /\ step st i = Ok (Next (counted st (s ++ [v]) (s_alt st))).
Proof.
  intros U P X R S O1 O2. apply operand_iff in O1, O2. exists (num r). split; [apply num_item|].
  destruct U;
    (op_step P X R; unfold do_binary, go; cbn [s_stack s_alt counted]; rewrite S; need_ok; slices; rewrite O1; cbn [bind]; rewrite O2; cbn [bind];
     match goal with |- context[op_eqb ?x OP_NUMEQUALVERIFY] => change (op_eqb x OP_NUMEQUALVERIFY) with false end; cbv iota;
     apply next_num).
  - reflexivity.
  - reflexivity.
  - apply (of_bool_b2z _ (a <> 0 /\ b <> 0)); [lia|assumption].
  - apply (of_bool_b2z _ (a <> 0 \/ b <> 0)); [lia|assumption].
  - apply (of_bool_b2z _ (a = b)); [lia|assumption].
  - apply (of_bool_b2z _ (a <> b)); [lia|assumption].
  - apply (of_bool_b2z _ (a < b)); [lia|assumption].
  - apply (of_bool_b2z _ (a > b)); [lia|assumption].
  - apply (of_bool_b2z _ (a <= b)); [lia|assumption].
  - apply (of_bool_b2z _ (a >= b)); [lia|assumption].
  - change (Z.min a b = r). lia.
  - change (Z.max a b = r). lia.
Qed.
Lemma of_bool_total P : {P} + {~ P} -> exists r, of_bool P r.
Proof. intros [H|H]; [exists 1; left|exists 0; right]; auto. Qed.
Lemma binary_total z a b : In z [147; 148; 154; 155; 156; 158; 159; 160; 161; 162; 163; 164] -> exists r, binary_op z a b r.
Proof.
  intros H.
  repeat (destruct H as [<-|H]; [first [eexists; constructor; fail
    | match goal with
      | |- exists r, binary_op 163 _ _ r => exists (Z.min a b); constructor; lia
      | |- exists r, binary_op 164 _ _ r => exists (Z.max a b); constructor; lia
      | |- _ => idtac end]|]); [..|destruct H].
  - destruct (of_bool_total (a <> 0 /\ b <> 0)) as [r B]; [destruct (Z.eq_dec a 0), (Z.eq_dec b 0); (left; lia) || (right; lia)|]. exists r. constructor. exact B.
  - destruct (of_bool_total (a <> 0 \/ b <> 0)) as [r B]; [destruct (Z.eq_dec a 0), (Z.eq_dec b 0); (left; lia) || (right; lia)|]. exists r. constructor. exact B.
  - destruct (of_bool_total (a = b)) as [r B]; [apply Z.eq_dec|]. exists r. constructor. exact B.
  - destruct (of_bool_total (a <> b)) as [r B]; [destruct (Z.eq_dec a b); auto|]. exists r. constructor. exact B.
  - destruct (of_bool_total (a < b)) as [r B]; [apply Z_lt_dec|]. exists r. constructor. exact B.
  - destruct (of_bool_total (a > b)) as [r B]; [apply Z_gt_dec|]. exists r. constructor. exact B.
  - destruct (of_bool_total (a <= b)) as [r B]; [apply Z_le_dec|]. exists r. constructor. exact B.
  - destruct (of_bool_total (a >= b)) as [r B]; [apply Z_ge_dec|]. exists r. constructor. exact B.
Qed.
Lemma numequalverify_step st i s p q a b : plain 157 i -> executing st -> room st -> s_stack st = s ++ [p; q] ->
  operand (minimal_of st) p a -> operand (minimal_of st) q b ->
  (a = b -> step st i = Ok (Next (counted st s (s_alt st)))) /\ (a <> b -> step st i = Ok (Fail IE_NumEqualVerify)).
Proof.
  intros P X R S O1 O2. apply operand_iff in O1, O2. split; intros T;
    (op_step P X R; unfold do_binary, go; cbn [s_stack s_alt counted]; rewrite S; need_ok; slices; rewrite O1; cbn [bind]; rewrite O2; cbn [bind];
     match goal with |- context[binary ?o a b] => change (binary o a b) with (b2z (a =? b)) end).
  - subst b. rewrite Z.eqb_refl, drop_last_app by reflexivity. reflexivity.
  - replace (a =? b) with false by lia. reflexivity.
Qed.
Lemma binary_bad z st i s p q : In z binaries -> plain z i -> executing st -> room st -> s_stack st = s ++ [p; q] ->
  (forall n, ~ operand (minimal_of st) p n) \/ (forall n, ~ operand (minimal_of st) q n) -> exists e, step st i = Err e.
Proof.
  intros H P X R S O.
  assert (E : exists e, forall k, (let! a := decode_script_number p (minimal_of st) 4 in let! b := decode_script_number q (minimal_of st) 4 in k a b) = Err e :> res outcome).
  { destruct (decode_script_number p (minimal_of st) 4) as [a|e] eqn:E1; [|exists e; reflexivity]. apply operand_iff in E1.
    destruct O as [O|O]; [destruct (O a E1)|]. destruct (operand_err _ _ O) as [e E2]. exists e. intros k. cbn [bind]. rewrite E2. reflexivity. }
  destruct E as [e E]. exists e.
  repeat (destruct H as [<-|H]; [op_step P X R; unfold do_binary, go; cbn [s_stack s_alt counted]; rewrite S; need_ok; slices; apply E|]).
  destruct H.
Qed.
Lemma binary_short z st i : In z binaries -> plain z i -> executing st -> room st -> blen (s_stack st) < 2 ->
  step st i = Ok (Fail IE_InvalidStack).
Proof.
  intros H P X R S.
  repeat (destruct H as [<-|H]; [op_step P X R; apply need_short; exact S|]).
  destruct H.
Qed.
Lemma within_step st i s p q r a b c : plain 165 i -> executing st -> room st -> s_stack st = s ++ [p; q; r] ->
  operand false p a -> operand false q b -> operand false r c ->
  (b <= a < c -> step st i = Ok (Next (counted st (s ++ [BA [x01]]) (s_alt st)))) /\
  (~ b <= a < c -> step st i = Ok (Next (counted st (s ++ [BA []]) (s_alt st)))).
Proof.
  intros P X R S O1 O2 O3. apply operand_iff in O1, O2, O3. split; intros T;
    (op_step P X R; unfold do_within, go; cbn [s_stack s_alt counted]; rewrite S; need_ok; slices;
     rewrite O1; cbn [bind]; rewrite O2; cbn [bind]; rewrite O3; cbn [bind]).
  - replace ((b <=? a) && (a <? c)) with true by lia. reflexivity.
  - replace ((b <=? a) && (a <? c)) with false by lia. reflexivity.
Qed.
Lemma within_bad st i s p q r : plain 165 i -> executing st -> room st -> s_stack st = s ++ [p; q; r] ->
  (exists x, In x [p; q; r] /\ forall n, ~ operand false x n) -> exists e, step st i = Err e.
Proof.
  intros P X R S O.
  op_step P X R; unfold do_within, go; cbn [s_stack s_alt counted]; rewrite S; need_ok; slices.
  destruct (decode_script_number p false 4) as [a|e] eqn:E1; [|exists e; reflexivity]. cbn [bind].
  destruct (decode_script_number q false 4) as [b|e] eqn:E2; [|exists e; reflexivity]. cbn [bind].
  destruct (decode_script_number r false 4) as [c|e] eqn:E3; [|exists e; reflexivity].
  apply operand_iff in E1, E2, E3. destruct O as [x [I O]].
  cbn in I. destruct I as [<-|[<-|[<-|[]]]]; exfalso; eapply O; eassumption.
Qed.
Lemma within_short st i : plain 165 i -> executing st -> room st -> blen (s_stack st) < 3 -> step st i = Ok (Fail IE_InvalidStack).
Proof. intros P X R S. op_step P X R. apply need_short. exact S. Qed.

(** ** what a successful step can change *)
Lemma decode_bound p m n : decode_script_number p m 4 = Ok n -> - 2 ^ 23 < n < 2 ^ 23.
Proof.
  intros H. apply operand_iff in H. destruct H as [(l & -> & L & <- & _)|[-> ->]]; [|lia].
  pose proof (sm_val_upper l) as U. pose proof (sm_lo_mono (S (length l)) 4) as M.
  assert (A : Z.abs (sm_val l) < sm_lo 4) by (unfold blen in L; lia).
  change (sm_lo 4) with (2 ^ 23) in A. lia.
Qed.
Lemma num_small n : Z.abs n <= 2 ^ 40 -> small_item (num n).
Proof.
  intros H. unfold small_item, num, pyb_len. cbn [pyb_bytes].
  pose proof (proj2 (encode_script_number_fits n 7 ltac:(lia))) as F. change (sm_lo 7) with (2 ^ 47) in F.
  unfold blen in F. lia.
Qed.
Lemma drop_last_Forall {A} (P : A -> Prop) k l : Forall P l -> Forall P (drop_last k l).
Proof. intros H. rewrite <- (split_last k l) in H. apply Forall_app in H. tauto. Qed.
Lemma last_n_Forall {A} (P : A -> Prop) k l : Forall P l -> Forall P (last_n k l).
Proof. intros H. rewrite <- (split_last k l) in H. apply Forall_app in H. tauto. Qed.
Lemma unary_bound o n : - 2 ^ 23 < n < 2 ^ 23 -> Z.abs (unary o n) <= 2 ^ 40.
Proof.
  intros H. unfold unary, b2z. repeat match goal with |- context[if ?c then _ else _] => destruct c end; lia.
Qed.
Lemma binary_bound o a b : - 2 ^ 23 < a < 2 ^ 23 -> - 2 ^ 23 < b < 2 ^ 23 -> Z.abs (binary o a b) <= 2 ^ 40.
Proof.
  intros H H'. unfold binary, b2z. repeat match goal with |- context[if ?c then _ else _] => destruct c end; lia.
Qed.

Lemma bool_small b : small_item (bool_bytes b).
Proof. destruct b; vm_compute; congruence. Qed.

Record effect (o : opcode) (st st' : interp) : Prop := {
  e_pc : s_pc st' = s_pc st; e_err : s_errstr st' = s_errstr st; e_flags : s_flags st' = s_flags st;
  e_script : s_script st' = s_script st;
  e_nop : s_nop st <= s_nop st' /\ (s_nop st <= 201 -> s_nop st' <= 201);
  e_vf : ~ conditional (bZ o) -> s_vf st' = s_vf st;
  e_size : items st' <= items st + 3;
  e_small : items st <= 2 ^ 32 -> small_items st -> small_items st' }.

Ltac crunch H := repeat match type of H with
  | (if ?c then _ else _) = _ => destruct c eqn:?
  | bind (if ?c then _ else _) _ = _ => destruct c eqn:?
  | bind (Ok _) _ = _ => cbn [bind] in H
  | bind (Err _) _ = _ => discriminate H
  | bind ?m _ = _ => destruct m eqn:?; cbn [bind] in H; [|discriminate H]
  | match ?x with _ => _ end = _ => destruct x eqn:?
  | Err _ = _ => discriminate H
  | Ok (Fail _) = Ok (Next _) => discriminate H
  | Ok (Next _) = Ok (Next _) => injection H as H; subst
  end.

Ltac small_parts := repeat match goal with
  | Q : last_n ?k ?l = _, F : Forall small_item ?l |- _ =>
      let N := fresh in pose proof (last_n_Forall small_item k l F) as N; rewrite Q in N; clear Q
  | Q : Forall small_item (_ :: _) |- _ => inversion Q; clear Q; subst
  end.
Ltac finish_small := repeat match goal with
  | |- Forall small_item (_ ++ _) => apply Forall_app; split
  | |- Forall small_item (drop_last _ _) => apply drop_last_Forall
  | |- Forall small_item (last_n _ _) => apply last_n_Forall
  | |- Forall small_item (_ :: _) => constructor
  | |- Forall small_item [] => constructor
  | |- Forall small_item _ => assumption
  | |- small_item (num _) => apply num_small
  | |- small_item (bool_bytes _) => apply bool_small
  end; try assumption.
Ltac cases := unfold items, small_items; cbn [s_stack s_alt s_pc s_begin s_nop s_vf s_errstr s_flags s_script
     set_stack set_alt set_pc set_begin set_nop set_vf].
Ltac lengths := unfold blen in *; repeat first [rewrite app_length | rewrite drop_last_length | rewrite last_n_length]; cbn [length]; try lia.
Ltac effect_tac H := constructor; cases; try reflexivity; try (split; [lia|intros; lia]);
   [ .. | lengths | intros ? [? ?]; split; small_parts; finish_small ].

Lemma effect_id o st : effect o st st.
Proof. constructor; auto; try lia. Qed.
Ltac solve_effect H d := unfold d, need, go, unpack_error in H; crunch H; try apply effect_id; effect_tac H.

Lemma eff_verify o st st' : do_verify st = Ok (Next st') -> effect o st st'.
Proof. intros H. solve_effect H do_verify. Qed.
Lemma eff_toalt o st st' : do_toalt st = Ok (Next st') -> effect o st st'.
Proof. intros H. solve_effect H do_toalt. Qed.
Lemma eff_fromalt o st st' : do_fromalt st = Ok (Next st') -> effect o st st'.
Proof. intros H. solve_effect H do_fromalt. Qed.
Lemma eff_2drop o st st' : do_2drop st = Ok (Next st') -> effect o st st'.
Proof. intros H. solve_effect H do_2drop. Qed.
Lemma eff_2dup o st st' : do_2dup st = Ok (Next st') -> effect o st st'.
Proof. intros H. solve_effect H do_2dup. Qed.
Lemma eff_3dup o st st' : do_3dup st = Ok (Next st') -> effect o st st'.
Proof. intros H. solve_effect H do_3dup. Qed.
Lemma eff_2over o st st' : do_2over st = Ok (Next st') -> effect o st st'.
Proof. intros H. solve_effect H do_2over. Qed.
Lemma eff_2rot o st st' : do_2rot st = Ok (Next st') -> effect o st st'.
Proof. intros H. solve_effect H do_2rot. Qed.
Lemma eff_2swap o st st' : do_2swap st = Ok (Next st') -> effect o st st'.
Proof. intros H. solve_effect H do_2swap. Qed.
Lemma eff_ifdup o st st' : do_ifdup st = Ok (Next st') -> effect o st st'.
Proof. intros H. solve_effect H do_ifdup. Qed.
Lemma eff_depth o st st' : do_depth st = Ok (Next st') -> effect o st st'.
Proof. intros H. solve_effect H do_depth. lengths. Qed.
Lemma eff_drop o st st' : do_drop st = Ok (Next st') -> effect o st st'.
Proof. intros H. solve_effect H do_drop. Qed.
Lemma eff_dup o st st' : do_dup st = Ok (Next st') -> effect o st st'.
Proof. intros H. solve_effect H do_dup. Qed.
Lemma eff_nip o st st' : do_nip st = Ok (Next st') -> effect o st st'.
Proof. intros H. solve_effect H do_nip. Qed.
Lemma eff_over o st st' : do_over st = Ok (Next st') -> effect o st st'.
Proof. intros H. solve_effect H do_over. Qed.
Lemma eff_rot o st st' : do_rot st = Ok (Next st') -> effect o st st'.
Proof. intros H. solve_effect H do_rot. Qed.
Lemma eff_swap o st st' : do_swap st = Ok (Next st') -> effect o st st'.
Proof. intros H. solve_effect H do_swap. Qed.
Lemma eff_tuck o st st' : do_tuck st = Ok (Next st') -> effect o st st'.
Proof. intros H. solve_effect H do_tuck. Qed.
Lemma eff_size o st st' : do_size st = Ok (Next st') -> effect o st st'.
Proof. intros H. solve_effect H do_size. unfold small_item in *. pose proof (Zle_0_nat (length (pyb_bytes p))). unfold pyb_len in *. lia. Qed.
Lemma eff_equal o st v st' : do_equal st v = Ok (Next st') -> effect o st st'.
Proof. intros H. solve_effect H do_equal. Qed.
Lemma nth_error_small l k x : Forall small_item l -> nth_error l k = Some x -> small_item x.
Proof. intros F N. rewrite Forall_forall in F. apply F. eapply nth_error_In; eassumption. Qed.
Lemma firstn_Forall {A} (P : A -> Prop) k l : Forall P l -> Forall P (firstn k l).
Proof. intros H. rewrite <- (firstn_skipn k l) in H. apply Forall_app in H. tauto. Qed.
Lemma skipn_Forall {A} (P : A -> Prop) k l : Forall P l -> Forall P (skipn k l).
Proof. intros H. rewrite <- (firstn_skipn k l) in H. apply Forall_app in H. tauto. Qed.
Lemma eff_pick_roll o st m r st' : do_pick_roll st m r = Ok (Next st') -> effect o st st'.
Proof.
  intros H. unfold do_pick_roll, need, go, unpack_error in H; crunch H; constructor; cases; try reflexivity; try (split; [lia|intros; lia]).
  - destruct r; unfold blen in *; [|rewrite app_length, drop_last_length; cbn [length]; lia].
    set (l := drop_last 1 (s_stack st)) in *. set (k := (length l - Z.to_nat a - 1)%nat) in *.
    change (match l with [] => [] | _ :: l0 => skipn k l0 end) with (skipn (S k) l).
    rewrite !app_length, firstn_length, skipn_length. cbn [length].
    assert (length l = length (s_stack st) - 1)%nat by apply drop_last_length. lia.
  - intros _ [F1 F2]. pose proof (drop_last_Forall small_item 1 _ F1) as F3. split; [|assumption].
    destruct r; apply Forall_app; split; try (constructor; [eapply nth_error_small; eassumption|constructor]); [|assumption].
    apply Forall_app; split; [apply firstn_Forall; assumption|apply (skipn_Forall small_item (S _)); assumption].
Qed.
Lemma eff_unary o st m o' st' : do_unary st m o' = Ok (Next st') -> effect o st st'.
Proof. intros H. solve_effect H do_unary. apply unary_bound. eapply decode_bound; eassumption. Qed.
Lemma eff_binary o st m o' st' : do_binary st m o' = Ok (Next st') -> effect o st st'.
Proof. intros H. solve_effect H do_binary; apply binary_bound; eapply decode_bound; eassumption. Qed.
Lemma eff_within o st st' : do_within st = Ok (Next st') -> effect o st st'.
Proof. intros H. solve_effect H do_within. Qed.
Lemma eff_hash o st o' st' : do_hash st o' = Ok (Next st') -> effect o st st'.
Proof.
  intros H. solve_effect H do_hash; unfold small_item, pyb_len; cbn [pyb_bytes]; rewrite ?sha256_length, ?sha1_length, ?ripemd160_length; lia.
Qed.
Lemma eff_checksig o st st' : do_checksig st = Ok (Next st') -> effect o st st'.
Proof. intros H. solve_effect H do_checksig. Qed.
Lemma eff_checkmultisig o st m v st' : do_checkmultisig st m v = Ok (Next st') -> effect o st st'.
Proof.
  intros H. unfold do_checkmultisig, need, go, unpack_error in H; crunch H; (constructor; cases; cbn [s_stack s_alt s_nop set_nop] in *;
    [reflexivity..|split; lia|reflexivity| lengths | intros ? [? ?]; split; small_parts; finish_small]).
  - destruct v; lengths.
  - destruct v; finish_small.
Qed.
Lemma eff_cltv o st m st' : do_cltv st m = Ok (Next st') -> effect o st st'.
Proof. intros H. solve_effect H do_cltv. Qed.
Lemma eff_nop_n o st st' : do_nop_n st = Ok (Next st') -> effect o st st'.
Proof. intros H. solve_effect H do_nop_n. Qed.
Lemma eff_if o st f o' st' : conditional (bZ o) -> do_if st f o' = Ok (Next st') -> effect o st st'.
Proof. intros C H. solve_effect H do_if; try tauto. Qed.
Lemma eff_else o st st' : conditional (bZ o) -> do_else st = Ok (Next st') -> effect o st st'.
Proof. intros C H. solve_effect H do_else; try tauto. Qed.
Lemma eff_endif o st st' : conditional (bZ o) -> do_endif st = Ok (Next st') -> effect o st st'.
Proof. intros C H. solve_effect H do_endif; try tauto. Qed.
Lemma eff_const o st k st' : Z.abs k <= 2 ^ 40 -> go st (s_stack st ++ [num k]) = Ok (Next st') -> effect o st st'.
Proof. intros K H. solve_effect H go. Qed.

Lemma cond_if o : op_in o [OP_IF; OP_NOTIF] = true -> conditional (bZ o).
Proof. unfold op_in, op_eqb, conditional. cbn [existsb]. change (bZ OP_IF) with 99. change (bZ OP_NOTIF) with 100. lia. Qed.
Lemma cond_else o : op_eqb o OP_ELSE = true -> conditional (bZ o).
Proof. unfold op_eqb, conditional. change (bZ OP_ELSE) with 103. lia. Qed.
Lemma cond_endif o : op_eqb o OP_ENDIF = true -> conditional (bZ o).
Proof. unfold op_eqb, conditional. change (bZ OP_ENDIF) with 104. lia. Qed.
Lemma dispatch_effect o st m f st' : dispatch st m f o = Ok (Next st') -> effect o st st'.
Proof.
  unfold dispatch. intros H.
  repeat match type of H with
  | (if ?c then _ else _) = _ => let E := fresh "E" in destruct c eqn:E
  end; try discriminate H; try (injection H as <-; apply effect_id).
  all: first [ eapply eff_const; [|exact H]; pose proof (bZ_range o); change (bZ OP_1) with 81; lia
   | eapply eff_cltv; exact H | eapply eff_nop_n; exact H | eapply eff_verify; exact H
   | eapply eff_toalt; exact H | eapply eff_fromalt; exact H | eapply eff_2drop; exact H | eapply eff_2dup; exact H
   | eapply eff_3dup; exact H | eapply eff_2over; exact H | eapply eff_2rot; exact H | eapply eff_2swap; exact H
   | eapply eff_ifdup; exact H | eapply eff_depth; exact H | eapply eff_drop; exact H | eapply eff_dup; exact H
   | eapply eff_nip; exact H | eapply eff_over; exact H | eapply eff_pick_roll; exact H | eapply eff_rot; exact H
   | eapply eff_swap; exact H | eapply eff_tuck; exact H | eapply eff_size; exact H | eapply eff_equal; exact H
   | eapply eff_unary; exact H | eapply eff_binary; exact H | eapply eff_within; exact H | eapply eff_hash; exact H
   | eapply eff_checksig; exact H | eapply eff_checkmultisig; exact H | idtac ].
  - eapply eff_if; [|exact H]. apply cond_if. assumption.
  - eapply eff_else; [|exact H]. apply cond_else. assumption.
  - eapply eff_endif; [|exact H]. apply cond_endif. assumption.
  - clear - H. injection H as <-. constructor; cases; auto; lia.
Qed.

Definition const_ops := [OP_1NEGATE; OP_1; OP_2; OP_3; OP_4; OP_5; OP_6; OP_7; OP_8; OP_9; OP_10; OP_11; OP_12; OP_13; OP_14; OP_15; OP_16].
Lemma const_ops_spec o : op_in o const_ops = true <-> bZ o = 79 \/ 81 <= bZ o <= 96.
Proof. destruct o; cbn -[Z.le Z.add]; split; intros; try discriminate; try reflexivity; try lia. Qed.
Lemma dispatch_low st m f o : bZ o <= 96 -> dispatch st m f o =
  if op_in o const_ops then go st (s_stack st ++ [num (bZ o - 80)]) else Ok (Fail IE_BadOpcode).
Proof.
  intros L. assert (H : forall k, 96 < bZ k -> op_eqb o k = false) by (unfold op_eqb; lia).
  unfold dispatch. fold const_ops. destruct (op_in o const_ops); [change (bZ OP_1 - 1) with 80; reflexivity|].
  unfold op_in. cbn [existsb]. rewrite !H by (vm_compute; reflexivity). reflexivity.
Qed.

Record stepped (i : instr) (st st' : interp) : Prop := {
  p_quiet : quiet i; p_able : ~ disabled (bZ (i_op i));
  p_pc : s_pc st' = s_pc st + 1; p_err : s_errstr st' = s_errstr st; p_flags : s_flags st' = s_flags st;
  p_script : s_script st' = s_script st;
  p_nop : s_nop st <= s_nop st' /\ (s_nop st <= 201 -> s_nop st' <= 201);
  p_count : 97 <= bZ (i_op i) -> s_nop st + 1 <= s_nop st' <= 201;
  p_vf : ~ conditional (bZ (i_op i)) -> s_vf st' = s_vf st;
  p_size : items st' <= items st + 1 + 2 * (s_nop st' - s_nop st);
  p_small : items st <= 2 ^ 32 -> small_items st -> small_items st' }.

Lemma step_inv st i st' : step st i = Ok (Next st') -> stepped i st st'.
Proof.
  unfold step. intros H.
  destruct (match data_bytes i with Some d => _ | None => _ end) eqn:Q; [discriminate|].
  assert (QQ : quiet i).
  { unfold quiet. destruct (data_bytes i); [|exact I]. unfold MAX_SCRIPT_ELEMENT_SIZE in Q. lia. }
  destruct (_ && (s_nop _ >? 201)) eqn:C; [discriminate|].
  destruct (op_in (i_op i) disabled_ops) eqn:D; [discriminate|].
  assert (DD : ~ disabled (bZ (i_op i))) by (rewrite <- disabled_spec; congruence). clear D Q.
  destruct (Z_le_dec (bZ (i_op i)) 96) as [L|L].
  - assert (E : op_leb (i_op i) OP_16 = true) by (unfold op_leb; change (bZ OP_16) with 96; lia).
    rewrite E in *. cbn [negb andb] in *. clear C.
    assert (K : forall p, (items st <= 2 ^ 32 -> small_items st -> small_item p) ->
      go (set_pc st (s_pc st + 1)) (s_stack (set_pc st (s_pc st + 1)) ++ [p]) = Ok (Next st') -> stepped i st st').
    { clear H. intros p SP [= <-]. constructor; cases; auto; try lia.
      - rewrite blen_app. unfold blen. cbn [length]. lia.
      - intros T [F1 F2]. split; [|exact F2]. apply Forall_app. split; [exact F1|]. constructor; [|constructor]. apply SP; [exact T|split; assumption]. }
    destruct (negb (existsb negb (s_vf st)) && op_leb (i_op i) OP_PUSHDATA4).
    + unfold do_push in H. crunch H; try discriminate. eapply K; [|exact H]. intros _ _. unfold quiet in QQ.
      destruct (data_bytes i); [exact QQ|vm_compute; congruence].
      eapply K; [|exact H]. intros _ _. unfold quiet in QQ. destruct (data_bytes i); [exact QQ|vm_compute; congruence].
    + destruct (negb (existsb negb (s_vf st)) || _).
      * rewrite dispatch_low in H by exact L. destruct (op_in _ _); [|discriminate]. eapply K; [|exact H].
        intros _ _. apply num_small. pose proof (bZ_range (i_op i)). lia.
      * injection H as <-. constructor; cases; auto; lia.
  - assert (E : op_leb (i_op i) OP_16 = false) by (unfold op_leb; change (bZ OP_16) with 96; lia).
    rewrite E in *. cbn [negb andb] in *. cbn [s_nop set_nop set_pc] in C.
    assert (E2 : op_leb (i_op i) OP_PUSHDATA4 = false) by (unfold op_leb; change (bZ OP_PUSHDATA4) with 78; lia).
    rewrite E2, andb_false_r in H.
    destruct (negb (existsb negb (s_vf st)) || _).
    + apply dispatch_effect in H. destruct H as [H1 H2 H3 H4 H5 H6 H7 H8].
      unfold items, small_items in *; cbn [s_stack s_alt s_pc s_begin s_nop s_vf s_errstr s_flags s_script set_nop set_pc] in *.
      constructor; cases; auto; try lia.
    + injection H as <-. constructor; cases; auto; lia.
Qed.

Lemma run_app l1 l2 st : run (l1 ++ l2) st = let! o := run l1 st in match o with Next st1 => run l2 st1 | Fail e => Ok (Fail e) end.
Proof.
  revert st. induction l1 as [|i l1 IH]; intros st; [reflexivity|]. cbn [app run].
  destruct (step st i) as [[st1|e]|e]; cbn [bind]; [apply IH|reflexivity|reflexivity].
Qed.
Lemma run_cons_next i l st st' : run (i :: l) st = Ok (Next st') -> exists st1, step st i = Ok (Next st1) /\ run l st1 = Ok (Next st').
Proof.
  cbn [run]. destruct (step st i) as [[st1|e]|e]; cbn [bind]; try discriminate. eauto.
Qed.

(** ** conditionals *)
Lemma block_prefix_body pre : (forall x, block x -> block (pre ++ x)) -> forall x, body x -> body (pre ++ x).
Proof.
  intros H x B. induction B as [b B|a b A IH B]; [constructor; auto|]. rewrite app_assoc. constructor; assumption.
Qed.
Lemma body_else a b : block a -> body b -> body (a ++ 103 :: b).
Proof.
  intros A B. induction B as [b B|a' b A' IH B].
  - apply bd_else; [constructor|]; assumption.
  - change (a ++ 103 :: a' ++ 103 :: b) with (a ++ (103 :: a') ++ 103 :: b). rewrite app_assoc. apply bd_else; assumption.
Qed.
Fixpoint closes (n : nat) (l : list Z) : Prop :=
  match n with O => block l | S n => exists b r, l = b ++ 104 :: r /\ body b /\ closes n r end.
Lemma closes_op n z l : ~ conditional z -> closes n l -> closes n (z :: l).
Proof.
  intros H C. destruct n as [|n]; [constructor; assumption|]. destruct C as (b & r & -> & B & C).
  exists (z :: b), r. repeat split; auto. apply (block_prefix_body [z]); [|exact B]. intros. constructor; assumption.
Qed.
Lemma closes_if n z l : z = 99 \/ z = 100 -> closes (S n) l -> closes n (z :: l).
Proof.
  intros Z (b & r & -> & B & C). destruct n as [|n]; [constructor; assumption|].
  destruct C as (b' & r' & -> & B' & C'). exists (z :: b ++ 104 :: b'), r'. repeat split; auto.
  - cbn [app]. rewrite <- app_assoc. reflexivity.
  - change (z :: b ++ 104 :: b') with ((z :: b) ++ [104] ++ b'). rewrite app_assoc. apply block_prefix_body; [|exact B'].
    intros x X. cbn [app]. rewrite <- app_assoc. cbn [app]. constructor; assumption.
Qed.
Lemma closes_else n l : closes (S n) l -> closes (S n) (103 :: l).
Proof.
  intros (b & r & -> & B & C). exists (103 :: b), r. repeat split; auto. apply (body_else []); [constructor|exact B].
Qed.
Lemma closes_endif n l : closes n l -> closes (S n) (104 :: l).
Proof. intros C. exists [], l. repeat split; auto. constructor. constructor. Qed.

Lemma step_conditional st i st' : conditional (bZ (i_op i)) -> step st i = Ok (Next st') ->
  exists st1 m, dispatch st1 m (negb (existsb negb (s_vf st))) (i_op i) = Ok (Next st') /\ s_vf st1 = s_vf st.
Proof.
  intros C. unfold step. intros H.
  destruct (match data_bytes i with Some d => _ | None => _ end); [discriminate|].
  destruct (_ && (s_nop _ >? 201)); [discriminate|]. destruct (op_in (i_op i) disabled_ops); [discriminate|].
  replace (op_leb (i_op i) OP_PUSHDATA4) with false in H by (unfold op_leb; change (bZ OP_PUSHDATA4) with 78; unfold conditional in C; lia).
  rewrite andb_false_r in H.
  replace (op_leb OP_IF (i_op i) && op_leb (i_op i) OP_ENDIF) with true in H by (unfold op_leb; change (bZ OP_IF) with 99; change (bZ OP_ENDIF) with 104; unfold conditional in C; lia).
  rewrite orb_true_r in H. eexists _, _. split; [exact H|]. destruct (negb _); reflexivity.
Qed.
Lemma dispatch_if st m f o : bZ o = 99 \/ bZ o = 100 -> dispatch st m f o = do_if st f o.
Proof. intros [H|H]; [apply (bZ_inj o x63) in H|apply (bZ_inj o x64) in H]; subst; reflexivity. Qed.
Lemma dispatch_else st m f o : bZ o = 103 -> dispatch st m f o = do_else st.
Proof. intros H; apply (bZ_inj o x67) in H; subst; reflexivity. Qed.
Lemma dispatch_endif st m f o : bZ o = 104 -> dispatch st m f o = do_endif st.
Proof. intros H; apply (bZ_inj o x68) in H; subst; reflexivity. Qed.

(** how the condition stack moves *)
Inductive vf_move : Z -> list bool -> list bool -> Prop :=
  | vm_if z l v : z = 99 \/ z = 100 -> (In false l -> v = false) -> vf_move z l (l ++ [v])
  | vm_else l v : vf_move 103 (l ++ [v]) (l ++ [negb v])
  | vm_endif l v : vf_move 104 (l ++ [v]) l
  | vm_other z l : ~ conditional z -> vf_move z l l.
Lemma snoc_cases_gen {A} (l : list A) : l = [] \/ exists a t, l = a ++ [t].
Proof. destruct l as [|t a _] using rev_ind; [left; reflexivity|right; eauto]. Qed.
Lemma snoc_inv {A} (l : list A) v : last_n 1 l = [v] -> l = drop_last 1 l ++ [v].
Proof. intros H. rewrite <- H. symmetry. apply split_last. Qed.
Lemma step_vf st i st' : step st i = Ok (Next st') -> vf_move (bZ (i_op i)) (s_vf st) (s_vf st').
Proof.
  intros H. assert (DC : conditional (bZ (i_op i)) \/ ~ conditional (bZ (i_op i))) by (unfold conditional; lia).
  destruct DC as [C|C]; [|rewrite (p_vf _ _ _ (step_inv _ _ _ H) C); constructor; exact C].
  apply step_conditional in H; [|exact C]. destruct H as (st1 & m & H & V). rewrite <- V in *.
  assert (CC : (bZ (i_op i) = 99 \/ bZ (i_op i) = 100) \/ bZ (i_op i) = 103 \/ bZ (i_op i) = 104) by (unfold conditional in C; lia).
  destruct CC as [E|[E|E]].
  - rewrite dispatch_if in H by exact E. unfold do_if, unpack_error in H. destruct (existsb negb (s_vf st1)) eqn:X; cbn [negb] in H.
    + injection H as <-. constructor; auto.
    + crunch H. constructor; [exact E|]. intros I. exfalso.
      assert (existsb negb (s_vf st1) = true) by (apply existsb_exists; exists false; split; auto). congruence.
  - rewrite dispatch_else in H by exact E. unfold do_else, unpack_error in H. rewrite E. crunch H.
    cbn [s_vf set_vf]. apply snoc_inv in Heql. rewrite Heql at 1. constructor.
  - rewrite dispatch_endif in H by exact E. unfold do_endif in H. rewrite E. crunch H.
    cbn [s_vf set_vf]. destruct (split_at_end 1 (s_vf st1)) as (a & b & Q & L); [unfold blen in *; lia|].
    list_of_length L. rewrite Q. rewrite drop_last_app by reflexivity. constructor.
Qed.

Lemma run_closes l st st' : run l st = Ok (Next st') -> s_vf st' = [] -> closes (length (s_vf st)) (ops l).
Proof.
  revert st. induction l as [|i l IH]; intros st H V.
  - injection H as ->. rewrite V. constructor.
  - apply run_cons_next in H. destruct H as (st1 & H1 & H2). specialize (IH st1 H2 V). apply step_vf in H1.
    cbn [ops map]. fold (ops l). remember (bZ (i_op i)) as z eqn:EZ. remember (s_vf st) as va eqn:EA. remember (s_vf st1) as vb eqn:EB.
    clear EZ EA EB. destruct H1 as [z k v Z NF|k v|k v|z k NC].
    + rewrite app_length in IH. cbn [length] in IH. rewrite Nat.add_1_r in IH. apply closes_if; assumption.
    + rewrite app_length in *. cbn [length] in *. rewrite Nat.add_1_r in *. apply closes_else; assumption.
    + rewrite app_length. cbn [length] in *. rewrite Nat.add_1_r in *. apply closes_endif; assumption.
    + apply closes_op; assumption.
Qed.

Lemma evaluate_next st st' : evaluate st = Ok (Next st') <->
  exists b, script_to_bytes (s_script st) = Ok b /\ blen b <= 10000 /\ run (s_ins (s_script st)) st = Ok (Next st') /\
    items st' <= 1000 /\ s_vf st' = [].
Proof.
  unfold evaluate, items. destruct (script_to_bytes (s_script st)) as [b|e]; cbn [bind];
    [|split; [discriminate|intros (b & E & _); discriminate]].
  destruct (blen b >? 10000) eqn:L; [split; [discriminate|intros (b' & [= <-] & ? & _); lia]|].
  destruct (run _ st) as [[st1|e]|e]; [|split; [discriminate|intros (? & _ & _ & ? & _); discriminate]..].
  destruct (_ >? 1000) eqn:T; [split; [discriminate|intros (? & _ & _ & [= <-] & ? & _); lia]|].
  destruct (blen (s_vf st1) >? 0) eqn:V.
  - split; [discriminate|]. intros (? & _ & _ & [= <-] & _ & E). rewrite E in V. discriminate.
  - split.
    + intros [= <-]. exists b. repeat split; auto; try lia. destruct (s_vf st1); [reflexivity|unfold blen in V; cbn [length] in V; lia].
    + intros (? & _ & _ & [= <-] & _). reflexivity.
Qed.

Lemma evaluate_balanced st st' : evaluate st = Ok (Next st') -> s_vf st = [] -> block (ops (s_ins (s_script st))).
Proof.
  intros H V. apply evaluate_next in H. destruct H as (b & _ & _ & R & _ & V'). apply run_closes in R; [|exact V']. rewrite V in R. exact R.
Qed.

(** ** unexecuted branches *)
Lemma not_exec st : In false (s_vf st) -> existsb negb (s_vf st) = true.
Proof. intros I. apply existsb_exists. exists false. split; auto. Qed.
Lemma long_push_iff i : match data_bytes i with Some d => pyb_len d >? MAX_SCRIPT_ELEMENT_SIZE | None => false end = true <-> long_push i.
Proof.
  unfold data_bytes, long_push, MAX_SCRIPT_ELEMENT_SIZE. destruct (i_data i) as [d|].
  - destruct (pyb_len d =? 0) eqn:E.
    + split; [discriminate|]. intros (d' & [= <-] & L). lia.
    + split; [intros L; exists d; split; [reflexivity|lia]|]. intros (d' & [= <-] & L). lia.
  - split; [discriminate|]. intros (d' & [=] & _).
Qed.
Lemma skip_step st i : In false (s_vf st) -> ~ (99 <= bZ (i_op i) <= 104) -> ~ long_push i ->
  (97 <= bZ (i_op i) -> s_nop st < 201) -> ~ disabled (bZ (i_op i)) -> step st i = Ok (Next (skipped st i)).
Proof.
  intros F C L R D. unfold step. rewrite (not_exec st F). cbn [negb andb orb].
  rewrite <- long_push_iff in L. apply not_true_is_false in L. rewrite L.
  rewrite <- disabled_spec in D. apply not_true_is_false in D. rewrite D.
  assert (E : op_leb OP_IF (i_op i) && op_leb (i_op i) OP_ENDIF = false).
  { unfold op_leb. change (bZ OP_IF) with 99. change (bZ OP_ENDIF) with 104. lia. }
  rewrite E. unfold skipped.
  assert (E2 : op_leb (i_op i) OP_16 = (bZ (i_op i) <=? 96)) by (unfold op_leb; change (bZ OP_16) with 96; lia).
  rewrite E2. destruct (bZ (i_op i) <=? 96) eqn:E3; cbn [negb andb]; [destruct st; reflexivity|].
  cbn [s_nop set_nop set_pc]. replace (s_nop st + 1 >? 201) with false by lia. destruct st; reflexivity.
Qed.
Lemma skip_fail st i r : In false (s_vf st) -> step st i = r ->
  (exists st', r = Ok (Next st')) \/
  (r = Ok (Fail IE_PushSize) /\ long_push i) \/ (r = Ok (Fail IE_OpCount) /\ 97 <= bZ (i_op i) /\ 201 <= s_nop st) \/
  (r = Ok (Fail IE_Disabled) /\ disabled (bZ (i_op i))) \/ (r = Ok (Fail IE_BadOpcode) /\ (bZ (i_op i) = 101 \/ bZ (i_op i) = 102)).
Proof.
  intros F <-. pose proof (not_exec st F) as NE. unfold step. rewrite NE. cbn [negb andb orb].
  destruct (match data_bytes i with Some d => _ | None => _ end) eqn:L; [apply long_push_iff in L; auto|].
  assert (E2 : op_leb (i_op i) OP_16 = (bZ (i_op i) <=? 96)) by (unfold op_leb; change (bZ OP_16) with 96; lia).
  rewrite E2. match goal with |- context[if ?a && ?b then _ else _] => destruct (a && b) eqn:N end.
  { right; right; left. destruct (bZ (i_op i) <=? 96) eqn:Q; [discriminate|]. cbn [negb andb s_nop set_nop set_pc] in N. repeat split; lia. }
  destruct (op_in (i_op i) disabled_ops) eqn:D; [apply disabled_spec in D; auto 6|].
  destruct (op_leb OP_IF (i_op i) && op_leb (i_op i) OP_ENDIF) eqn:E; [|eauto].
  unfold op_leb in E. change (bZ OP_IF) with 99 in E. change (bZ OP_ENDIF) with 104 in E.
  match goal with |- context[dispatch ?s] => set (st1 := s) end.
  assert (V : In false (s_vf st1)) by (unfold st1; destruct (negb _); exact F).
  assert (CC : (bZ (i_op i) = 99 \/ bZ (i_op i) = 100) \/ bZ (i_op i) = 101 \/ bZ (i_op i) = 102 \/ bZ (i_op i) = 103 \/ bZ (i_op i) = 104) by lia.
  clear - CC V. destruct CC as [C|[C|[C|[C|C]]]].
  - rewrite dispatch_if by exact C. left. unfold do_if. eauto.
  - right. right. right. right. split; [|auto]. apply (bZ_inj (i_op i) x65) in C. rewrite C. reflexivity.
  - right. right. right. right. split; [|auto]. apply (bZ_inj (i_op i) x66) in C. rewrite C. reflexivity.
  - rewrite dispatch_else by exact C. left. unfold do_else. destruct (snoc_cases_gen (s_vf st1)) as [Q|(a & t & Q)]; [rewrite Q in V; destruct V|].
    rewrite Q. replace (blen (a ++ [t]) =? 0) with false by (rewrite blen_app; unfold blen; cbn [length]; lia).
    rewrite last_n_app by reflexivity. eauto.
  - rewrite dispatch_endif by exact C. left. unfold do_endif. destruct (s_vf st1) as [|v r] eqn:Q; [destruct V|]. unfold blen. cbn [length].
    replace (Z.of_nat (S (length r)) =? 0) with false by lia. eauto.
Qed.
Lemma skip_stacks st i st' : In false (s_vf st) -> step st i = Ok (Next st') -> s_stack st' = s_stack st /\ s_alt st' = s_alt st.
Proof.
  intros F H. destruct (Z_le_dec 99 (bZ (i_op i))) as [A|A]; [destruct (Z_le_dec (bZ (i_op i)) 104) as [B|B]|].
  - assert (DC : conditional (bZ (i_op i)) \/ bZ (i_op i) = 101 \/ bZ (i_op i) = 102) by (unfold conditional; lia).
    destruct DC as [C|C].
    + unfold step in H. rewrite (not_exec st F) in H. cbn [negb andb orb] in H.
      destruct (match data_bytes i with Some d => _ | None => _ end); [discriminate|].
      match type of H with (if ?a && ?b then _ else _) = _ => destruct (a && b); [discriminate|] end.
      destruct (op_in (i_op i) disabled_ops); [discriminate|].
      assert (E : op_leb OP_IF (i_op i) && op_leb (i_op i) OP_ENDIF = true).
      { unfold op_leb. change (bZ OP_IF) with 99. change (bZ OP_ENDIF) with 104. lia. }
      rewrite E in H. match type of H with dispatch ?s _ _ _ = _ => set (st1 := s) in H end.
      assert (S1 : s_stack st1 = s_stack st /\ s_alt st1 = s_alt st) by (unfold st1; destruct (negb _); split; reflexivity).
      destruct S1 as [<- <-]. clear - C H.
      assert (CC : (bZ (i_op i) = 99 \/ bZ (i_op i) = 100) \/ bZ (i_op i) = 103 \/ bZ (i_op i) = 104) by (unfold conditional in C; lia).
      destruct CC as [E|[E|E]].
      * rewrite dispatch_if in H by exact E. unfold do_if in H. injection H as <-. split; reflexivity.
      * rewrite dispatch_else in H by exact E. unfold do_else, unpack_error in H. crunch H. split; reflexivity.
      * rewrite dispatch_endif in H by exact E. unfold do_endif in H. crunch H. split; reflexivity.
    + exfalso. apply step_inv in H as S. pose proof (p_count _ _ _ S) as N. pose proof (p_able _ _ _ S) as D. pose proof (p_quiet _ _ _ S) as Q.
      unfold step in H. rewrite (not_exec st F) in H. cbn [negb andb orb] in H.
      destruct (match data_bytes i with Some d => _ | None => _ end); [discriminate|].
      match type of H with (if ?a && ?b then _ else _) = _ => destruct (a && b); [discriminate|] end.
      destruct (op_in (i_op i) disabled_ops); [discriminate|].
      assert (E : op_leb OP_IF (i_op i) && op_leb (i_op i) OP_ENDIF = true).
      { unfold op_leb. change (bZ OP_IF) with 99. change (bZ OP_ENDIF) with 104. lia. }
      rewrite E in H.
      destruct C as [C|C]; [apply (bZ_inj (i_op i) x65) in C|apply (bZ_inj (i_op i) x66) in C]; rewrite C in H; discriminate H.
  - pose proof (step_inv _ _ _ H) as S.
    assert (L : ~ long_push i).
    { intros L. apply long_push_iff in L. unfold step in H. rewrite L in H. discriminate. }
    rewrite skip_step in H; [injection H as <-; split; reflexivity|exact F|lia|exact L| |apply (p_able _ _ _ S)].
    intros G. pose proof (p_count _ _ _ S G). lia.
  - pose proof (step_inv _ _ _ H) as S.
    assert (L : ~ long_push i).
    { intros L. apply long_push_iff in L. unfold step in H. rewrite L in H. discriminate. }
    rewrite skip_step in H; [injection H as <-; split; reflexivity|exact F|lia|exact L| |apply (p_able _ _ _ S)].
    intros G. pose proof (p_count _ _ _ S G). lia.
Qed.

(** ** limits *)
Lemma to_bytes_length l b : ins_list_to_bytes l = Ok b -> blen l <= blen b.
Proof.
  revert b. induction l as [|i l IH]; intros b H; [injection H as <-; reflexivity|].
  cbn [ins_list_to_bytes] in H. destruct (ins_to_bytes i) as [a|e] eqn:A; cbn [bind] in H; [|discriminate].
  destruct (ins_list_to_bytes l) as [b'|e]; cbn [bind] in H; [|discriminate]. injection H as <-. specialize (IH b' eq_refl).
  rewrite blen_app. assert (1 <= blen a).
  { unfold ins_to_bytes in A. destruct (compat_chr (bZ (i_op i))) as [c|e] eqn:C; cbn [bind] in A; [|discriminate].
    assert (blen c = 1) by (unfold compat_chr in C; destruct (_ && _) in C; [injection C as <-; reflexivity|discriminate]).
    destruct (is_const_push _); [destruct (i_data i); [injection A as <-; rewrite blen_app; unfold blen in *; lia|discriminate]|].
    destruct (is_var_push _); [discriminate|]. injection A as <-. lia. }
  unfold blen in *. cbn [length]. lia.
Qed.
Lemma run_bounds l st st' : run l st = Ok (Next st') ->
  s_nop st <= s_nop st' /\ (s_nop st <= 201 -> s_nop st' <= 201) /\ counted_ops l <= s_nop st' - s_nop st /\
  items st' <= items st + blen l + 2 * (s_nop st' - s_nop st).
Proof.
  revert st. induction l as [|i l IH]; intros st H.
  - injection H as <-. change (counted_ops []) with 0. change (blen (@nil instr)) with 0. lia.
  - apply run_cons_next in H. destruct H as (st1 & H1 & H2). apply step_inv in H1. specialize (IH st1 H2).
    pose proof (p_nop _ _ _ H1). pose proof (p_count _ _ _ H1). pose proof (p_size _ _ _ H1).
    unfold counted_ops in *. cbn [filter]. destruct (97 <=? bZ (i_op i)) eqn:E; unfold blen in *; cbn [length]; lia.
Qed.
Lemma run_small l st st' n0 : run l st = Ok (Next st') -> n0 <= s_nop st <= 201 -> items st + blen l + 2 * (201 - s_nop st) <= 2 ^ 32 ->
  small_items st -> small_items st'.
Proof.
  revert st. induction l as [|i l IH]; intros st H N B S; [injection H as <-; exact S|].
  apply run_cons_next in H. destruct H as (st1 & H1 & H2). pose proof (step_inv _ _ _ H1) as P.
  assert (blen (i :: l) = 1 + blen l) by (unfold blen; cbn [length]; lia).
  assert (0 <= blen l) by (unfold blen; lia).
  pose proof (p_nop _ _ _ P) as [NN1 NN2]. specialize (NN2 (proj2 N)). pose proof (p_size _ _ _ P).
  assert (SM : small_items st1) by (apply (p_small _ _ _ P); [lia|exact S]).
  apply (IH st1 H2); [lia|lia|exact SM].
Qed.
Lemma reach_limits st st1 l1 : reaches st st1 l1 -> s_nop st = 0 -> items st <= 1000 -> small_items st ->
  small_items st1 /\ counted_ops l1 <= 201 /\ s_nop st1 <= 201 /\ items st1 <= 1000 + blen l1 + 402 /\ items st1 <= 11402.
Proof.
  intros (b & l2 & B & L & E & R) N T S. unfold script_to_bytes in B. apply to_bytes_length in B. rewrite E, blen_app in B.
  assert (0 <= blen l2) by (unfold blen; lia). destruct (run_bounds _ _ _ R) as (R1 & R2 & R3 & R4).
  split; [apply (run_small _ _ _ 0 R); [lia|lia|exact S]|]. lia.
Qed.
Lemma evaluate_size st b : script_to_bytes (s_script st) = Ok b -> 10000 < blen b -> evaluate st = Ok (Fail IE_ScriptSize).
Proof. intros H L. unfold evaluate. rewrite H. cbn [bind]. replace (_ >? _) with true by lia. reflexivity. Qed.
Lemma evaluate_items st st' : evaluate st = Ok (Next st') -> items st' <= 1000.
Proof. intros H. apply evaluate_next in H. destruct H as (b & _ & _ & _ & T & _). exact T. Qed.

Lemma run_ones k st : executing st -> run (repeat (Instr x51 None) k) st =
  Ok (Next (Interp (s_stack st ++ repeat (BA [x01]) k) (s_alt st) (s_pc st + Z.of_nat k) (s_begin st) (s_nop st) (s_vf st) (s_errstr st) (s_flags st) (s_script st))).
Proof.
  revert st. induction k as [|k IH]; intros st X.
  - cbn [repeat run]. rewrite app_nil_r, Z.add_0_r. destruct st; reflexivity.
  - cbn [repeat run]. assert (E : step st (Instr x51 None) = Ok (Next (uncounted st (s_stack st ++ [BA [x01]])))).
    { unfold step. apply executing_iff in X. rewrite X. destruct st; reflexivity. }
    rewrite E. cbn [bind]. rewrite IH by exact X. unfold uncounted. cbn [s_stack s_alt s_pc s_begin s_nop s_vf s_errstr s_flags s_script].
    rewrite <- app_assoc. cbn [app]. do 3 f_equal. lia.
Qed.

Lemma ones_bytes k l : ins_list_to_bytes (repeat (Instr x51 None) k ++ l) = let! b := ins_list_to_bytes l in Ok (repeat x51 k ++ b).
Proof.
  induction k as [|k IH]; cbn [repeat app ins_list_to_bytes]; [destruct (ins_list_to_bytes l); reflexivity|].
  rewrite IH. destruct (ins_list_to_bytes l); reflexivity.
Qed.
Lemma stack_limit_late : exists s st1 st2 l1,
  reaches (ready s [] 0) st1 l1 /\ 1000 < items st1 /\ evaluate (ready s [] 0) = Ok (Next st2).
Proof.
  set (l1 := repeat (Instr x51 None) 1001).
  set (s := Script None (l1 ++ [Instr x6d None])).
  set (st1 := Interp (repeat (BA [x01]) 1001) [] 1001 0 0 [] IE_None 0 s).
  assert (R1 : run l1 (ready s [] 0) = Ok (Next st1)).
  { unfold l1. rewrite run_ones by (intros []). reflexivity. }
  assert (S1 : s_stack st1 = repeat (BA [x01]) 999 ++ [BA [x01]; BA [x01]]) by reflexivity.
  assert (B : script_to_bytes s = Ok (repeat x51 1001 ++ [x6d])).
  { unfold s, script_to_bytes. cbn [s_ins]. unfold l1. rewrite ones_bytes. reflexivity. }
  assert (R2 : run (s_ins s) (ready s [] 0) = Ok (Next (counted st1 (repeat (BA [x01]) 999 ++ []) []))).
  { unfold s at 1. cbn [s_ins]. rewrite run_app, R1. cbn [bind run].
    rewrite (stack_word_step 109 2 [] st1 (Instr x6d None) (repeat (BA [x01]) 999) [BA [x01]; BA [x01]] []); try reflexivity.
    - left. reflexivity.
    - split; reflexivity.
    - intros [].
    - constructor. }
  exists s, st1, (counted st1 (repeat (BA [x01]) 999 ++ []) []), l1. split; [|split].
  - exists (repeat x51 1001 ++ [x6d]), [Instr x6d None]. split; [exact B|]. split; [vm_compute; congruence|]. split; [reflexivity|exact R1].
  - vm_compute. reflexivity.
  - apply evaluate_next. exists (repeat x51 1001 ++ [x6d]). cbn [s_script ready].
    split; [exact B|]. split; [vm_compute; congruence|]. split; [exact R2|]. split; [vm_compute; congruence|reflexivity].
Qed.

(** ** opcodes that never let a script succeed *)
Lemma run_forall (P : instr -> Prop) l st st' : (forall st i st', step st i = Ok (Next st') -> P i) -> run l st = Ok (Next st') -> Forall P l.
Proof.
  intros H. revert st. induction l as [|i l IH]; intros st R; [constructor|].
  apply run_cons_next in R. destruct R as (st1 & R1 & R2). constructor; [apply (H _ _ _ R1)|apply (IH _ R2)].
Qed.
Lemma disabled_never st st' : Exists (fun i => disabled (bZ (i_op i))) (s_ins (s_script st)) -> evaluate st <> Ok (Next st').
Proof.
  intros X H. apply evaluate_next in H. destruct H as (b & _ & _ & R & _).
  pose proof (run_forall (fun i => ~ disabled (bZ (i_op i))) _ _ _ (fun st i st' S => p_able _ _ _ (step_inv _ _ _ S)) R) as F.
  apply Exists_exists in X. destruct X as [i [I D]]. rewrite Forall_forall in F. exact (F i I D).
Qed.

Lemma step_op_next st i st' : executing st -> 97 <= bZ (i_op i) -> step st i = Ok (Next st') ->
  step st i = dispatch (counted st (s_stack st) (s_alt st)) (minimal_of st) true (i_op i).
Proof.
  intros X L H. pose proof (step_inv _ _ _ H) as S. apply step_op; auto.
  - pose proof (p_count _ _ _ S L). unfold room. lia.
  - apply (p_quiet _ _ _ S).
  - apply (p_able _ _ _ S).
Qed.
Lemma hopeless_never st i st' : executing st -> hopeless (bZ (i_op i)) -> step st i <> Ok (Next st').
Proof.
  intros X P H. pose proof (step_op_next st i st' X ltac:(unfold hopeless in P; lia) H) as E. rewrite E in H. clear E.
  destruct P as [P|[P|[P|P]]].
  - apply (bZ_inj (i_op i) xa9) in P. rewrite P in H. change (do_hash (counted st (s_stack st) (s_alt st)) xa9 = Ok (Next st')) in H.
    unfold do_hash, need, unpack_error in H. crunch H; discriminate.
  - apply (bZ_inj (i_op i) xac) in P. rewrite P in H. change (do_checksig (counted st (s_stack st) (s_alt st)) = Ok (Next st')) in H.
    unfold do_checksig, need, unpack_error in H. crunch H; discriminate.
  - apply (bZ_inj (i_op i) xad) in P. rewrite P in H. change (do_checksig (counted st (s_stack st) (s_alt st)) = Ok (Next st')) in H.
    unfold do_checksig, need, unpack_error in H. crunch H; discriminate.
  - apply (bZ_inj (i_op i) xb1) in P. rewrite P in H. change (do_cltv (counted st (s_stack st) (s_alt st)) (minimal_of st) = Ok (Next st')) in H.
    unfold do_cltv, need, unpack_error in H. crunch H; discriminate.
Qed.

Lemma straight_step st i st' : s_vf st = [] -> bZ (i_op i) <> 99 /\ bZ (i_op i) <> 100 -> step st i = Ok (Next st') -> s_vf st' = [].
Proof.
  intros V N H. apply step_vf in H. rewrite V in H. remember (bZ (i_op i)) as z eqn:E. remember (@nil bool) as l eqn:L. clear E.
  destruct H as [z l v Z _|l v|l v|z l _]; [lia|destruct l; discriminate|destruct l; discriminate|reflexivity].
Qed.
Lemma straight_run (P : instr -> Prop) l st st' : straight_line l -> s_vf st = [] -> run l st = Ok (Next st') ->
  (forall st i st', executing st -> P i -> step st i <> Ok (Next st')) -> Forall (fun i => ~ P i) l.
Proof.
  intros L V R H. revert st V R. induction L as [|i l N L IH]; intros st V R; [constructor|].
  apply run_cons_next in R. destruct R as (st1 & R1 & R2). constructor.
  - intros Q. apply (H st i st1); auto. intros F. rewrite V in F. destruct F.
  - apply (IH st1); [|exact R2]. apply (straight_step st i); assumption.
Qed.
Lemma hopeless_script st st' : s_vf st = [] -> straight_line (s_ins (s_script st)) ->
  Exists (fun i => hopeless (bZ (i_op i))) (s_ins (s_script st)) -> evaluate st <> Ok (Next st').
Proof.
  intros V L X H. apply evaluate_next in H. destruct H as (b & _ & _ & R & _).
  pose proof (straight_run (fun i => hopeless (bZ (i_op i))) _ _ _ L V R hopeless_never) as F.
  apply Exists_exists in X. destruct X as [i [I D]]. rewrite Forall_forall in F. exact (F i I D).
Qed.

(** ** verify *)
Lemma initialize_ready st f s stack : set_flags (set_stack (set_script (initialize st) s) stack) f = ready s stack f.
Proof. reflexivity. Qed.
Lemma run_frame l st st' : run l st = Ok (Next st') -> s_errstr st' = s_errstr st /\ s_flags st' = s_flags st /\ s_script st' = s_script st.
Proof.
  revert st. induction l as [|i l IH]; intros st H; [injection H as <-; auto|].
  apply run_cons_next in H. destruct H as (st1 & H1 & H2). apply IH in H2. apply step_inv in H1.
  rewrite <- (p_err _ _ _ H1), <- (p_flags _ _ _ H1), <- (p_script _ _ _ H1). exact H2.
Qed.
Lemma evaluate_frame st st' : evaluate st = Ok (Next st') -> s_errstr st' = s_errstr st /\ s_flags st' = s_flags st.
Proof. intros H. apply evaluate_next in H. destruct H as (b & _ & _ & R & _). apply run_frame in R. tauto. Qed.
Lemma sigpush_flag f : has_flag f VERIFY_SIGPUSHONLY = Z.testbit f 5.
Proof. apply (has_flag_bit _ 5). lia. Qed.
Lemma p2sh_flag f : has_flag f VERIFY_P2SH = Z.testbit f 0.
Proof. apply (has_flag_bit _ 0). lia. Qed.
Lemma verify_unfold self a b f : verify self a b f =
  if Z.testbit f 5 && negb (is_push_only (s_ins a)) then Ok (false, IE_SigPushOnly) else
  let! o := evaluate (ready a [] f) in
  match o with
  | Fail e => Ok (false, e)
  | Next st =>
      let! o := evaluate (ready b (s_stack st) f) in
      match o with
      | Fail e => Ok (false, e)
      | Next st => match last_n 1 (s_stack st) with
          | [x] => if negb (cast_to_bool x) then Ok (false, IE_EvalFalseInStack)
                   else if Z.testbit f 0 then Err E_AttributeError else Ok (true, IE_None)
          | _ => Ok (false, IE_EvalFalseNoResult) end
      end
  end.
Proof.
  unfold verify. rewrite sigpush_flag. destruct (_ && _); [reflexivity|].
  change (set_flags (set_script (initialize self) a) f) with (ready a [] f).
  destruct (evaluate (ready a [] f)) as [[st|e]|e]; cbn [bind]; [|reflexivity..].
  rewrite initialize_ready. destruct (evaluate (ready b (s_stack st) f)) as [[st2|e]|e] eqn:E; cbn [bind]; [|reflexivity..].
  apply evaluate_frame in E. destruct E as [E1 E2]. cbn [ready s_errstr s_flags] in E1, E2. rewrite E1, E2, p2sh_flag. reflexivity.
Qed.
Lemma verify_fresh self self' a b f : verify self a b f = verify self' a b f.
Proof. rewrite !verify_unfold. reflexivity. Qed.

Lemma verify_iff self a b f e : verify self a b f = Ok (true, e) <->
  e = IE_None /\ ~ flag f P2SH /\ (flag f SIGPUSHONLY -> Forall (fun i => bZ (i_op i) <= 96) (s_ins a)) /\
  exists st1 st2 s x, evaluate (ready a [] f) = Ok (Next st1) /\ evaluate (ready b (s_stack st1) f) = Ok (Next st2) /\
    s_stack st2 = s ++ [x] /\ true_item x.
Proof.
  rewrite verify_unfold. unfold flag, P2SH, SIGPUSHONLY. rewrite <- push_only_iff. split.
  - destruct (_ && _) eqn:P; [discriminate|].
    destruct (evaluate (ready a [] f)) as [[st|?]|?] eqn:E1; cbn [bind]; try discriminate.
    destruct (evaluate (ready b (s_stack st) f)) as [[st2|?]|?] eqn:E2; cbn [bind]; try discriminate.
    destruct (last_n 1 (s_stack st2)) as [|x [|? ?]] eqn:L; try discriminate.
    destruct (cast_to_bool x) eqn:C; cbn [negb]; [|discriminate]. destruct (Z.testbit f 0) eqn:B; [discriminate|].
    intros [= <-]. apply cast_iff in C. apply snoc_inv in L. repeat split; auto.
    + intros T. rewrite T in P. destruct (is_push_only (s_ins a)); [reflexivity|discriminate].
    + exists st, st2, (drop_last 1 (s_stack st2)), x. auto.
  - intros (-> & N & P & st & st2 & s & x & E1 & E2 & S & T). rewrite E1. cbn [bind]. rewrite E2. cbn [bind]. rewrite S, last_n_app by reflexivity.
    apply cast_iff in T. rewrite T. cbn [negb]. apply not_true_is_false in N. rewrite N.
    destruct (Z.testbit f 5); [rewrite P by reflexivity|]; reflexivity.
Qed.
Lemma verify_needs self a b f e : verify self a b f = Ok (true, e) ->
  exists st1 st2, evaluate (ready a [] f) = Ok (Next st1) /\ evaluate (ready b (s_stack st1) f) = Ok (Next st2).
Proof. intros H. apply verify_iff in H. destruct H as (_ & _ & _ & st1 & st2 & _ & _ & E1 & E2 & _). eauto. Qed.

Lemma verify_disabled self a b f e : Exists (fun i => disabled (bZ (i_op i))) (s_ins a ++ s_ins b) -> verify self a b f <> Ok (true, e).
Proof.
  intros X H. apply verify_needs in H. destruct H as (st1 & st2 & E1 & E2). apply Exists_app in X. destruct X as [X|X].
  - apply (disabled_never (ready a [] f) st1); assumption.
  - apply (disabled_never (ready b (s_stack st1) f) st2); assumption.
Qed.
Lemma verify_hopeless self a b f e : straight_line (s_ins b) -> Exists (fun i => hopeless (bZ (i_op i))) (s_ins b) -> verify self a b f <> Ok (true, e).
Proof.
  intros L X H. apply verify_needs in H. destruct H as (st1 & st2 & E1 & E2).
  apply (hopeless_script (ready b (s_stack st1) f) st2); auto.
Qed.
Lemma opc_straight z i : opc z i -> z <> 99 /\ z <> 100 -> bZ (i_op i) <> 99 /\ bZ (i_op i) <> 100.
Proof. unfold opc. intros ->. auto. Qed.
Lemma push_straight i : is_a_push i -> bZ (i_op i) <> 99 /\ bZ (i_op i) <> 100.
Proof. unfold is_a_push, pushes. lia. Qed.
Lemma verify_p2pkh self a b f e : shape PayToPubkeyOut (s_ins b) -> verify self a b f <> Ok (true, e).
Proof.
  intros S. inversion S as [|x1 x2 x3 x4 x5 O1 O2 O3 O4 O5 EQ| | | |]. apply verify_hopeless; rewrite <- H.
  - repeat constructor; try (eapply opc_straight; [eassumption|lia]). all: apply push_straight in O3; tauto.
  - apply Exists_cons_tl, Exists_cons_hd. left. exact O2.
Qed.
Lemma verify_p2sh_out self a b f e : shape PayToScriptOut (s_ins b) -> verify self a b f <> Ok (true, e).
Proof.
  intros S. inversion S as [| | |x1 x2 x3 O1 O2 O3 EQ| |]. apply verify_hopeless; rewrite <- H.
  - repeat constructor; try (eapply opc_straight; [eassumption|lia]). all: apply push_straight in O2; tauto.
  - apply Exists_cons_hd. left. exact O1.
Qed.

(** ** pushes *)
Lemma push_step st i d : executing st -> pushes_data i d ->
  (minimal_of st = false -> step st i = Ok (Next (uncounted st (s_stack st ++ [d])))) /\
  (minimal_of st = true -> forall st', step st i <> Ok (Next st')).
Proof.
  intros X (D & O & L). apply executing_iff in X.
  assert (DB : data_bytes i = Some d).
  { unfold data_bytes. rewrite D. replace (pyb_len d =? 0) with false by lia. reflexivity. }
  assert (ST : step st i = do_push (set_pc st (s_pc st + 1)) (minimal_of st) i).
  { unfold step. rewrite minimal_flag, X, DB. cbn [negb andb orb]. unfold MAX_SCRIPT_ELEMENT_SIZE. replace (pyb_len d >? 520) with false by lia.
    replace (op_leb (i_op i) OP_16) with true by (unfold op_leb; change (bZ OP_16) with 96; lia). cbn [negb andb].
    assert (ND : ~ disabled (bZ (i_op i))) by (unfold disabled; lia). rewrite <- disabled_spec in ND. apply not_true_is_false in ND. rewrite ND.
    replace (op_leb (i_op i) OP_PUSHDATA4) with true by (unfold op_leb; change (bZ OP_PUSHDATA4) with 78; lia). reflexivity. }
  rewrite ST. unfold do_push. rewrite DB. split.
  - intros ->. destruct st; reflexivity.
  - intros -> st' H. unfold is_minimal_push in H. rewrite D in H. replace (pyb_len d =? 0) with false in H by lia.
    destruct ((pyb_len d =? 1) && _) eqn:A.
    + replace (bZ (i_op i) =? _) with false in H; [discriminate|]. change (bZ OP_1) with 81. lia.
    + destruct ((pyb_len d =? 1) && (first_int d =? 129)).
      * replace (op_eqb (i_op i) OP_1NEGATE) with false in H; [discriminate|]. unfold op_eqb. change (bZ OP_1NEGATE) with 79. lia.
      * replace (pyb_len d <=? 75) with true in H by lia. discriminate.
Qed.
Lemma zero_step st i : executing st -> plain 0 i -> step st i = Ok (Next (uncounted st (s_stack st ++ [BA []]))).
Proof.
  intros X P. apply plain_inv in P. destruct P as [-> _]. apply executing_iff in X. unfold step. rewrite X.
  destruct (has_flag (s_flags st) VERIFY_MINIMALDATA); destruct st; reflexivity.
Qed.
Lemma const_step st i n : executing st -> plain (80 + n) i -> 1 <= n <= 16 \/ n = -1 ->
  exists p, number_item p n /\ step st i = Ok (Next (uncounted st (s_stack st ++ [p]))).
Proof.
  intros X P N. exists (num n). split; [apply num_item|]. destruct i as [o d]. destruct P as [P1 P2]. cbn [i_op i_data] in P1, P2. subst d.
  apply executing_iff in X. unfold step. rewrite X. cbn [negb andb orb i_op i_data data_bytes].
  replace (op_leb o OP_16) with true by (unfold op_leb; change (bZ OP_16) with 96; lia). cbn [negb andb].
  assert (ND : ~ disabled (bZ o)) by (unfold disabled; lia). rewrite <- disabled_spec in ND. apply not_true_is_false in ND. rewrite ND.
  replace (op_leb o OP_PUSHDATA4) with false by (unfold op_leb; change (bZ OP_PUSHDATA4) with 78; lia).
  rewrite dispatch_low by lia. replace (op_in o const_ops) with true by (symmetry; apply const_ops_spec; lia).
  replace (bZ o - 80) with n by lia. destruct st; reflexivity.
Qed.
Lemma nop_step st i z : executing st -> room st -> plain z i -> z = 97 \/ z = 176 \/ 178 <= z <= 185 ->
  (z = 97 \/ ~ flag (s_flags st) DISCOURAGE -> step st i = Ok (Next (counted st (s_stack st) (s_alt st)))) /\
  (z <> 97 -> flag (s_flags st) DISCOURAGE -> step st i = Ok (Fail IE_DiscourageNops)).
Proof.
  intros X R P Z. unfold flag, DISCOURAGE.
  destruct (Z.eq_dec z 97) as [->|N].
  - split; [intros _; op_step P X R; reflexivity|lia].
  - assert (E : step st i = do_nop_n (counted st (s_stack st) (s_alt st))).
    { rewrite step_op; auto.
      - assert (I : In (bZ (i_op i)) [176; 178; 179; 180; 181; 182; 183; 184; 185]) by (destruct P as [-> _]; cbn; lia).
        clear - I. cbn in I. repeat (destruct I as [I|I]); [..|destruct I]; symmetry in I; apply (f_equal Zb) in I; rewrite Zb_bZ in I; rewrite I; reflexivity.
      - destruct P as [_ P]. unfold quiet, data_bytes. rewrite P. exact Logic.I.
      - destruct P as [-> _]. lia.
      - destruct P as [-> _]. unfold disabled. lia. }
    rewrite E. unfold do_nop_n. cbn [s_flags counted]. change VERIFY_DISCOURAGE_NOPS with (2 ^ 7). rewrite has_flag_bit by lia.
    destruct (Z.testbit (s_flags st) 7); split; intros; try reflexivity; try tauto; discriminate.
Qed.
Lemma codesep_step st i : executing st -> room st -> plain 171 i ->
  step st i = Ok (Next (set_begin (counted st (s_stack st) (s_alt st)) (s_pc st + 1))).
Proof. intros X R P. op_step P X R. reflexivity. Qed.
Lemma return_step st i : executing st -> room st -> plain 106 i -> step st i = Ok (Fail IE_OpReturn).
Proof. intros X R P. op_step P X R. reflexivity. Qed.
Lemma hash_step st i z f s x : executing st -> room st -> plain z i -> hash_op z f -> s_stack st = s ++ [x] ->
  step st i = Ok (Next (counted st (s ++ [Str (f (pyb_bytes x))]) (s_alt st))).
Proof.
  intros X R P H S. destruct H as [[-> ->]|[[-> ->]|[[-> ->]|[-> ->]]]];
    (op_step P X R; unfold do_hash, go; cbn [s_stack s_alt counted]; rewrite S; need_ok; slices; reflexivity).
Qed.
Lemma hash_short st i z : executing st -> room st -> plain z i -> 166 <= z <= 170 -> s_stack st = [] -> step st i = Ok (Fail IE_InvalidStack).
Proof.
  intros X R P H S. assert (I : In z [166; 167; 168; 169; 170]) by (cbn; lia). clear H.
  repeat (destruct I as [<-|I]; [op_step P X R; apply need_short; cbn [s_stack counted]; rewrite S; reflexivity|]). destruct I.
Qed.

(** the flag makes every script with a data push fail *)
Lemma minimal_script st st' : s_vf st = [] -> flag (s_flags st) MINIMALDATA -> straight_line (s_ins (s_script st)) ->
  Exists (fun i => exists d, pushes_data i d) (s_ins (s_script st)) -> evaluate st <> Ok (Next st').
Proof.
  intros V F L X H. apply evaluate_next in H. destruct H as (b & _ & _ & R & _).
  assert (G : forall l st, straight_line l -> s_vf st = [] -> flag (s_flags st) MINIMALDATA -> forall st', run l st = Ok (Next st') -> Forall (fun i => ~ exists d, pushes_data i d) l).
  { clear. intros l st L V F st' R. revert st V F R. induction L as [|i l N L IH]; intros st V F R; [constructor|].
    apply run_cons_next in R. destruct R as (st1 & R1 & R2). constructor.
    - intros [d D]. apply (proj2 (push_step st i d ltac:(intros Q; rewrite V in Q; destruct Q) D) F st1 R1).
    - apply (IH st1); [apply (straight_step st i); assumption| |exact R2]. rewrite (p_flags _ _ _ (step_inv _ _ _ R1)). exact F. }
  specialize (G _ _ L V F _ R). apply Exists_exists in X. destruct X as [i [I D]]. rewrite Forall_forall in G. exact (G i I D).
Qed.
Lemma push_only_straight l : Forall (fun i => bZ (i_op i) <= 96) l -> straight_line l.
Proof. apply Forall_impl. intros i. lia. Qed.
Lemma verify_minimal self a b f e : flag f MINIMALDATA -> straight_line (s_ins a) -> Exists (fun i => exists d, pushes_data i d) (s_ins a) ->
  verify self a b f <> Ok (true, e).
Proof.
  intros F L X H. apply verify_needs in H. destruct H as (st1 & st2 & E1 & E2). apply (minimal_script (ready a [] f) st1); auto.
Qed.
Lemma verify_p2sh self a b f e : flag f P2SH -> verify self a b f <> Ok (true, e).
Proof. intros F H. apply verify_iff in H. tauto. Qed.
Lemma verify_sigpushonly self a b f : flag f SIGPUSHONLY -> Exists (fun i => 97 <= bZ (i_op i)) (s_ins a) ->
  verify self a b f = Ok (false, IE_SigPushOnly).
Proof.
  intros F X. rewrite verify_unfold. unfold flag, SIGPUSHONLY in F. rewrite F.
  destruct (is_push_only (s_ins a)) eqn:P; [|reflexivity]. apply push_only_iff in P. apply Exists_exists in X. destruct X as [i [I L]].
  rewrite Forall_forall in P. specialize (P i I). cbn in P. lia.
Qed.
Lemma evaluate_err st e : Forall well_formed (s_ins (s_script st)) -> evaluate st = Err e ->
  e = E_TypeError /\ Exists (fun i => pushdata (i_op i)) (s_ins (s_script st)).
Proof.
  intros W. unfold evaluate, script_to_bytes. destruct (ins_list_to_bytes _) as [b|e'] eqn:B; cbn [bind].
  - destruct (_ >? _); [discriminate|]. destruct (run _ st) as [[st1|?]|?]; try discriminate. destruct (_ >? _); [discriminate|]. destruct (_ >? _); discriminate.
  - intros [= <-].
    assert (D : {Exists (fun i => pushdata (i_op i)) (s_ins (s_script st))} + {~ Exists (fun i => pushdata (i_op i)) (s_ins (s_script st))}).
    { apply Exists_dec. intros i. unfold pushdata. destruct (Z_le_dec 76 (bZ (i_op i))); [destruct (Z_le_dec (bZ (i_op i)) 78)|]; [left|right|right]; lia. }
    destruct D as [D|D].
    + rewrite to_bytes_pushdata in B by assumption. injection B as <-. auto.
    + exfalso. apply Forall_Exists_neg in D. destruct (to_bytes_ok _ W D) as (b & E & _). rewrite E in B. discriminate.
Qed.
Lemma evaluate_pushdata st : Forall well_formed (s_ins (s_script st)) -> Exists (fun i => pushdata (i_op i)) (s_ins (s_script st)) ->
  evaluate st = Err E_TypeError.
Proof. intros W P. unfold evaluate, script_to_bytes. rewrite to_bytes_pushdata by assumption. reflexivity. Qed.
Lemma verify_raises self a b f e : Forall well_formed (s_ins a ++ s_ins b) -> verify self a b f = Err e ->
  (e = E_TypeError /\ Exists (fun i => pushdata (i_op i)) (s_ins a ++ s_ins b)) \/ (e = E_AttributeError /\ flag f P2SH).
Proof.
  intros W. apply Forall_app in W. destruct W as [W1 W2]. rewrite verify_unfold. destruct (_ && _); [discriminate|].
  destruct (evaluate (ready a [] f)) as [[st|?]|?] eqn:E1; cbn [bind]; try discriminate.
  2:{ intros [= <-]. apply evaluate_err in E1; [|exact W1]. left. rewrite Exists_app. tauto. }
  destruct (evaluate (ready b (s_stack st) f)) as [[st2|?]|?] eqn:E2; cbn [bind]; try discriminate.
  2:{ intros [= <-]. apply evaluate_err in E2; [|exact W2]. left. rewrite Exists_app. tauto. }
  destruct (last_n 1 (s_stack st2)) as [|x [|? ?]]; try discriminate.
  destruct (negb _); [discriminate|]. unfold flag, P2SH. destruct (Z.testbit f 0) eqn:F; [|discriminate]. intros [= <-]. auto.
Qed.
Lemma verify_pushdata self a b f : Forall well_formed (s_ins a) -> Exists (fun i => pushdata (i_op i)) (s_ins a) -> 
  (flag f SIGPUSHONLY -> Forall (fun i => bZ (i_op i) <= 96) (s_ins a)) -> verify self a b f = Err E_TypeError.
Proof.
  intros W X P. rewrite verify_unfold. unfold flag, SIGPUSHONLY in P.
  replace (Z.testbit f 5 && negb (is_push_only (s_ins a))) with false.
  - rewrite evaluate_pushdata by assumption. reflexivity.
  - symmetry. destruct (Z.testbit f 5); [|reflexivity]. specialize (P eq_refl). apply push_only_iff in P. rewrite P. reflexivity.
Qed.

(** ** CHECKMULTISIG *)
Lemma checkmultisig_next st m v st' : do_checkmultisig st m v = Ok (Next st') <->
  exists s dummy zero keys k, s_stack st = s ++ [dummy; zero] ++ keys ++ [k] /\ operand m k (blen keys) /\ operand m zero 0 /\
    blen keys <= 20 /\ s_nop st + blen keys <= 201 /\ (flag (s_flags st) NULLDUMMY -> pyb_len dummy = 0) /\
    st' = set_stack (set_nop st (s_nop st + blen keys)) (if v then s else s ++ [BA [x01]]).
Proof.
  assert (NF : has_flag (s_flags st) VERIFY_NULLDUMMY = Z.testbit (s_flags st) 4) by (apply (has_flag_bit _ 4); lia).
  split.
  - intros H. unfold do_checkmultisig, need, unpack_error in H. cbn [s_stack set_nop s_nop s_flags] in H.
    destruct (blen (s_stack st) <? 1) eqn:L1; [discriminate|].
    destruct (last_n 1 (s_stack st)) as [|k [|? ?]] eqn:K; try discriminate.
    destruct (decode_script_number k m 4) as [n|] eqn:DK; cbn [bind] in H; [|discriminate].
    destruct (negb _) eqn:RN in H; [discriminate|]. destruct (_ >? 201) eqn:NN; [discriminate|].
    destruct (blen (s_stack st) <? n + 2) eqn:L2; [discriminate|].
    destruct (nth_error (s_stack st) _) as [z|] eqn:NZ; [|discriminate].
    destruct (decode_script_number z m 4) as [g|] eqn:DZ; cbn [bind] in H; [|discriminate].
    destruct (negb _) eqn:RG in H; [discriminate|].
    destruct (blen (s_stack st) <? n + g + 3) eqn:L3; [discriminate|].
    destruct (remove_all _ _); cbn [bind] in H; [|discriminate].
    destruct (g >? 0) eqn:G; [discriminate|]. assert (g = 0) by lia. subst g.
    destruct (split_at_end (Z.to_nat n + 3) (s_stack st)) as (s & t & E & LT); [unfold blen in *; lia|].
    destruct t as [|dummy [|zero t]]; [cbn in LT; lia..|].
    destruct (split_at_end 1 t) as (keys & t2 & E2 & LT2); [cbn in LT; lia|]. list_of_length LT2. subst t.
    assert (LK : length keys = Z.to_nat n) by (cbn [length] in LT; rewrite app_length in LT; cbn [length] in LT; lia).
    assert (E3 : s_stack st = s ++ [dummy; zero] ++ keys ++ [p]) by exact E. clear E.
    assert (p = k). { rewrite E3 in K. rewrite !app_assoc in K. rewrite last_n_app in K by reflexivity. congruence. } subst p.
    assert (z = zero).
    { rewrite E3 in NZ. rewrite !app_length in NZ. cbn [length] in NZ. rewrite LK in NZ.
      replace (length s + (2 + (Z.to_nat n + 1)) - Z.to_nat n - 2)%nat with (length s + 1)%nat in NZ by lia.
      rewrite nth_error_app2 in NZ by lia. replace (length s + 1 - length s)%nat with 1%nat in NZ by lia. cbn in NZ. congruence. }
    subst z. assert (BK : blen keys = n) by (unfold blen; lia).
    assert (D1 : drop_last (Z.to_nat (0 + n + 2)) (s_stack st) = s ++ [dummy]).
    { rewrite E3. change ([dummy; zero] ++ keys ++ [k]) with ([dummy] ++ [zero] ++ keys ++ [k]). rewrite (app_assoc s).
      apply drop_last_app. rewrite !app_length. cbn [length]. lia. }
    rewrite D1, last_n_app, drop_last_app in H by reflexivity. rewrite NF in H.
    destruct (Z.testbit (s_flags st) 4 && negb (pyb_len dummy =? 0)) eqn:F; [discriminate|].
    exists s, dummy, zero, keys, k. rewrite BK. repeat split; auto; try (apply operand_iff; assumption); try lia.
    + unfold flag, NULLDUMMY. intros T. rewrite T in F. lia.
    + injection H as <-. destruct v; rewrite ?drop_last_app by reflexivity; reflexivity.
  - intros (s & dummy & zero & keys & k & E & O1 & O2 & LK & NN & F & ->).
    apply operand_iff in O1, O2. unfold do_checkmultisig, need.
    assert (0 <= blen keys) by (unfold blen; lia).
    assert (LS : blen (s_stack st) = blen s + blen keys + 3) by (rewrite E, !blen_app; unfold blen; cbn [length]; lia).
    assert (0 <= blen s) by (unfold blen; lia).
    replace (blen (s_stack st) <? 1) with false by lia.
    assert (K : last_n 1 (s_stack st) = [k]) by (rewrite E, !app_assoc; apply last_n_app; reflexivity).
    rewrite K, O1. cbn [bind s_stack set_nop s_nop s_flags].
    replace (negb ((0 <=? blen keys) && (blen keys <=? 20))) with false by lia.
    replace (s_nop st + blen keys >? 201) with false by lia. replace (blen (s_stack st) <? blen keys + 2) with false by lia.
    assert (NZ : nth_error (s_stack st) (length (s_stack st) - Z.to_nat (blen keys) - 2) = Some zero).
    { unfold blen in *. replace (length (s_stack st) - Z.to_nat (Z.of_nat (length keys)) - 2)%nat with (length s + 1)%nat by lia.
      rewrite E, nth_error_app2 by lia. replace (length s + 1 - length s)%nat with 1%nat by lia. reflexivity. }
    rewrite NZ, O2. cbn [bind]. replace (negb ((0 <=? 0) && (0 <=? blen keys))) with false by lia.
    replace (blen (s_stack st) <? blen keys + 0 + 3) with false by lia.
    change (Z.to_nat 0) with 0%nat. change (remove_all (subscript (set_nop st (s_nop st + blen keys))) (rev (last_n 0 (drop_last (Z.to_nat (blen keys) + 2) (s_stack st)))))
      with (remove_all (subscript (set_nop st (s_nop st + blen keys))) (rev (skipn (length (drop_last (Z.to_nat (blen keys) + 2) (s_stack st)) - 0) (drop_last (Z.to_nat (blen keys) + 2) (s_stack st))))).
    rewrite Nat.sub_0_r, skipn_all. cbn [rev remove_all bind]. change (0 >? 0) with false. cbv iota.
    assert (D1 : drop_last (Z.to_nat (0 + blen keys + 2)) (s_stack st) = s ++ [dummy]).
    { rewrite E. change ([dummy; zero] ++ keys ++ [k]) with ([dummy] ++ [zero] ++ keys ++ [k]). rewrite (app_assoc s).
      apply drop_last_app. rewrite !app_length. cbn [length]. unfold blen. lia. }
    rewrite D1, last_n_app, drop_last_app by reflexivity. rewrite NF.
    replace (Z.testbit (s_flags st) 4 && negb (pyb_len dummy =? 0)) with false.
    + destruct v; rewrite ?drop_last_app by reflexivity; reflexivity.
    + symmetry. unfold flag, NULLDUMMY in F. destruct (Z.testbit (s_flags st) 4); [rewrite (F eq_refl)|]; reflexivity.
Qed.
Lemma multisig_step st i z st' : executing st -> plain z i -> z = 174 \/ z = 175 ->
  step st i = Ok (Next st') <->
  exists s dummy zero keys k, s_stack st = s ++ [dummy; zero] ++ keys ++ [k] /\
    operand (minimal_of st) k (blen keys) /\ operand (minimal_of st) zero 0 /\
    blen keys <= 20 /\ s_nop st + 1 + blen keys <= 201 /\ (flag (s_flags st) NULLDUMMY -> pyb_len dummy = 0) /\
    st' = multisig_done st (blen keys) (if z =? 175 then s else s ++ [BA [x01]]).
Proof.
  intros X P Z.
  assert (D : forall s, dispatch s (minimal_of st) true (i_op i) = do_checkmultisig s (minimal_of st) (z =? 175)).
  { intros s. destruct P as [P _]. destruct Z as [-> | ->]; [apply (bZ_inj (i_op i) xae) in P|apply (bZ_inj (i_op i) xaf) in P]; rewrite P; reflexivity. }
  assert (Q : quiet i) by (destruct P as [_ P]; unfold quiet, data_bytes; rewrite P; exact I).
  split.
  - intros H. rewrite (step_op_next st i st' X) in H by (try exact H; destruct P as [-> _]; lia).
    rewrite D in H. apply checkmultisig_next in H.
    destruct H as (s & dummy & zero & keys & k & E & H). exists s, dummy, zero, keys, k. cbn [s_stack s_nop s_flags counted] in *. tauto.
  - intros (s & dummy & zero & keys & k & E & O1 & O2 & L & N & F & ->).
    assert (0 <= blen keys) by (unfold blen; lia).
    rewrite step_op; auto; [|unfold room; lia|destruct P as [-> _]; lia|destruct P as [-> _]; unfold disabled; lia].
    rewrite D. apply checkmultisig_next. exists s, dummy, zero, keys, k. cbn [s_stack s_nop s_flags counted]. repeat split; auto.
Qed.

(** ** well-formed multisig outputs *)
Lemma run_pushes l ds st st' : Forall2 pushes_data l ds -> s_vf st = [] -> run l st = Ok (Next st') ->
  s_stack st' = s_stack st ++ ds /\ s_vf st' = [] /\ s_flags st' = s_flags st.
Proof.
  intros F. revert st. induction F as [|i d l ds P F IH]; intros st V R; [injection R as <-; rewrite app_nil_r; auto|].
  apply run_cons_next in R. destruct R as (st1 & R1 & R2).
  assert (X : executing st) by (intros Q; rewrite V in Q; destruct Q).
  destruct (push_step st i d X P) as [P1 P2]. destruct (minimal_of st); [destruct (P2 eq_refl _ R1)|].
  rewrite P1 in R1 by reflexivity. injection R1 as <-.
  apply IH in R2; [|exact V]. cbn [s_stack s_flags uncounted] in R2. rewrite <- app_assoc in R2. exact R2.
Qed.
Lemma multisig_never m keys n c st st' ds nm nn : s_vf st = [] -> plain (80 + nm) m -> plain (80 + nn) n -> plain 174 c ->
  1 <= nm <= 16 -> 1 <= nn <= 16 -> blen keys = nn -> Forall2 pushes_data keys ds ->
  run (m :: keys ++ [n; c]) st <> Ok (Next st').
Proof.
  intros V Pm Pn Pc Nm Nn L F R.
  assert (X : forall s, s_vf s = [] -> executing s) by (intros s Q I; rewrite Q in I; destruct I).
  apply run_cons_next in R. destruct R as (st1 & R1 & R2).
  destruct (const_step st m nm (X st V) Pm ltac:(lia)) as (p1 & N1 & S1). rewrite S1 in R1. injection R1 as <-.
  rewrite run_app in R2. destruct (run keys _) as [[st2|?]|?] eqn:R3; cbn [bind] in R2; try discriminate.
  apply (run_pushes keys ds) in R3; [|exact F|exact V]. destruct R3 as (S2 & V2 & F2). cbn [s_stack uncounted] in S2.
  apply run_cons_next in R2. destruct R2 as (st3 & R4 & R5).
  destruct (const_step st2 n nn (X st2 V2) Pn ltac:(lia)) as (p2 & N2 & S3). rewrite S3 in R4. injection R4 as <-.
  apply run_cons_next in R5. destruct R5 as (st4 & R6 & _).
  apply (multisig_step _ _ 174) in R6; [|apply X; exact V2|exact Pc|auto].
  destruct R6 as (s & dummy & zero & ks & k & E & O1 & O2 & _). cbn [s_stack uncounted] in E. rewrite S2 in E.
  apply number_item_num in N1, N2. subst p1 p2.
  rewrite !app_assoc in E. apply app_inj_tail in E. destruct E as [E <-].
  assert (K : blen ks = nn).
  { apply operand_iff in O1. unfold num in O1. rewrite decode_encode_script_number in O1. destruct (_ <? _); [congruence|discriminate]. }
  assert (LD : length ds = length ks).
  { clear - F K L. unfold blen in *. assert (length keys = length ds) by (clear -F; induction F; cbn; congruence). lia. }
  assert (E' : (s_stack st ++ [num nm]) ++ ds = (s ++ [dummy; zero]) ++ ks) by exact E.
  apply (f_equal (drop_last (length ks))) in E'. rewrite drop_last_app in E' by exact LD. rewrite drop_last_app in E' by reflexivity.
  change (s ++ [dummy; zero]) with (s ++ [dummy] ++ [zero]) in E'. rewrite app_assoc in E'. apply app_inj_tail in E'. destruct E' as [_ <-].
  apply operand_iff in O2. unfold num in O2. rewrite decode_encode_script_number in O2. destruct (_ <? _); [injection O2; lia|discriminate].
Qed.
Lemma verify_multisig self a b f e m keys n c ds nm nn : s_ins b = m :: keys ++ [n; c] -> plain (80 + nm) m -> plain (80 + nn) n -> plain 174 c ->
  1 <= nm <= 16 -> 1 <= nn <= 16 -> blen keys = nn -> Forall2 pushes_data keys ds -> verify self a b f <> Ok (true, e).
Proof.
  intros E Pm Pn Pc Nm Nn L F H. apply verify_needs in H. destruct H as (st1 & st2 & _ & E2).
  apply evaluate_next in E2. destruct E2 as (? & _ & _ & R & _). cbn [s_script ready] in R. rewrite E in R.
  eapply multisig_never; [| | | | | | | |exact R]; try eassumption. reflexivity.
Qed.

(** ** hash locks *)
Lemma one_byte_true p : pyb_bytes p = [x01] -> true_item p.
Proof. intros H. exists x01, []. split; [exact H|]. split; [vm_compute; congruence|]. intros [Q _]. discriminate Q. Qed.
Lemma empty_false p : pyb_bytes p = [] -> ~ true_item p.
Proof. intros H (c & r & E & _). congruence. Qed.
Lemma pushes_data_wf i d : pushes_data i d -> well_formed i /\ ~ pushdata (i_op i) /\ ins_to_bytes i = Ok (i_op i :: pyb_bytes d).
Proof.
  intros (D & O & L). split; [unfold well_formed, push_length; rewrite D; left; split; [exact O|exact L]|]. split; [unfold pushdata; lia|].
  unfold ins_to_bytes. unfold compat_chr. replace ((0 <=? bZ (i_op i)) && (bZ (i_op i) <? 256)) with true by lia. cbn [bind].
  rewrite (proj2 (const_push_spec _) O), D, Zb_bZ. reflexivity.
Qed.
Lemma evaluate_push i d f c : pushes_data i d -> ~ flag f MINIMALDATA ->
  evaluate (ready (Script c [i]) [] f) = Ok (Next (uncounted (ready (Script c [i]) [] f) [d])).
Proof.
  intros P M. apply evaluate_next. destruct (pushes_data_wf i d P) as (W & N & B). exists (i_op i :: pyb_bytes d).
  unfold script_to_bytes. cbn [s_script ready s_ins ins_list_to_bytes]. rewrite B. cbn [bind app].
  split; [rewrite app_nil_r; reflexivity|]. split; [destruct P as (_ & O & L); unfold pyb_len in L; unfold blen; cbn [length]; lia|].
  split; [|split; [vm_compute; congruence|reflexivity]].
  cbn [run]. unfold flag, MINIMALDATA in M. apply not_true_is_false in M.
  rewrite (proj1 (push_step (ready (Script c [i]) [] f) i d ltac:(intros []) P) M). reflexivity.
Qed.
Lemma hashlock_eval z f o h i2 e fl x cls : hash_op z f -> plain z o -> pushes_data i2 h -> plain 135 e -> ~ flag fl MINIMALDATA ->
  exists st2 t, evaluate (ready (Script cls [o; i2; e]) [x] fl) = Ok (Next st2) /\ s_stack st2 = [t] /\
   (true_item t <-> f (pyb_bytes x) = pyb_bytes h).
Proof.
  intros H P0 P1 P2 M. set (st := ready (Script cls [o; i2; e]) [x] fl).
  assert (X : executing st) by (intros []).
  assert (S1 : step st o = Ok (Next (counted st [Str (f (pyb_bytes x))] []))).
  { apply (hash_step st o z f [] x X); auto. unfold room. cbn. lia. }
  set (st1 := counted st [Str (f (pyb_bytes x))] []) in *.
  assert (S2 : step st1 i2 = Ok (Next (uncounted st1 [Str (f (pyb_bytes x)); h]))).
  { unfold flag, MINIMALDATA in M. apply not_true_is_false in M.
    exact (proj1 (push_step st1 i2 h ltac:(intros []) P1) M). }
  set (st2 := uncounted st1 [Str (f (pyb_bytes x)); h]) in *.
  assert (B : exists b, script_to_bytes (Script cls [o; i2; e]) = Ok b /\ blen b <= 10000).
  { destruct (pushes_data_wf i2 h P1) as (_ & _ & B2). unfold script_to_bytes. cbn [s_ins ins_list_to_bytes].
    assert (B1 : ins_to_bytes o = Ok [Zb z]).
    { apply plain_inv in P0. destruct P0 as [-> _]. destruct H as [[-> _]|[[-> _]|[[-> _]|[-> _]]]]; reflexivity. }
    assert (B3 : ins_to_bytes e = Ok [x87]) by (apply plain_inv in P2; destruct P2 as [-> _]; reflexivity).
    rewrite B1, B2, B3. cbn [bind app]. eexists. split; [reflexivity|].
    destruct P1 as (_ & O & L). unfold pyb_len in L. unfold blen. cbn [length]. rewrite app_length. cbn [length]. lia. }
  destruct B as (b & B & LB).
  destruct (equal_step st2 e [] (Str (f (pyb_bytes x))) h P2 ltac:(intros []) ltac:(unfold room; cbn; lia) eq_refl) as [EQ NE].
  cbn [pyb_bytes] in EQ, NE.
  destruct (bytes_eqb (f (pyb_bytes x)) (pyb_bytes h)) eqn:D.
  - apply bytes_eqb_eq in D. exists (counted st2 [BA [x01]] []), (BA [x01]). split; [|split; [reflexivity|]].
    + apply evaluate_next. exists b. split; [exact B|]. split; [exact LB|]. split; [|split; [vm_compute; congruence|reflexivity]].
      change (s_ins (s_script st)) with [o; i2; e]. cbn [run]. rewrite S1. cbn [bind]. rewrite S2. cbn [bind]. rewrite (EQ D). reflexivity.
    + split; [intros _; exact D|intros _; apply one_byte_true; reflexivity].
  - assert (D' : f (pyb_bytes x) <> pyb_bytes h) by (rewrite <- bytes_eqb_eq; congruence).
    exists (counted st2 [BA []] []), (BA []). split; [|split; [reflexivity|]].
    + apply evaluate_next. exists b. split; [exact B|]. split; [exact LB|]. split; [|split; [vm_compute; congruence|reflexivity]].
      change (s_ins (s_script st)) with [o; i2; e]. cbn [run]. rewrite S1. cbn [bind]. rewrite S2. cbn [bind]. rewrite (NE D'). reflexivity.
    + split; [intros T; destruct (empty_false (BA []) eq_refl T)|intros T; contradiction].
Qed.
Lemma hashlock self z f o i1 x i2 h e fl c1 c2 : hash_op z f -> plain z o -> pushes_data i1 x -> pushes_data i2 h -> plain 135 e ->
  ~ flag fl MINIMALDATA -> ~ flag fl P2SH ->
  (f (pyb_bytes x) = pyb_bytes h -> verify self (Script c1 [i1]) (Script c2 [o; i2; e]) fl = Ok (true, IE_None)) /\
  (f (pyb_bytes x) <> pyb_bytes h -> verify self (Script c1 [i1]) (Script c2 [o; i2; e]) fl = Ok (false, IE_EvalFalseInStack)).
Proof.
  intros H P0 P1 P2 P3 M N. rewrite verify_unfold.
  assert (PO : is_push_only [i1] = true).
  { apply push_only_iff. constructor; [|constructor]. destruct P1 as (_ & O & _). lia. }
  cbn [s_ins]. rewrite PO, andb_false_r. rewrite (evaluate_push i1 x fl c1 P1 M). cbn [bind s_stack uncounted].
  destruct (hashlock_eval z f o h i2 e fl x c2 H P0 P2 P3 M) as (st2 & t & E & S & T). rewrite E. cbn [bind]. rewrite S.
  change (last_n 1 [t]) with [t]. cbv iota. rewrite <- cast_iff in T.
  unfold flag, P2SH in N. apply not_true_is_false in N. rewrite N.
  split; intros Q.
  - rewrite (proj2 T Q). reflexivity.
  - destruct (cast_to_bool t); [exfalso; apply Q, T; reflexivity|reflexivity].
Qed.

(** ** only six flag bits matter *)
Definition reflag (g : Z) (o : outcome) : outcome := match o with Next st => Next (set_flags st g) | Fail e => Fail e end.
Definition map_ok {A B} (f : A -> B) (r : res A) : res B := match r with Ok a => Ok (f a) | Err e => Err e end.
Lemma agree_flag f g k : agree f g -> In k used_flags -> has_flag f (2 ^ k) = has_flag g (2 ^ k).
Proof.
  intros A I. assert (0 <= k) by (cbn in I; lia). rewrite !has_flag_bit by lia. apply A. exact I.
Qed.
Ltac split_all := repeat match goal with
  | |- context[match ?x with _ => _ end] => match x with context[match _ with _ => _ end] => fail 1 | _ => destruct x end
  end; reflexivity.
Ltac same d := unfold d, need, go, bind, unpack_error; cbn [s_flags s_stack s_alt s_vf s_nop s_begin s_script set_flags set_nop]; split_all.
Lemma checkmultisig_reflag st m v g : has_flag (s_flags st) VERIFY_NULLDUMMY = has_flag g VERIFY_NULLDUMMY ->
  do_checkmultisig (set_flags st g) m v = map_ok (reflag g) (do_checkmultisig st m v).
Proof.
  intros A. unfold do_checkmultisig, need, go. cbn [s_flags s_stack s_alt s_vf s_nop s_begin s_script set_flags set_nop].
  rewrite <- A. unfold subscript. cbn [s_begin s_script set_flags set_nop].
  destruct (blen (s_stack st) <? 1); [reflexivity|]. destruct (last_n 1 (s_stack st)) as [|b [|? ?]]; try reflexivity.
  destruct (decode_script_number b m 4) as [n|]; [|reflexivity]. cbn [bind].
  destruct (negb _); [reflexivity|]. destruct (_ >? 201); [reflexivity|]. destruct (_ <? n + 2); [reflexivity|].
  destruct (nth_error _ _) as [z|]; [|reflexivity]. destruct (decode_script_number z m 4) as [k|]; [|reflexivity]. cbn [bind].
  destruct (negb _); [reflexivity|]. destruct (_ <? n + k + 3); [reflexivity|]. destruct (remove_all _ _); [|reflexivity]. cbn [bind].
  destruct (k >? 0); [reflexivity|]. destruct (last_n 1 _) as [|d [|? ?]]; try reflexivity. destruct (_ && _); reflexivity.
Qed.
Lemma dispatch_reflag st m fe o g : agree (s_flags st) g -> dispatch (set_flags st g) m fe o = map_ok (reflag g) (dispatch st m fe o).
Proof.
  intros A.
  pose proof (agree_flag _ _ 4 A ltac:(cbn; tauto)) as A4. pose proof (agree_flag _ _ 7 A ltac:(cbn; tauto)) as A7.
  pose proof (agree_flag _ _ 9 A ltac:(cbn; tauto)) as A9.
  change (2 ^ 4) with VERIFY_NULLDUMMY in A4. change (2 ^ 7) with VERIFY_DISCOURAGE_NOPS in A7. change (2 ^ 9) with VERIFY_CLTV in A9.
  unfold dispatch.
  repeat match goal with |- (if ?c then _ else _) = _ => destruct c end; try reflexivity.
  all: first [apply checkmultisig_reflag; exact A4
    | match goal with
      | |- do_cltv _ _ = _ => unfold do_cltv, need; cbn [s_flags s_stack set_flags]; rewrite <- A7, <- A9; unfold bind, unpack_error; split_all
      | |- do_nop_n _ = _ => unfold do_nop_n; cbn [s_flags s_stack set_flags]; rewrite <- A7; split_all
      | |- do_if _ _ _ = _ => same do_if | |- do_else _ = _ => same do_else | |- do_endif _ = _ => same do_endif
      | |- do_verify _ = _ => same do_verify | |- do_toalt _ = _ => same do_toalt | |- do_fromalt _ = _ => same do_fromalt
      | |- do_2drop _ = _ => same do_2drop | |- do_2dup _ = _ => same do_2dup | |- do_3dup _ = _ => same do_3dup
      | |- do_2over _ = _ => same do_2over | |- do_2rot _ = _ => same do_2rot | |- do_2swap _ = _ => same do_2swap
      | |- do_ifdup _ = _ => same do_ifdup | |- do_depth _ = _ => same do_depth | |- do_drop _ = _ => same do_drop
      | |- do_dup _ = _ => same do_dup | |- do_nip _ = _ => same do_nip | |- do_over _ = _ => same do_over
      | |- do_pick_roll _ _ _ = _ => same do_pick_roll | |- do_rot _ = _ => same do_rot | |- do_swap _ = _ => same do_swap
      | |- do_tuck _ = _ => same do_tuck | |- do_size _ = _ => same do_size | |- do_equal _ _ = _ => same do_equal
      | |- do_unary _ _ _ = _ => same do_unary | |- do_within _ = _ => same do_within
      | |- do_hash _ _ = _ => same do_hash
      | |- do_checksig _ = _ => unfold do_checksig, need, bind, unpack_error, subscript; cbn [s_stack s_begin s_script set_flags]; split_all
      end | idtac].
  - unfold do_binary, need, go, bind, unpack_error; cbn [s_stack set_flags].
    destruct (blen (s_stack st) <? 2); [reflexivity|]. destruct (last_n 2 (s_stack st)) as [|x [|y [|? ?]]]; try reflexivity.
    destruct (decode_script_number x m 4); [|reflexivity]. destruct (decode_script_number y m 4); [|reflexivity].
    destruct (op_eqb o OP_NUMEQUALVERIFY); [|reflexivity]. destruct (cast_to_bool _); reflexivity.
Qed.
Lemma step_reflag st i g : agree (s_flags st) g -> step (set_flags st g) i = map_ok (reflag g) (step st i).
Proof.
  intros A. unfold step. cbn [s_flags s_vf set_flags s_pc].
  pose proof (agree_flag _ _ 6 A ltac:(cbn; tauto)) as A6. change (2 ^ 6) with VERIFY_MINIMALDATA in A6. rewrite <- A6.
  set (c := negb (op_leb (i_op i) OP_16)). set (st1 := set_pc st (s_pc st + 1)).
  change (set_pc (set_flags st g) (s_pc st + 1)) with (set_flags st1 g).
  destruct (match data_bytes i with Some d => _ | None => _ end); [reflexivity|].
  assert (E : (if c then set_nop (set_flags st1 g) (s_nop (set_flags st1 g) + 1) else set_flags st1 g) = set_flags (if c then set_nop st1 (s_nop st1 + 1) else st1) g)
    by (destruct c; reflexivity).
  rewrite E. set (st2 := if c then set_nop st1 (s_nop st1 + 1) else st1). change (s_nop (set_flags st2 g)) with (s_nop st2).
  destruct (c && _); [reflexivity|]. destruct (op_in _ _); [reflexivity|].
  assert (F : s_flags st2 = s_flags st) by (unfold st2, st1; destruct c; reflexivity).
  destruct (_ && op_leb (i_op i) OP_PUSHDATA4).
  - unfold do_push. destruct (if has_flag _ _ then _ else _) as [b|e]; cbn [bind]; [|reflexivity]. destruct (negb b); reflexivity.
  - destruct (_ || _); [|reflexivity]. apply dispatch_reflag. rewrite F. exact A.
Qed.
Lemma run_reflag l st g : agree (s_flags st) g -> run l (set_flags st g) = map_ok (reflag g) (run l st).
Proof.
  revert st. induction l as [|i l IH]; intros st A; [reflexivity|]. cbn [run]. rewrite step_reflag by exact A.
  destruct (step st i) as [[st1|e]|e] eqn:S; cbn [bind map_ok reflag]; [|reflexivity..]. apply IH.
  rewrite (p_flags _ _ _ (step_inv _ _ _ S)). exact A.
Qed.
Lemma evaluate_reflag st g : agree (s_flags st) g -> evaluate (set_flags st g) = map_ok (reflag g) (evaluate st).
Proof.
  intros A. unfold evaluate. change (s_script (set_flags st g)) with (s_script st).
  destruct (script_to_bytes _); cbn [bind]; [|reflexivity]. destruct (_ >? 10000); [reflexivity|].
  rewrite run_reflag by exact A. destruct (run _ st) as [[st1|e]|e]; cbn [map_ok reflag]; [|reflexivity..].
  cbn [s_stack s_alt s_vf set_flags]. destruct (_ >? 1000); [reflexivity|]. destruct (_ >? 0); reflexivity.
Qed.
Lemma verify_flags self a b f g : agree f g -> verify self a b f = verify self a b g.
Proof.
  intros A. rewrite !verify_unfold. rewrite <- (A 5), <- (A 0) by (cbn; tauto). destruct (_ && _); [reflexivity|].
  change (ready a [] g) with (set_flags (ready a [] f) g). rewrite evaluate_reflag by exact A.
  destruct (evaluate (ready a [] f)) as [[st1|e]|e]; cbn [map_ok bind reflag]; [|reflexivity..].
  change (ready b (s_stack (set_flags st1 g)) g) with (set_flags (ready b (s_stack st1) f) g). rewrite evaluate_reflag by exact A.
  destruct (evaluate (ready b (s_stack st1) f)) as [[st2|e]|e]; cbn [map_ok bind reflag]; reflexivity.
Qed.

(** ** truth values against Bitcoin's rule *)
Lemma bitcoin_agree p : (true_item p <-> bitcoin_true (pyb_bytes p)) <-> ~ (exists r, pyb_bytes p = x00 :: r /\ bitcoin_true (pyb_bytes p)).
Proof.
  assert (S : true_item p -> bitcoin_true (pyb_bytes p)).
  { intros (c & r & E & N & Q). exists [], c, r. auto. }
  split.
  - intros H (r & E & B). apply H in B. destruct B as (c & r' & E' & N & _). rewrite E in E'. injection E' as <- _. apply N. reflexivity.
  - intros H. split; [exact S|]. intros B. destruct B as (a & c & r & E & N & Q). destruct a as [|c0 a].
    + exists c, r. auto.
    + destruct (Z.eq_dec (bZ c0) 0) as [Z|Z].
      * exfalso. apply H. apply (bZ_inj c0 x00) in Z. subst c0. exists (a ++ c :: r). split; [exact E|]. exists (x00 :: a), c, r. auto.
      * exists c0, (a ++ c :: r). split; [exact E|]. split; [exact Z|]. intros [_ Q']. destruct a; discriminate.
Qed.
