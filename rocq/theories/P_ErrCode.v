(** Proofs: which error is reported. *)
From Coq Require Import String.
From Coq Require Import ZArith List Lia Bool Strings.Byte.
From Verif Require Import Base M_Hash M_Codec S_Codec P_Codec P_ScriptNum M_Keys S_Keys P_Keys M_EC M_Script S_Script P_Script M_Interp S_Interp P_Interp S_ErrCode.
Import ListNotations.
Open Scope Z_scope.

Lemma address_err ph v ty e : new_address ph v ty = Err e <->
  ((forall n, find v (txt "name") <> Ok n) /\ e = E_Addr_UnknownNetwork) \/
  (exists n, find v (txt "name") = Ok n /\
    ((ty = TA_other /\ e = E_Addr_InvalidType) \/ (ty <> TA_other /\ List.length (pyb_bytes ph) <> 20%nat /\ e = E_Addr_InvalidHashLength))).
Proof.
  unfold new_address. destruct (find v (txt "name")) as [n|e'] eqn:F; cbn [recatch bind].
  - unfold pyb_len. destruct ty as [t|].
    + destruct (Z.of_nat (List.length (pyb_bytes ph)) =? 20) eqn:L; cbn [negb]; split.
      * discriminate.
      * intros [[N _]|(m & _ & [[X _]|(_ & X & _)])]; [destruct (N n eq_refl)|discriminate|lia].
      * intros X. injection X as <-. right. exists n. split; [reflexivity|]. right. repeat split; [discriminate|lia].
      * intros [[N _]|(m & _ & [[X _]|(_ & _ & ->)])]; [destruct (N n eq_refl)|discriminate|reflexivity].
    + split.
      * intros X. injection X as <-. right. exists n. auto.
      * intros [[N _]|(m & _ & [[_ ->]|(X & _)])]; [destruct (N n eq_refl)|reflexivity|congruence].
  - apply find_err in F. subst e'. cbn. split.
    + intros X. injection X as <-. left. split; [discriminate|reflexivity].
    + intros [[_ ->]|(n & X & _)]; [reflexivity|discriminate].
Qed.
Lemma decode_hex_fails s e : decode_hex s = Err e <-> (forall b, ~ hex_text s b) /\ e = E_InvalidHex.
Proof.
  split.
  - intros H. split.
    + intros b T. apply decode_hex_iff in T. congruence.
    + unfold decode_hex in H. destruct (unhex_loop s); congruence.
  - intros [N ->]. destruct (decode_hex s) as [b|e] eqn:E; [destruct (N b); apply decode_hex_iff; exact E|].
    unfold decode_hex in E. destruct (unhex_loop s); congruence.
Qed.
Lemma address_hex_err s e : addr_from_hex s = Err e <->
  ((forall b, ~ hex_text s b) /\ e = E_Addr_InvalidHex) \/ (exists b, hex_text s b /\ addr_from_bytes (Str b) = Err e).
Proof.
  unfold addr_from_hex. destruct (decode_hex s) as [b|e'] eqn:D; cbn [recatch bind].
  - apply decode_hex_iff in D. split; [intros H; right; eauto|]. intros [[N _]|(b' & T & H)]; [destruct (N b D)|].
    apply decode_hex_iff in D, T. congruence.
  - pose proof D as D'. apply decode_hex_fails in D. destruct D as [N ->]. cbn. split.
    + intros H. injection H as <-. left. auto.
    + intros [[_ ->]|(b & T & _)]; [reflexivity|destruct (N b T)].
Qed.

Lemma time_iff m p n : decode_script_number p m 5 = Ok n <-> time_operand m p n.
Proof.
  unfold time_operand. split.
  - intros H. destruct (Z_le_dec 5 (pyb_len p)) as [L|L]; [rewrite decode_script_number_long in H by lia; discriminate|].
    unfold pyb_len in L. destruct p as [l|l]; cbn [pyb_bytes] in L; fold (blen l) in L.
    + right. destruct l as [|c l]; [injection H as <-; auto|]. rewrite decode_script_number_str in H by (congruence || lia). discriminate.
    + left. exists l. destruct m.
      * destruct (decode_script_number_minimal l 5) as [D1 D2]; [lia|].
        destruct (sm_shortest_dec l) as [SH|SH]; [rewrite (D1 SH) in H; injection H as <-; repeat split; auto; lia|].
        rewrite (D2 SH) in H; discriminate.
      * rewrite decode_script_number_plain in H by lia. injection H as <-. repeat split; [lia|discriminate].
  - intros [[l [-> [L [V M]]]]|[-> ->]]; [|reflexivity]. destruct m.
    + destruct (decode_script_number_minimal l 5) as [D1 _]; [lia|]. rewrite (D1 (M eq_refl)), V. reflexivity.
    + rewrite decode_script_number_plain by lia. rewrite V. reflexivity.
Qed.
Lemma cltv_step st i s x n : executing st -> room st -> plain 177 i -> ~ (flag (s_flags st) LOCKTIME /\ flag (s_flags st) DISCOURAGE) ->
  s_stack st = s ++ [x] -> time_operand (minimal_of st) x n ->
  step st i = Ok (Fail (if n <? 0 then IE_NegativeLockTime else IE_UnsatisfiedLockTime)).
Proof.
  intros X R P F S O. op_step P X R. unfold do_cltv. cbn [s_flags s_stack counted].
  change VERIFY_CLTV with (2 ^ 9). change VERIFY_DISCOURAGE_NOPS with (2 ^ 7). rewrite !has_flag_bit by lia.
  unfold flag, LOCKTIME, DISCOURAGE in F.
  replace (Z.testbit (s_flags st) 9 && Z.testbit (s_flags st) 7) with false
    by (destruct (Z.testbit (s_flags st) 9), (Z.testbit (s_flags st) 7); try reflexivity; destruct F; auto).
  unfold need. cbn [s_stack counted]. rewrite S. replace (blen (s ++ [x]) <? 1) with false by (rewrite blen_app; unfold blen; cbn [List.length]; lia).
  rewrite last_n_app by reflexivity. apply time_iff in O. rewrite O. cbn [bind]. destruct (n <? 0); reflexivity.
Qed.
Lemma cltv_discouraged st i : executing st -> room st -> plain 177 i -> flag (s_flags st) LOCKTIME -> flag (s_flags st) DISCOURAGE ->
  step st i = Ok (Fail IE_DiscourageNops).
Proof.
  intros X R P F1 F2. op_step P X R. unfold do_cltv. cbn [s_flags s_stack counted].
  change VERIFY_CLTV with (2 ^ 9). change VERIFY_DISCOURAGE_NOPS with (2 ^ 7). rewrite !has_flag_bit by lia.
  unfold flag, LOCKTIME, DISCOURAGE in F1, F2. rewrite F1, F2. reflexivity.
Qed.

Lemma multisig_dispatch st i z : executing st -> room st -> plain z i -> z = 174 \/ z = 175 ->
  step st i = do_checkmultisig (counted st (s_stack st) (s_alt st)) (minimal_of st) (z =? 175).
Proof. intros X R P [-> | ->]; op_step P X R; reflexivity. Qed.
Lemma snoc_need {A} (s : list A) x : (blen (s ++ [x]) <? 1) = false.
Proof. rewrite blen_app. unfold blen. cbn [List.length]. lia. Qed.
Lemma multisig_keys st i z s k n : executing st -> room st -> plain z i -> z = 174 \/ z = 175 -> s_stack st = s ++ [k] ->
  operand (minimal_of st) k n -> ~ 0 <= n <= 20 -> step st i = Ok (Fail IE_PubkeyCount).
Proof.
  intros X R P Z S O N. rewrite (multisig_dispatch st i z X R P Z). apply operand_iff in O.
  unfold do_checkmultisig, need. cbn [s_stack counted]. rewrite S, snoc_need, last_n_app, O by reflexivity. cbn [bind].
  replace (negb ((0 <=? n) && (n <=? 20))) with true by lia. reflexivity.
Qed.
Lemma multisig_ops st i z s k n : executing st -> room st -> plain z i -> z = 174 \/ z = 175 -> s_stack st = s ++ [k] ->
  operand (minimal_of st) k n -> 0 <= n <= 20 -> 201 < s_nop st + 1 + n -> step st i = Ok (Fail IE_OpCount).
Proof.
  intros X R P Z S O N M. rewrite (multisig_dispatch st i z X R P Z). apply operand_iff in O.
  unfold do_checkmultisig, need. cbn [s_stack counted]. rewrite S, snoc_need, last_n_app, O by reflexivity. cbn [bind].
  replace (negb ((0 <=? n) && (n <=? 20))) with false by lia. cbn [s_nop set_nop counted].
  replace (s_nop st + 1 + n >? 201) with true by lia. reflexivity.
Qed.
(** What CHECKMULTISIG does after the keys are counted. *)
Lemma multisig_after st i z s k g keys : executing st -> room st -> plain z i -> z = 174 \/ z = 175 ->
  s_stack st = s ++ [g] ++ keys ++ [k] -> operand (minimal_of st) k (blen keys) -> blen keys <= 20 -> s_nop st + 1 + blen keys <= 201 ->
  forall v, operand (minimal_of st) g v -> ~ 0 <= v <= blen keys -> step st i = Ok (Fail IE_SigCount).
Proof.
  intros X R P Z S O N M v V W. rewrite (multisig_dispatch st i z X R P Z). apply operand_iff in O, V.
  assert (0 <= blen keys) by (unfold blen; lia). assert (0 <= blen s) by (unfold blen; lia).
  assert (LS : blen (s_stack st) = blen s + blen keys + 2) by (rewrite S, !blen_app; unfold blen; cbn [List.length]; lia).
  assert (K : last_n 1 (s_stack st) = [k]) by (rewrite S, !app_assoc; apply last_n_app; reflexivity).
  assert (NZ : nth_error (s_stack st) (List.length (s_stack st) - Z.to_nat (blen keys) - 2) = Some g).
  { unfold blen in *. replace (List.length (s_stack st) - Z.to_nat (Z.of_nat (List.length keys)) - 2)%nat with (List.length s) by lia.
    rewrite S, nth_error_app2 by lia. rewrite Nat.sub_diag. reflexivity. }
  unfold do_checkmultisig, need. cbn [s_stack s_nop set_nop counted]. replace (blen (s_stack st) <? 1) with false by lia.
  rewrite K, O. cbn [bind s_stack s_nop set_nop counted]. replace (negb ((0 <=? blen keys) && (blen keys <=? 20))) with false by lia.
  replace (s_nop st + 1 + blen keys >? 201) with false by lia. replace (blen (s_stack st) <? blen keys + 2) with false by lia.
  rewrite NZ, V. cbn [bind]. replace (negb ((0 <=? v) && (v <=? blen keys))) with true by lia. reflexivity.
Qed.
Lemma multisig_dummy st i z s dummy g keys k : executing st -> room st -> plain z i -> z = 174 \/ z = 175 ->
  s_stack st = s ++ [dummy; g] ++ keys ++ [k] -> operand (minimal_of st) k (blen keys) -> blen keys <= 20 -> s_nop st + 1 + blen keys <= 201 ->
  operand (minimal_of st) g 0 -> flag (s_flags st) NULLDUMMY -> pyb_len dummy <> 0 -> step st i = Ok (Fail IE_NullDummy).
Proof.
  intros X R P Z S O N M V F D. rewrite (multisig_dispatch st i z X R P Z). apply operand_iff in O, V.
  assert (0 <= blen keys) by (unfold blen; lia). assert (0 <= blen s) by (unfold blen; lia).
  assert (LS : blen (s_stack st) = blen s + blen keys + 3) by (rewrite S, !blen_app; unfold blen; cbn [List.length]; lia).
  assert (K : last_n 1 (s_stack st) = [k]) by (rewrite S, !app_assoc; apply last_n_app; reflexivity).
  assert (NZ : nth_error (s_stack st) (List.length (s_stack st) - Z.to_nat (blen keys) - 2) = Some g).
  { unfold blen in *. replace (List.length (s_stack st) - Z.to_nat (Z.of_nat (List.length keys)) - 2)%nat with (List.length s + 1)%nat by lia.
    rewrite S, nth_error_app2 by lia. replace (List.length s + 1 - List.length s)%nat with 1%nat by lia. reflexivity. }
  assert (D1 : drop_last (Z.to_nat (0 + blen keys + 2)) (s_stack st) = s ++ [dummy]).
  { rewrite S. change ([dummy; g] ++ keys ++ [k]) with ([dummy] ++ [g] ++ keys ++ [k]). rewrite (app_assoc s).
    apply drop_last_app. rewrite !app_length. cbn [List.length]. unfold blen. lia. }
  unfold do_checkmultisig, need. cbn [s_stack s_nop set_nop counted]. replace (blen (s_stack st) <? 1) with false by lia.
  rewrite K, O. cbn [bind s_stack s_nop s_flags set_nop counted]. replace (negb ((0 <=? blen keys) && (blen keys <=? 20))) with false by lia.
  replace (s_nop st + 1 + blen keys >? 201) with false by lia. replace (blen (s_stack st) <? blen keys + 2) with false by lia.
  rewrite NZ, V. cbn [bind]. replace (negb ((0 <=? 0) && (0 <=? blen keys))) with false by lia.
  replace (blen (s_stack st) <? blen keys + 0 + 3) with false by lia.
  assert (L0 : forall l : list pyb, last_n (Z.to_nat 0) l = []) by (intros l; unfold last_n; change (Z.to_nat 0) with 0%nat; rewrite Nat.sub_0_r; apply skipn_all).
  rewrite L0. cbn [rev remove_all bind]. change (0 >? 0) with false. cbv iota. rewrite D1, last_n_app by reflexivity.
  change VERIFY_NULLDUMMY with (2 ^ 4). rewrite has_flag_bit by lia. unfold flag, NULLDUMMY in F. rewrite F.
  replace (pyb_len dummy =? 0) with false by lia. reflexivity.
Qed.

Lemma push_dispatch st i d : executing st -> pushes_data i d -> minimal_of st = true ->
  step st i = let! m := is_minimal_push i in if negb m then Ok (Fail IE_MinimalData) else go (set_pc st (s_pc st + 1)) (s_stack st ++ [d]).
Proof.
  intros X (D & O & L) M. apply executing_iff in X.
  assert (DB : data_bytes i = Some d).
  { unfold data_bytes. rewrite D. replace (pyb_len d =? 0) with false by lia. reflexivity. }
  unfold step. rewrite minimal_flag, X, DB, M. cbn [negb andb orb]. unfold MAX_SCRIPT_ELEMENT_SIZE. replace (pyb_len d >? 520) with false by lia.
  replace (op_leb (i_op i) OP_16) with true by (unfold op_leb; change (bZ OP_16) with 96; lia). cbn [negb andb].
  assert (ND : ~ disabled (bZ (i_op i))) by (unfold disabled; lia). rewrite <- disabled_spec in ND. apply not_true_is_false in ND. rewrite ND.
  replace (op_leb (i_op i) OP_PUSHDATA4) with true by (unfold op_leb; change (bZ OP_PUSHDATA4) with 78; lia).
  unfold do_push. rewrite DB. reflexivity.
Qed.
Lemma push_refused st i d : executing st -> pushes_data i d -> flag (s_flags st) MINIMALDATA ->
  ((exists b, d = Str b /\ has_own_opcode b) /\ step st i = Ok (Fail IE_MinimalData)) \/
  (~ (exists b, d = Str b /\ has_own_opcode b) /\ step st i = Err E_AttributeError).
Proof.
  intros X P F. assert (M : minimal_of st = true) by exact F. rewrite (push_dispatch st i d X P M). destruct P as (D & O & L).
  unfold is_minimal_push. rewrite D. replace (pyb_len d =? 0) with false by lia.
  destruct ((pyb_len d =? 1) && ((1 <=? first_int d) && (first_int d <=? 16))) eqn:A; [|destruct ((pyb_len d =? 1) && (first_int d =? 129)) eqn:B].
  - left. split.
    + destruct d as [b|b]; cbn [first_int] in A; [|lia]. exists b. split; [reflexivity|]. unfold pyb_len in A. cbn [pyb_bytes] in A.
      destruct b as [|c [|? ?]]; cbn [List.length] in A; [lia| |lia]. exists c. split; [reflexivity|lia].
    + replace (bZ (i_op i) =? _) with false; [reflexivity|]. change (bZ OP_1) with 81. lia.
  - left. split.
    + destruct d as [b|b]; cbn [first_int] in B; [|lia]. exists b. split; [reflexivity|]. unfold pyb_len in B. cbn [pyb_bytes] in B.
      destruct b as [|c [|? ?]]; cbn [List.length] in B; [lia| |lia]. exists c. split; [reflexivity|lia].
    + replace (op_eqb (i_op i) OP_1NEGATE) with false; [reflexivity|]. unfold op_eqb. change (bZ OP_1NEGATE) with 79. lia.
  - right. split.
    + intros (b & -> & c & -> & V). cbn [first_int] in A, B. change (pyb_len (Str [c])) with 1 in *. lia.
    + replace (pyb_len d <=? 75) with true by lia. reflexivity.
Qed.

Ltac no_code H := repeat match type of H with
  | (if ?c then _ else _) = _ => destruct c
  | bind (if ?c then _ else _) _ = _ => destruct c
  | bind (Ok _) _ = _ => cbn [bind] in H
  | bind (Err _) _ = _ => discriminate H
  | bind ?m _ = _ => destruct m; cbn [bind] in H; [|discriminate H]
  | match ?x with _ => _ end = _ => destruct x
  | Err _ = _ => discriminate H
  | Ok _ = _ => discriminate H
  end.
Lemma step_no_size st i : step st i <> Ok (Fail IE_StackSize).
Proof.
  intros H. unfold step in H. cbv zeta in H.
  repeat match type of H with (if ?c then Ok _ else _) = _ => destruct c; [discriminate H|] end.
  destruct (_ && op_leb (i_op i) OP_PUSHDATA4) in H; [unfold do_push, go in H; no_code H|].
  destruct (_ || _) in H; [|discriminate H]. unfold dispatch in H.
  repeat match type of H with (if ?c then _ else _) = _ => destruct c end; try discriminate H.
  all: unfold do_cltv, do_nop_n, do_if, do_else, do_endif, do_verify, do_toalt, do_fromalt, do_2drop, do_2dup, do_3dup, do_2over, do_2rot, do_2swap,
    do_ifdup, do_depth, do_drop, do_dup, do_nip, do_over, do_pick_roll, do_rot, do_swap, do_tuck, do_size, do_equal, do_unary, do_binary, do_within,
    do_hash, do_checksig, do_checkmultisig, need, go, unpack_error in H; cbv zeta in H; no_code H.
Qed.
Lemma run_no_size l st : run l st <> Ok (Fail IE_StackSize).
Proof.
  revert st. induction l as [|i l IH]; intros st H; [discriminate H|]. cbn [run] in H.
  destruct (step st i) as [[st'|e]|e] eqn:E; cbn [bind] in H; [exact (IH _ H)| |discriminate H].
  injection H as ->. exact (step_no_size _ _ E).
Qed.
Lemma evaluate_size st : evaluate st = Ok (Fail IE_StackSize) <->
  exists b st', script_to_bytes (s_script st) = Ok b /\ blen b <= 10000 /\ run (s_ins (s_script st)) st = Ok (Next st') /\ 1000 < blen (s_stack st') + blen (s_alt st').
Proof.
  unfold evaluate. split.
  - intros H. destruct (script_to_bytes (s_script st)) as [b|] eqn:B; cbn [bind] in H; [|discriminate H].
    destruct (blen b >? 10000) eqn:L; [discriminate H|]. destruct (run (s_ins (s_script st)) st) as [[st'|e]|e] eqn:R; [| |discriminate H].
    + destruct (_ >? 1000) eqn:Z in H; [exists b, st'; repeat split; auto; lia|]. destruct (_ >? 0) in H; discriminate H.
    + injection H as ->. destruct (run_no_size _ _ R).
  - intros (b & st' & -> & L & -> & Z). cbn [bind]. replace (blen b >? 10000) with false by lia.
    replace (_ >? 1000) with true by lia. reflexivity.
Qed.
