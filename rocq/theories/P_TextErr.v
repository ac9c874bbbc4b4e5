(** Texts that Script.from_string refuses (proofs). *)
From Coq Require Import String.
From Coq Require Import ZArith List Lia Bool Strings.Byte.
From Verif Require Import Base M_Codec S_Codec P_Codec M_Keys M_Script S_Script P_Script S_TextErr.
Import ListNotations.
Open Scope Z_scope.

Lemma op_number n : 1 <= n <= 75 -> exists o, bZ o = n.
Proof. intros N. exists (Zb n). apply bZ_Zb. lia. Qed.
Lemma get_opcode_name t : (forall o, ~ names_op t o) -> get_opcode t = if isdigit t then const_push_for (int_of t) else Err E_Scr_UnknownOpcodeName.
Proof.
  intros N. unfold get_opcode. destruct (op_from_name t) as [o|e] eqn:E; [apply from_name_iff in E; destruct (N _ E)|]. rewrite (from_name_err _ _ E). reflexivity.
Qed.
Lemma decimal_nameless t n : decimal t n -> forall o, ~ names_op t o.
Proof. intros D o N. apply decimal_not_name in D. rewrite (named_OP _ _ N) in D. discriminate. Qed.
Lemma not_decimal t : (forall n, ~ decimal t n) <-> isdigit t = false.
Proof.
  split; [intros N; destruct (isdigit t) eqn:E; [destruct (N _ (isdigit_decimal _ E))|reflexivity]|]. intros I n D. apply decimal_int in D. destruct D; congruence.
Qed.
Lemma not_hex h : (forall d, ~ hex_text h d) <-> decode_hex h = Err E_InvalidHex.
Proof.
  split; [|intros E d D; apply decode_hex_iff in D; congruence]. intros N. destruct (decode_hex h) as [d|e] eqn:E; [apply decode_hex_iff in E; destruct (N _ E)|]. rewrite (decode_hex_err _ _ E). reflexivity.
Qed.
Lemma not_0x a : (forall h, a <> txt "0x" ++ h) <-> starts_with (txt "0x") a = false.
Proof.
  split; [|intros E h ->; rewrite (proj2 (starts_0x _)) in E by eauto; discriminate]. intros N. destruct (starts_with (txt "0x") a) eqn:E; [apply starts_0x in E; destruct E as (h & ->); destruct (N h eq_refl)|reflexivity].
Qed.
Lemma const_kind o : 1 <= bZ o <= 75 -> is_const_push o = true.
Proof. apply const_push_spec. Qed.
Lemma var_kind o : pushdata o -> is_const_push o = false /\ is_var_push o = true.
Proof. unfold pushdata. intros P. split; [unfold is_const_push; lia|rewrite var_push_eq; lia]. Qed.
Lemma short_instr o d : pushes o -> ~ push_length o (blen d) -> new_instr o (Some (Str d)) = Err E_Ins_InvalidDataLength.
Proof.
  intros P L. destruct (new_instr o (Some (Str d))) as [i|e] eqn:E.
  - apply new_instr_ok in E. destruct E as (-> & W). destruct (L W).
  - apply new_instr_err in E. destruct E as [(_ & A & _)|[(_ & _ & ->)|(A & _)]]; [discriminate|reflexivity|contradiction].
Qed.
(** ** the first instruction *)
Lemma bad_loop b e : bad_tokens b e -> text_loop b = Err e.
Proof.
  assert (H0x : forall h, starts_with (txt "0x") (txt "0x" ++ h) = true) by (intros; apply starts_0x; eauto).
  destruct 1 as [t r N D|t n r D R|t n D R|t n a r e D R B|t n h d r D R X L|t o r N P L|t o s a r N P D|t o s n a r e N P D B|t o s n h d r N P D X L|t o s h d r N P D X L].
  - cbn [text_loop]. rewrite (get_opcode_name t N), (proj1 (not_decimal t) D). reflexivity.
  - cbn [text_loop]. rewrite (get_opcode_name t (decimal_nameless _ _ D)). destruct (decimal_int _ _ D) as (I & V & _). rewrite I, V. unfold const_push_for. replace ((1 <=? n) && (n <=? 75)) with false by lia. reflexivity.
  - destruct (op_number n R) as (o & <-). cbn [text_loop]. rewrite (proj2 (get_opcode_ok t o)) by auto. cbn [bind]. rewrite (const_kind o R). reflexivity.
  - destruct (op_number n R) as (o & <-). cbn [text_loop]. rewrite (proj2 (get_opcode_ok t o)) by auto. cbn [bind]. rewrite (const_kind o R). destruct B as [a N|h N].
    + rewrite (proj1 (not_0x a) N). reflexivity.
    + rewrite H0x, skip_0x, (proj1 (not_hex h) N). reflexivity.
  - destruct (op_number n R) as (o & <-). cbn [text_loop]. rewrite (proj2 (get_opcode_ok t o)) by auto. cbn [bind]. rewrite (const_kind o R), H0x, skip_0x, (proj2 (decode_hex_iff h d) X). cbn [bind negb].
    rewrite short_instr; [reflexivity|unfold pushes; lia|unfold push_length; lia].
  - destruct (var_kind o P) as (K1 & K2). cbn [text_loop]. rewrite (proj2 (get_opcode_ok t o)) by auto. cbn [bind]. rewrite K1, K2. destruct r as [|x [|y r]]; try reflexivity. cbn [List.length] in L. lia.
  - destruct (var_kind o P) as (K1 & K2). cbn [text_loop]. rewrite (proj2 (get_opcode_ok t o)) by auto. cbn [bind]. rewrite K1, K2, (proj1 (not_decimal s) D). reflexivity.
  - destruct (var_kind o P) as (K1 & K2). cbn [text_loop]. rewrite (proj2 (get_opcode_ok t o)) by auto. cbn [bind]. destruct (decimal_int _ _ D) as (I & V & _). rewrite K1, K2, I. cbn [negb]. destruct B as [a B|h B].
    + rewrite (proj1 (not_0x a) B). reflexivity.
    + rewrite H0x, skip_0x, (proj1 (not_hex h) B). reflexivity.
  - destruct (var_kind o P) as (K1 & K2). cbn [text_loop]. rewrite (proj2 (get_opcode_ok t o)) by auto. cbn [bind]. destruct (decimal_int _ _ D) as (I & V & _). rewrite K1, K2, I, H0x, skip_0x, (proj2 (decode_hex_iff h d) X). cbn [bind negb].
    rewrite V. replace (n =? blen d) with false by lia. reflexivity.
  - destruct (var_kind o P) as (K1 & K2). cbn [text_loop]. rewrite (proj2 (get_opcode_ok t o)) by auto. cbn [bind]. destruct (decimal_int _ _ D) as (I & V & _). rewrite K1, K2, I, H0x, skip_0x, (proj2 (decode_hex_iff h d) X). cbn [bind negb].
    rewrite V, Z.eqb_refl. cbn [negb]. rewrite short_instr; [reflexivity|unfold pushes, pushdata in *; lia|exact L].
Qed.
Lemma loop_prefix a l b : tokens_of a l -> text_loop (a ++ b) = let! r := text_loop b in Ok (map str_instr l ++ r).
Proof.
  induction 1 as [|name o r l N P H IH|t o h d r l D R X L H IH|name o t h d r l N P D X L H IH]; cbn [text_loop map app].
  - destruct (text_loop b); reflexivity.
  - rewrite (proj2 (get_opcode_ok name o)) by auto. cbn [bind]. assert (C : is_const_push o = false) by (unfold is_const_push, pushes in *; lia). assert (C' : is_var_push o = false) by (rewrite var_push_eq; unfold pushes in *; lia). rewrite C, C'.
    rewrite (proj2 (new_instr_ok o None (Instr o None))) by (split; [reflexivity | exact P]). cbn [bind]. rewrite IH. destruct (text_loop b); reflexivity.
  - rewrite (proj2 (get_opcode_ok t o)) by auto. cbn [bind]. rewrite (const_kind o R). rewrite (proj2 (starts_0x (txt "0x" ++ h))) by eauto. cbn [negb]. rewrite skip_0x. rewrite (proj2 (decode_hex_iff h d) X). cbn [bind].
    rewrite (proj2 (new_instr_ok o (Some (Str d)) (Instr o (Some (Str d))))); [cbn [bind]; rewrite IH; destruct (text_loop b); reflexivity|]. split; [reflexivity|]. left. split; [exact R|exact L].
  - rewrite (proj2 (get_opcode_ok name o)) by auto. cbn [bind]. destruct (var_kind o P) as (K1 & K2). rewrite K1, K2. destruct (decimal_int _ _ D) as (D1 & D2 & _). rewrite D1. cbn [negb].
    rewrite (proj2 (starts_0x (txt "0x" ++ h))) by eauto. cbn [negb]. rewrite skip_0x. rewrite (proj2 (decode_hex_iff h d) X). cbn [bind]. rewrite D2, Z.eqb_refl. cbn [negb].
    rewrite (proj2 (new_instr_ok o (Some (Str d)) (Instr o (Some (Str d))))); [cbn [bind]; rewrite IH; destruct (text_loop b); reflexivity|]. split; [reflexivity|exact L].
Qed.
Lemma bad_here b e : bad_tokens b e -> bad_text b e.
Proof. intros B. exists [], b, []. split; [reflexivity|]. split; [constructor|exact B]. Qed.
Lemma bad_later a l b e : tokens_of a l -> (forall c r, tokens_of c r -> exists r', tokens_of (a ++ c) r') -> bad_text b e -> bad_text (a ++ b) e.
Proof. intros T K (c & d & r & -> & C & B). destruct (K c r C) as (r' & C'). exists (a ++ c), d, r'. rewrite app_assoc. auto. Qed.
Lemma loop_bad n : forall ts e, (List.length ts <= n)%nat -> text_loop ts = Err e -> bad_text ts e.
Proof.
  induction n as [|n IH]; intros [|t ts] e L H; cbn [List.length] in L; try lia; try discriminate. cbn [text_loop] in H. destruct (get_opcode t) as [o|e'] eqn:G.
  2: { cbn [bind] in H. injection H as <-. apply bad_here. assert (N : forall o, ~ names_op t o) by (intros o N; rewrite (proj2 (get_opcode_ok t o)) in G by auto; discriminate). rewrite (get_opcode_name t N) in G. destruct (isdigit t) eqn:D.
    - apply isdigit_decimal in D. unfold const_push_for in G. destruct ((1 <=? int_of t) && (int_of t <=? 75)) eqn:R; cbn [negb] in G.
      + exfalso. destruct (op_number (int_of t) ltac:(lia)) as (o & O). rewrite <- O in G. rewrite (proj2 (new_opcode_ok (bZ o) o)) in G; [discriminate|]. split; [lia|reflexivity].
      + injection G as <-. apply (bt_number t (int_of t)); [exact D|lia].
    - injection G as <-. apply bt_name; [exact N|apply not_decimal, D]. }
  apply get_opcode_ok in G. cbn [bind] in H. destruct (is_const_push o) eqn:C; [|destruct (is_var_push o) eqn:V].
  - apply const_push_spec in C. destruct G as [G|(G & _)]; [destruct (names_not_const _ _ G C)|]. destruct ts as [|a ts]; [injection H as <-; apply bad_here; exact (bt_const_end t (bZ o) G C)|]. cbn [List.length] in L.
    destruct (starts_with (txt "0x") a) eqn:S; cbn [negb] in H; [|injection H as <-; apply bad_here; apply (bt_const_hex t (bZ o)); try assumption; apply bh_prefix, not_0x, S]. apply starts_0x in S. destruct S as (h & ->). rewrite skip_0x in H.
    destruct (decode_hex h) as [d|e'] eqn:X; cbn [bind] in H.
    2: { injection H as <-. assert (e' = E_InvalidHex) by exact (decode_hex_err _ _ X). subst e'. apply bad_here. apply (bt_const_hex t (bZ o)); try assumption. apply bh_digits, not_hex, X. }
    apply decode_hex_iff in X. destruct (Z.eq_dec (blen d) (bZ o)) as [Q|Q].
    + rewrite (proj2 (new_instr_ok o (Some (Str d)) (Instr o (Some (Str d))))) in H by (split; [reflexivity|left; split; [exact C|exact Q]]). cbn [bind] in H. destruct (text_loop ts) as [l|e'] eqn:T; [discriminate|]. cbn [bind] in H. injection H as <-. apply IH in T; [|lia].
      apply (bad_later [t; txt "0x" ++ h] [(o, Some d)] ts e'); [constructor; try assumption; constructor| |exact T]. intros c r K. exists ((o, Some d) :: r). cbn [app]. constructor; assumption.
    + rewrite short_instr in H; [|unfold pushes; lia|unfold push_length; lia]. injection H as <-. apply bad_here. apply (bt_const_length t (bZ o) h d); assumption.
  - assert (P : pushdata o) by (rewrite var_push_eq in V; unfold pushdata; lia). destruct G as [G|(_ & G)]; [|unfold pushdata in P; lia].
    destruct ts as [|s [|a ts]]; try (injection H as <-; apply bad_here; apply (bt_var_end t o); try assumption; cbn [List.length]; lia). cbn [List.length] in L.
    destruct (isdigit s) eqn:D; cbn [negb] in H; [|injection H as <-; apply bad_here; apply (bt_var_size t o); try assumption; apply not_decimal, D]. apply isdigit_decimal in D.
    destruct (starts_with (txt "0x") a) eqn:S; cbn [negb] in H; [|injection H as <-; apply bad_here; apply (bt_var_hex t o s (int_of s)); try assumption; apply bh_prefix, not_0x, S]. apply starts_0x in S. destruct S as (h & ->). rewrite skip_0x in H.
    destruct (decode_hex h) as [d|e'] eqn:X; cbn [bind] in H.
    2: { injection H as <-. assert (e' = E_InvalidHex) by exact (decode_hex_err _ _ X). subst e'. apply bad_here. apply (bt_var_hex t o s (int_of s)); try assumption. apply bh_digits, not_hex, X. }
    apply decode_hex_iff in X. destruct (int_of s =? blen d) eqn:Q; cbn [negb] in H; [|injection H as <-; apply bad_here; apply (bt_var_other t o s (int_of s) h d); try assumption; lia]. apply Z.eqb_eq in Q. rewrite Q in D.
    destruct (new_instr o (Some (Str d))) as [i|e'] eqn:I.
    + cbn [bind] in H. apply new_instr_ok in I. destruct I as (-> & W). destruct (text_loop ts) as [l|e'] eqn:T; [discriminate|]. cbn [bind] in H. injection H as <-. apply IH in T; [|lia].
      apply (bad_later [t; s; txt "0x" ++ h] [(o, Some d)] ts e'); [apply tk_var; try assumption; constructor| |exact T]. intros c r K. exists ((o, Some d) :: r). cbn [app]. apply tk_var; assumption.
    + assert (NL : ~ push_length o (blen d)) by (intros W; rewrite (proj2 (new_instr_ok o (Some (Str d)) (Instr o (Some (Str d))))) in I by (split; [reflexivity|exact W]); discriminate).
      rewrite short_instr in I; [|unfold pushes, pushdata in *; lia|exact NL]. cbn [bind] in H. injection I as <-. injection H as <-. apply bad_here. apply (bt_var_length t o s h d); assumption.
  - assert (P : ~ pushes o) by (rewrite var_push_eq in V; unfold is_const_push in C; unfold pushes; lia). destruct G as [G|(_ & G)]; [|unfold pushes in P; lia].
    rewrite (proj2 (new_instr_ok o None (Instr o None))) in H by (split; [reflexivity|exact P]). cbn [bind] in H. destruct (text_loop ts) as [l|e'] eqn:T; [discriminate|]. cbn [bind] in H. injection H as <-. apply IH in T; [|lia].
    apply (bad_later [t] [(o, None)] ts e'); [constructor; try assumption; constructor| |exact T]. intros c r K. exists ((o, None) :: r). cbn [app]. constructor; assumption.
Qed.
Lemma loop_err ts e : text_loop ts = Err e <-> bad_text ts e.
Proof.
  split; [apply (loop_bad (List.length ts)); lia|]. intros (a & b & l & -> & T & B). rewrite (loop_prefix a l b T), (bad_loop b e B). reflexivity.
Qed.
Lemma from_string_err t e : script_from_string t = Err e <->
  exists ts, ts <> [] /\ Forall no_space ts /\ t = joined ts /\ (bad_text ts e \/ exists l, tokens_of ts (map content l) /\ Forall data_str l /\ classify l = Err e).
Proof.
  unfold script_from_string. split.
  - intros H. destruct (split_joined t) as (J & N). exists (split_sp t). split; [apply split_sp_nonempty|]. split; [exact N|]. split; [symmetry; exact J|]. destruct (text_loop (split_sp t)) as [l|e'] eqn:T; cbn [bind] in H.
    + right. exists l. apply text_loop_ok in T. destruct T as (T & F). split; [exact T|]. split; [exact F|]. unfold script_create in H. destruct (classify l); cbn [bind] in H; [discriminate|]. injection H as <-. reflexivity.
    + left. injection H as <-. apply loop_err, T.
  - intros (ts & NE & N & -> & [B|(l & T & F & C)]); rewrite split_of_joined by assumption.
    + apply loop_err in B. rewrite B. reflexivity.
    + rewrite (proj2 (text_loop_ok _ _) (conj T F)). cbn [bind]. unfold script_create. rewrite C. reflexivity.
Qed.
Lemma bad_unique ts e e' : bad_text ts e -> bad_text ts e' -> e = e'.
Proof. intros A B. apply loop_err in A, B. congruence. Qed.
Lemma bad_or_good ts : (exists l, tokens_of ts l) \/ (exists e, bad_text ts e).
Proof. destruct (text_loop ts) as [l|e] eqn:T; [left; apply text_loop_ok in T; exists (map content l); tauto|right; exists e; apply loop_err, T]. Qed.
(** ** opcodes for lengths *)
Lemma var_push_ok n o : var_push_for n = Ok o <-> (1 <= n <= 255 /\ bZ o = 76) \/ (256 <= n <= 65535 /\ bZ o = 77) \/ (65536 <= n <= 4294967295 /\ bZ o = 78).
Proof.
  unfold var_push_for. change (data_length_max OP_PUSHDATA1) with 255. change (data_length_max OP_PUSHDATA2) with 65535. change (data_length_max OP_PUSHDATA4) with 4294967295.
  assert (I : forall a b, bZ a = bZ b -> a = b) by exact bZ_inj. change (bZ OP_PUSHDATA1) with 76 in *.
  destruct (n <? 1) eqn:A; [split; [discriminate|lia]|]. destruct (n <=? 255) eqn:B; [|destruct (n <=? 65535) eqn:C; [|destruct (n <=? 4294967295) eqn:D; [|split; [discriminate|lia]]]].
  - split; [intros [= <-]; left; split; [lia|reflexivity]|]. intros [(_ & E)|[(E & _)|(E & _)]]; try lia. f_equal. apply I. rewrite E. reflexivity.
  - split; [intros [= <-]; right; left; split; [lia|reflexivity]|]. intros [(E & _)|[(_ & E)|(E & _)]]; try lia. f_equal. apply I. rewrite E. reflexivity.
  - split; [intros [= <-]; right; right; split; [lia|reflexivity]|]. intros [(E & _)|[(E & _)|(_ & E)]]; try lia. f_equal. apply I. rewrite E. reflexivity.
Qed.
Lemma var_push_err n e : var_push_for n = Err e <-> (n <= 0 \/ 4294967296 <= n) /\ e = E_Op_InvalidPushLength.
Proof.
  unfold var_push_for. change (data_length_max OP_PUSHDATA1) with 255. change (data_length_max OP_PUSHDATA2) with 65535. change (data_length_max OP_PUSHDATA4) with 4294967295.
  destruct (n <? 1) eqn:A; [split; [intros [= <-]; split; [lia|reflexivity]|intros (_ & ->); reflexivity]|]. destruct (n <=? 255) eqn:B; [split; [discriminate|lia]|]. destruct (n <=? 65535) eqn:C; [split; [discriminate|lia]|].
  destruct (n <=? 4294967295) eqn:D; [split; [discriminate|lia]|]. split; [intros [= <-]; split; [lia|reflexivity]|intros (_ & ->); reflexivity].
Qed.
Lemma const_push_err n e : const_push_for n = Err e <-> ~ 1 <= n <= 75 /\ e = E_Op_InvalidConstPushLength.
Proof.
  unfold const_push_for. destruct ((1 <=? n) && (n <=? 75)) eqn:R; cbn [negb].
  - split; [|lia]. destruct (op_number n ltac:(lia)) as (o & <-). rewrite (proj2 (new_opcode_ok (bZ o) o)); [discriminate|]. split; [lia|reflexivity].
  - split; [intros [= <-]; split; [lia|reflexivity]|intros (_ & ->); reflexivity].
Qed.
