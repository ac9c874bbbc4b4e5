(** Formulas and the scripts that compute them (lemmas). *)
From Coq Require Import ZArith Lia Bool List.
From Verif Require Import Base S_Codec P_ScriptNum M_Keys M_Script S_Script M_Interp S_Interp S_Ref P_Ref P_Local S_Formula.
Import ListNotations.
Open Scope Z_scope.

Lemma num_fits n k : (1 <= k)%nat -> blen (script_num n) <= Z.of_nat k <-> Z.abs n < 2 ^ (8 * Z.of_nat k - 1).
Proof.
  intros K. rewrite <- script_num_encode. pose proof (encode_script_number_fits n (S k) ltac:(lia)) as H. unfold sm_lo in H. destruct k as [|k]; [lia|].
  assert (E : 128 * 256 ^ Z.of_nat k = 2 ^ (8 * Z.of_nat (S k) - 1)).
  { replace (8 * Z.of_nat (S k) - 1) with (7 + 8 * Z.of_nat k) by lia. rewrite Z.pow_add_r, Z.pow_mul_r by lia. reflexivity. }
  cbn [Nat.sub] in *. split; intros G; [|]; lia.
Qed.
(** What compiled scripts need of a dialect. *)
Definition usable (D : dialect) : Prop := (d_limit D = 3 \/ d_limit D = 4) /\ (forall z d, shortest_push z d = true -> blen d <= 4 -> d_push D z d = true) /\
  d_true D (script_num 0) = false /\ d_true D (script_num 1) = true.
Lemma usable_bitcoin f : usable (bitcoin f).
Proof. split; [right; reflexivity|]. split; [|split; reflexivity]. intros z d H _. unfold bitcoin, d_push. destruct (Z.testbit f MINIMALDATA); [exact H|reflexivity]. Qed.
Lemma usable_bitforge f : ~ flag f MINIMALDATA -> usable (bitforge f).
Proof.
  intros M. split; [left; reflexivity|]. split; [|split; reflexivity]. intros z d _ _. unfold bitforge, d_push.
  unfold flag in M. destruct (Z.testbit f MINIMALDATA); [contradiction M; reflexivity|reflexivity].
Qed.
Lemma num_limit D n : usable D -> (blen (script_num n) <=? d_limit D) = (Z.abs n <? 2 ^ (8 * d_limit D - 1)).
Proof.
  intros (L & _). pose proof (num_fits n 3 ltac:(lia)) as A. pose proof (num_fits n 4 ltac:(lia)) as B. destruct L as [L|L]; rewrite L; [change 3 with (Z.of_nat 3)|change 4 with (Z.of_nat 4)].
  - apply Bool.eq_iff_eq_true. rewrite Z.leb_le, Z.ltb_lt. exact A.
  - apply Bool.eq_iff_eq_true. rewrite Z.leb_le, Z.ltb_lt. exact B.
Qed.
Lemma shortest_num n : is_shortest (script_num n) = true.
Proof. apply is_shortest_iff, script_num_correct. Qed.
Lemma operand_num D m n : usable D -> operand_with D m (script_num n) = fit (d_limit D) (Some n).
Proof.
  intros U. unfold operand_with, fit. rewrite (num_limit D n U), shortest_num, orb_true_r, andb_true_r. destruct (script_num_correct n) as (-> & _). reflexivity.
Qed.
Lemma item_small D m x n : usable D -> item_number (d_limit D) m x = Some n -> Z.abs n <? 2 ^ (8 * d_limit D - 1) = true.
Proof.
  intros U H. unfold item_number in H. destruct (blen x <=? d_limit D) eqn:E; [|discriminate H]. cbn [andb] in H. destruct (negb m || is_shortest x); [|discriminate H].
  assert (n = sm_val x) as -> by congruence. rewrite <- (num_limit D _ U). apply Z.leb_le. apply Z.leb_le in E. destruct (script_num_correct (sm_val x)) as (V & S). specialize (S x (eq_sym V)). unfold blen in *. lia.
Qed.

Lemma num_size n k : (1 <= k)%nat -> Z.abs n < 2 ^ (8 * Z.of_nat k - 1) -> blen (script_num n) <= Z.of_nat k.
Proof. intros K H. apply num_fits; assumption. Qed.
Lemma forall_18 (P : Z -> Prop) : P (-1) -> P 0 -> (forall n, 1 <= n <= 16 -> P n) -> (forall n, ~ -1 <= n <= 16 -> P n) -> forall n, P n.
Proof. intros A B C E n. assert (D : n = -1 \/ n = 0 \/ 1 <= n <= 16 \/ ~ -1 <= n <= 16) by lia. destruct D as [->|[->|[D|D]]]; auto. Qed.
Lemma small_cases (P : Z -> Prop) : P 1 -> P 2 -> P 3 -> P 4 -> P 5 -> P 6 -> P 7 -> P 8 -> P 9 -> P 10 -> P 11 -> P 12 -> P 13 -> P 14 -> P 15 -> P 16 -> forall n, 1 <= n <= 16 -> P n.
Proof.
  intros. assert (D : n = 1 \/ n = 2 \/ n = 3 \/ n = 4 \/ n = 5 \/ n = 6 \/ n = 7 \/ n = 8 \/ n = 9 \/ n = 10 \/ n = 11 \/ n = 12 \/ n = 13 \/ n = 14 \/ n = 15 \/ n = 16) by lia.
  repeat (destruct D as [->|D]; [assumption|]). subst n. assumption.
Qed.
(** The bytes of other numbers are a shortest push. *)
Lemma num_push n : ~ -1 <= n <= 16 -> Z.abs n < 2 ^ 31 -> let d := script_num n in 1 <= blen d <= 4 /\ shortest_push (blen d) d = true.
Proof.
  intros N R d. assert (L : blen d <= 4) by (apply (num_size n 4); [lia|exact R]). destruct (script_num_correct n) as (V & S). fold d in V, S.
  destruct d as [|c [|c' r]] eqn:E.
  - change (sm_val []) with 0 in V. lia.
  - split; [unfold blen; cbn [List.length]; lia|]. unfold shortest_push. change (blen [c]) with 1. cbn [Z.eqb andb]. change (1 =? 1) with true. cbn [andb].
    unfold sm_val in V. cbn [rev app List.length le_val] in V. change (256 ^ Z.of_nat 0) with 1 in V. pose proof (bZ_range c).
    destruct (bZ c <? 128) eqn:Q; lia.
  - assert (1 <= blen (c :: c' :: r)) by (unfold blen; cbn [List.length]; lia). split; [lia|]. unfold shortest_push. replace (blen (c :: c' :: r) <=? 75) with true by lia. apply Z.eqb_refl.
Qed.
Definition on (c : list bool) : bool := forallb (fun b => b) c.
Definition room (D : dialect) (s a : list bytes) : Prop := blen s + blen a <= 1000.
Lemma run_one D i st : ref_run D [i] st = match ref_step D i st with Some st => if negb (d_each D) || in_limit st then Some st else None | None => None end.
Proof. reflexivity. Qed.
Lemma limit_ok D s a c n : blen s + blen a <= 1000 -> negb (d_each D) || in_limit (RState s a c n) = true.
Proof. intros H. unfold in_limit. cbn [r_main r_alt]. replace (blen s + blen a <=? 1000) with true by lia. apply orb_true_r. Qed.
Lemma push_step D n s a c k : usable D -> Z.abs n < 2 ^ 31 ->
  ref_step D (ref_instr (push_number n)) (RState s a c k) = Some (RState (if on c then script_num n :: s else s) a c k).
Proof.
  intros U. pattern n. apply forall_18; clear n.
  - intros _. unfold push_number, ref_instr, word. cbn. unfold on. destruct (forallb (fun b => b) c); reflexivity.
  - intros _. destruct U as (_ & U & _). unfold push_number, ref_instr, word. cbn. unfold on. rewrite (U 0 []); [|reflexivity|vm_compute; discriminate]. destruct (forallb (fun b => b) c); reflexivity.
  - intros n H _. revert n H. apply small_cases; unfold push_number, ref_instr, word, on; vm_compute Zb; cbn; destruct (forallb (fun b => b) c); reflexivity.
  - intros n N R. destruct (num_push n N R) as (L & P). destruct U as (_ & U & _). specialize (U _ _ P ltac:(lia)). unfold push_number. replace (n =? 0) with false by lia. replace (n =? -1) with false by lia.
    replace ((1 <=? n) && (n <=? 16)) with false by lia. unfold ref_instr. cbn [i_op i_data option_map pyb_bytes]. rewrite bZ_Zb by lia. revert L P U. generalize (script_num n). intros d L P U.
    unfold ref_step, on. replace (96 <? blen d) with false by lia. replace (520 <? blen d) with false by lia. cbn [andb].
    assert (Q : blen d = 1 \/ blen d = 2 \/ blen d = 3 \/ blen d = 4) by lia.
    destruct Q as [Q|[Q|[Q|Q]]]; rewrite Q in *; cbn; rewrite U; destruct (forallb (fun b => b) c); reflexivity.
Qed.
(** Passing over and executing the other instructions. *)
Definition plain_word (o : opcode) : Prop := o = x79 \/ o = xa5 \/ o = x92 \/ (exists u, o = un_code u) \/ (exists b, o = bin_code b).
Lemma skip_word D o s a c k : plain_word o -> on c = false -> k + 1 <= 201 -> ref_step D (ref_instr (word o)) (RState s a c k) = Some (RState s a c (k + 1)).
Proof.
  intros H C K. unfold on in C. unfold ref_step, ref_instr, word. cbn [i_op i_data option_map]. rewrite C. change (blen []) with 0. change (520 <? 0) with false. cbv iota.
  assert (E : 201 <? k + 1 = false) by lia.
  destruct H as [->|[->|[->|[(u & ->)|(b & ->)]]]]; [| | |destruct u|destruct b]; cbn; rewrite E; reflexivity.
Qed.
Lemma un_step D u n s a c k : usable D -> on c = true -> k + 1 <= 201 ->
  ref_step D (ref_instr (word (un_code u))) (RState (script_num n :: s) a c k) = match fit (d_limit D) (Some n) with Some x => Some (RState (script_num (un_val u x) :: s) a c (k + 1)) | None => None end.
Proof.
  intros U C K. unfold on in C. unfold ref_step, ref_instr, word. cbn [i_op i_data option_map]. rewrite C. assert (E : 201 <? k + 1 = false) by lia.
  destruct u; cbn -[script_num fit operand_of]; rewrite E; unfold num1, need1, operand_of; rewrite (operand_num D _ n U); destruct (fit (d_limit D) (Some n)); reflexivity.
Qed.
Lemma bin_step D b x y s a c k : usable D -> on c = true -> k + 1 <= 201 ->
  ref_step D (ref_instr (word (bin_code b))) (RState (script_num y :: script_num x :: s) a c k) =
  match fit (d_limit D) (Some x), fit (d_limit D) (Some y) with Some p, Some q => Some (RState (script_num (bin_val b p q) :: s) a c (k + 1)) | _, _ => None end.
Proof.
  intros U C K. unfold on in C. unfold ref_step, ref_instr, word. cbn [i_op i_data option_map]. rewrite C. assert (E : 201 <? k + 1 = false) by lia.
  destruct b; cbn -[script_num fit operand_of Z.min Z.max]; rewrite E; unfold num2, need2, operand_of; rewrite !(operand_num D _ _ U); destruct (fit (d_limit D) (Some x)) as [p|]; try reflexivity; destruct (fit (d_limit D) (Some y)) as [q|]; try reflexivity.
  all: unfold truth, as01; repeat f_equal; try (replace (p >? q) with (q <? p) by lia; reflexivity); try (replace (p >=? q) with (q <=? p) by lia; reflexivity).
  all: destruct (p <? q) eqn:L; lia.
Qed.
Lemma within_step D x lo hi s a c k : usable D -> on c = true -> k + 1 <= 201 ->
  ref_step D (ref_instr (word xa5)) (RState (script_num hi :: script_num lo :: script_num x :: s) a c k) =
  match fit (d_limit D) (Some x), fit (d_limit D) (Some lo), fit (d_limit D) (Some hi) with
  | Some p, Some l, Some h => Some (RState (script_num (as01 ((l <=? p) && (p <? h))) :: s) a c (k + 1)) | _, _, _ => None end.
Proof.
  intros U C K. unfold on in C. unfold ref_step, ref_instr, word. cbn [i_op i_data option_map]. rewrite C. assert (E : 201 <? k + 1 = false) by lia.
  cbn -[script_num fit operand_with]; rewrite E; rewrite !(operand_num D _ _ U); destruct (fit (d_limit D) (Some x)) as [p|], (fit (d_limit D) (Some lo)) as [l|], (fit (d_limit D) (Some hi)) as [h|]; reflexivity.
Qed.
Lemma pick_step D d s a c k : usable D -> on c = true -> k + 1 <= 201 -> Z.of_nat d < 2 ^ 23 ->
  ref_step D (ref_instr (word x79)) (RState (script_num (Z.of_nat d) :: s) a c k) = match nth_error s d with Some x => Some (RState (x :: s) a c (k + 1)) | None => None end.
Proof.
  intros U C K R. unfold on in C. unfold ref_step, ref_instr, word. cbn [i_op i_data option_map]. rewrite C. assert (E : 201 <? k + 1 = false) by lia.
  cbn -[script_num fit operand_of Z.to_nat Z.of_nat nth_error]. rewrite E. unfold operand_of. rewrite (operand_num D _ _ U). unfold fit.
  assert (L : Z.abs (Z.of_nat d) <? 2 ^ (8 * d_limit D - 1) = true) by (destruct U as ([->| ->] & _); change (2 ^ (8 * 3 - 1)) with (2 ^ 23); change (2 ^ (8 * 4 - 1)) with (2 ^ 31); lia).
  rewrite L. replace (Z.of_nat d <? 0) with false by lia. rewrite Nat2Z.id. destruct s as [|y s]; [destruct d; reflexivity|]. cbn [need2]. destruct (nth_error (y :: s) d); reflexivity.
Qed.
Lemma neg_step D x s a c k : usable D -> on c = true -> k + 1 <= 201 ->
  ref_step D (ref_instr (word x8f)) (RState (x :: s) a c k) = match item_number (d_limit D) (d_minimal D) x with Some n => Some (RState (script_num (- n) :: s) a c (k + 1)) | None => None end.
Proof.
  intros U C K. unfold on in C. unfold ref_step, ref_instr, word. cbn [i_op i_data option_map]. rewrite C. assert (E : 201 <? k + 1 = false) by lia.
  cbn -[script_num fit operand_of item_number]; rewrite E; unfold num1, need1. change (item_number (d_limit D) (d_minimal D) x) with (operand_of D x). destruct (operand_of D x); reflexivity.
Qed.
Lemma if_step D n s a c k : usable D -> on c = true -> k + 1 <= 201 -> n = 0 \/ n = 1 ->
  ref_step D (ref_instr (word x63)) (RState (script_num n :: s) a c k) = Some (RState s a ((n =? 1) :: c) (k + 1)).
Proof.
  intros (_ & _ & F & T) C K N. unfold on in C. unfold ref_step, ref_instr, word. cbn [i_op i_data option_map]. rewrite C. assert (E : 201 <? k + 1 = false) by lia.
  cbn -[script_num]. rewrite E. destruct N as [->| ->]; [rewrite F|rewrite T]; reflexivity.
Qed.
Lemma if_skip D s a c k : on c = false -> k + 1 <= 201 -> ref_step D (ref_instr (word x63)) (RState s a c k) = Some (RState s a (false :: c) (k + 1)).
Proof.
  intros C K. unfold on in C. unfold ref_step, ref_instr, word. cbn [i_op i_data option_map]. rewrite C. assert (E : 201 <? k + 1 = false) by lia. cbn. rewrite E. reflexivity.
Qed.
Lemma else_step D s a b c k : k + 1 <= 201 -> ref_step D (ref_instr (word x67)) (RState s a (b :: c) k) = Some (RState s a (negb b :: c) (k + 1)).
Proof. intros K. unfold ref_step, ref_instr, word. assert (E : 201 <? k + 1 = false) by lia. cbn -[forallb]. rewrite E. reflexivity. Qed.
Lemma endif_step D s a b c k : k + 1 <= 201 -> ref_step D (ref_instr (word x68)) (RState s a (b :: c) k) = Some (RState s a c (k + 1)).
Proof. intros K. unfold ref_step, ref_instr, word. assert (E : 201 <? k + 1 = false) by lia. cbn -[forallb]. rewrite E. reflexivity. Qed.
Lemma run_next D i l st s a c k : ref_step D i st = Some (RState s a c k) -> blen s + blen a <= 1000 -> ref_run D (i :: l) st = ref_run D l (RState s a c k).
Proof. intros H R. cbn [ref_run]. rewrite H. rewrite (limit_ok D s a c k R). reflexivity. Qed.
Lemma run_none D i l st : ref_step D i st = None -> ref_run D (i :: l) st = None.
Proof. intros H. cbn [ref_run]. rewrite H. reflexivity. Qed.
Lemma operations_pos f : 0 <= operations f.
Proof. induction f; cbn [operations]; lia. Qed.
Lemma cells_pos f : 1 <= cells f.
Proof. induction f; cbn [cells]; lia. Qed.
Lemma compile_skip D f : usable D -> modest f -> forall d s a c k, (d <= 1000)%nat -> on c = false -> blen s + blen a <= 1000 -> Z.of_nat d + cells f <= 1001 -> k + operations f <= 201 ->
  ref_run D (map ref_instr (compile d f)) (RState s a c k) = Some (RState s a c (k + operations f)).
Proof.
  intros U. induction f as [n|i|u x IX|b x IX y IY|x IX y IY z IZ|x IX y IY z IZ]; intros M d s a c k DD C R RD K; cbn [compile modest operations cells] in *; rewrite ?map_app, ?ref_run_app; cbn [map].
  - rewrite (run_next D _ _ _ s a c k); [|rewrite push_step by assumption; rewrite C; reflexivity|lia]. cbn [ref_run]. rewrite Z.add_0_r. reflexivity.
  - rewrite (run_next D _ _ _ s a c k); [|rewrite push_step by (try assumption; lia); rewrite C; reflexivity|lia].
    erewrite run_next; [|apply skip_word; [left; reflexivity|exact C|lia]|lia].
    erewrite run_next; [|apply skip_word; [right; right; right; left; exists U_neg; reflexivity|exact C|lia]|lia].
    erewrite run_next; [|apply skip_word; [right; right; right; left; exists U_neg; reflexivity|exact C|lia]|lia].
    cbn [ref_run]. do 2 f_equal. lia.
  - pose proof (operations_pos x). rewrite (IX M d) by (assumption || lia). erewrite run_next; [|apply skip_word; [unfold plain_word; eauto 7|exact C|lia]|lia]. cbn [ref_run]. do 2 f_equal. lia.
  - destruct M as (M1 & M2). pose proof (operations_pos x). pose proof (operations_pos y). pose proof (cells_pos y). rewrite (IX M1 d) by (assumption || lia). rewrite ref_run_app. rewrite (IY M2 (S d)) by (assumption || lia).
    erewrite run_next; [|apply skip_word; [unfold plain_word; eauto 7|exact C|lia]|lia]. cbn [ref_run]. do 2 f_equal. lia.
  - destruct M as (M1 & M2 & M3). pose proof (operations_pos x). pose proof (operations_pos y). pose proof (operations_pos z). pose proof (cells_pos y). pose proof (cells_pos z). rewrite (IX M1 d) by (assumption || lia). rewrite ref_run_app. rewrite (IY M2 (S d)) by (assumption || lia).
    rewrite ref_run_app. rewrite (IZ M3 (S (S d))) by (assumption || lia). erewrite run_next; [|apply skip_word; [unfold plain_word; eauto 7|exact C|lia]|lia]. cbn [ref_run]. do 2 f_equal. lia.
  - destruct M as (M1 & M2 & M3). pose proof (operations_pos x). pose proof (operations_pos y). pose proof (operations_pos z). pose proof (cells_pos y). pose proof (cells_pos z). pose proof (cells_pos x). rewrite (IX M1 d) by (assumption || lia).
    cbn [app]. erewrite run_next; [|apply skip_word; [unfold plain_word; eauto 7|exact C|lia]|lia]. erewrite run_next; [|apply if_skip; [exact C|lia]|lia].
    rewrite ref_run_app. rewrite (IY M2 d) by (try reflexivity; lia). cbn [app]. erewrite run_next; [|apply else_step; lia|lia]. cbn [negb].
    rewrite ref_run_app. rewrite (IZ M3 d) by (try exact C; lia). erewrite run_next; [|apply endif_step; lia|lia]. cbn [ref_run]. do 2 f_equal. lia.
Qed.
Lemma blen_app_nat (a b : list bytes) : blen (a ++ b) = blen a + blen b.
Proof. unfold blen. rewrite app_length. lia. Qed.
Lemma compile_run D f : usable D -> modest f -> forall tmp env a c k, on c = true -> blen tmp + blen env + blen a + cells f <= 1000 -> k + operations f <= 201 ->
  ref_run D (map ref_instr (compile (List.length tmp) f)) (RState (tmp ++ env) a c k) =
  match value (d_limit D) (d_minimal D) env f with Some v => Some (RState (script_num v :: tmp ++ env) a c (k + operations f)) | None => None end.
Proof.
  intros U. induction f as [n|i|u x IX|b x IX y IY|x IX y IY z IZ|x IX y IY z IZ]; intros M tmp env a c k C R K; cbn [compile modest operations cells value] in *; rewrite ?map_app, ?ref_run_app; cbn [map];
    pose proof (blen_app_nat tmp env) as LT; pose proof (blen_nonneg tmp); pose proof (blen_nonneg env); pose proof (blen_nonneg a).
  - erewrite run_next; [|rewrite push_step by assumption; rewrite C; reflexivity|rewrite blen_cons; lia]. cbn [ref_run]. rewrite Z.add_0_r. reflexivity.
  - assert (B : Z.of_nat (List.length tmp + i) < 2000) by (unfold blen in *; lia).
    erewrite run_next; [|rewrite push_step by (try assumption; lia); rewrite C; reflexivity|rewrite blen_cons; lia].
    assert (N : nth_error (tmp ++ env) (List.length tmp + i) = nth_error env i) by (rewrite nth_error_app2 by lia; f_equal; lia).
    destruct (nth_error env i) as [x|].
    + erewrite run_next; [|rewrite pick_step by (try assumption; lia); rewrite N; reflexivity|rewrite blen_cons; lia].
      destruct (item_number (d_limit D) (d_minimal D) x) as [n|] eqn:I.
      * erewrite run_next; [|rewrite neg_step by (try assumption; lia); rewrite I; reflexivity|rewrite blen_cons; lia].
        assert (J : item_number (d_limit D) (d_minimal D) (script_num (- n)) = Some (- n)).
        { pose proof (item_small D _ x n U I) as S. change (operand_with D (d_minimal D) (script_num (- n)) = Some (- n)). rewrite (operand_num D _ _ U). unfold fit. rewrite Z.abs_opp, S. reflexivity. }
        erewrite run_next; [|rewrite neg_step by (try assumption; lia); rewrite J; reflexivity|rewrite blen_cons; lia]. rewrite Z.opp_involutive. cbn [ref_run]. do 2 f_equal. lia.
      * apply run_none. rewrite neg_step by (try assumption; lia). rewrite I. reflexivity.
    + apply run_none. rewrite pick_step by (try assumption; lia). rewrite N. reflexivity.
  - pose proof (operations_pos x). rewrite (IX M tmp env) by (assumption || lia). destruct (value (d_limit D) (d_minimal D) env x) as [v|]; [|reflexivity].
    destruct (fit (d_limit D) (Some v)) as [w|] eqn:F.
    + erewrite run_next; [|rewrite un_step by (try assumption; lia); rewrite F; reflexivity|rewrite blen_cons; pose proof (cells_pos x); lia]. cbn [ref_run]. do 2 f_equal. lia.
    + apply run_none. rewrite un_step by (try assumption; lia). rewrite F. reflexivity.
  - destruct M as (M1 & M2). pose proof (operations_pos x). pose proof (operations_pos y). pose proof (cells_pos y). rewrite (IX M1 tmp env) by (assumption || lia).
    destruct (value (d_limit D) (d_minimal D) env x) as [v|]; [|reflexivity].
    rewrite ref_run_app. change (S (List.length tmp)) with (List.length (script_num v :: tmp)). change (script_num v :: tmp ++ env) with ((script_num v :: tmp) ++ env). rewrite (IY M2 (script_num v :: tmp) env) by (try assumption; rewrite ?blen_cons; lia).
    destruct (value (d_limit D) (d_minimal D) env y) as [w|]; [|destruct (fit (d_limit D) (Some v)); reflexivity]. cbn [app].
    destruct (fit (d_limit D) (Some v)) as [p|] eqn:F; [destruct (fit (d_limit D) (Some w)) as [q|] eqn:G|].
    + erewrite run_next; [|rewrite bin_step by (try assumption; lia); rewrite F, G; reflexivity|rewrite blen_cons; lia]. cbn [ref_run]. do 2 f_equal. lia.
    + apply run_none. rewrite bin_step by (try assumption; lia). rewrite F, G. reflexivity.
    + apply run_none. rewrite bin_step by (try assumption; lia). rewrite F. reflexivity.
  - destruct M as (M1 & M2 & M3). pose proof (operations_pos x). pose proof (operations_pos y). pose proof (operations_pos z). pose proof (cells_pos y). pose proof (cells_pos z). rewrite (IX M1 tmp env) by (assumption || lia).
    destruct (value (d_limit D) (d_minimal D) env x) as [v|]; [|reflexivity].
    rewrite ref_run_app. change (S (List.length tmp)) with (List.length (script_num v :: tmp)). change (script_num v :: tmp ++ env) with ((script_num v :: tmp) ++ env). rewrite (IY M2 (script_num v :: tmp) env) by (try assumption; rewrite ?blen_cons; lia).
    destruct (value (d_limit D) (d_minimal D) env y) as [w|]; [|destruct (fit (d_limit D) (Some v)); reflexivity].
    rewrite ref_run_app. change (S (List.length (script_num v :: tmp))) with (List.length (script_num w :: script_num v :: tmp)). change (script_num w :: (script_num v :: tmp) ++ env) with ((script_num w :: script_num v :: tmp) ++ env).
    rewrite (IZ M3 (script_num w :: script_num v :: tmp) env) by (try assumption; rewrite ?blen_cons; lia).
    destruct (value (d_limit D) (d_minimal D) env z) as [t|]; [|destruct (fit (d_limit D) (Some v)), (fit (d_limit D) (Some w)); reflexivity]. cbn [app].
    destruct (fit (d_limit D) (Some v)) as [p|] eqn:F; [destruct (fit (d_limit D) (Some w)) as [q|] eqn:G; [destruct (fit (d_limit D) (Some t)) as [r|] eqn:H'|]|].
    + erewrite run_next; [|rewrite within_step by (try assumption; lia); rewrite F, G, H'; reflexivity|rewrite blen_cons; lia]. cbn [ref_run]. do 2 f_equal. lia.
    + apply run_none. rewrite within_step by (try assumption; lia). rewrite F, G, H'. reflexivity.
    + apply run_none. rewrite within_step by (try assumption; lia). rewrite F, G. reflexivity.
    + apply run_none. rewrite within_step by (try assumption; lia). rewrite F. reflexivity.
  - destruct M as (M1 & M2 & M3). pose proof (operations_pos x). pose proof (operations_pos y). pose proof (operations_pos z). pose proof (cells_pos y). pose proof (cells_pos z). pose proof (cells_pos x). rewrite (IX M1 tmp env) by (assumption || lia).
    destruct (value (d_limit D) (d_minimal D) env x) as [v|]; [|reflexivity]. cbn [app].
    destruct (fit (d_limit D) (Some v)) as [p|] eqn:F; [|apply run_none; change x92 with (un_code U_nonzero); rewrite un_step by (try assumption; lia); rewrite F; reflexivity].
    erewrite run_next; [|change x92 with (un_code U_nonzero); rewrite un_step by (try assumption; lia); rewrite F; reflexivity|rewrite blen_cons; lia]. cbn [un_val].
    assert (P : as01 (negb (p =? 0)) = 0 \/ as01 (negb (p =? 0)) = 1) by (destruct (p =? 0); [left|right]; reflexivity).
    erewrite run_next; [|apply if_step; try assumption; lia|lia]. clear P.
    assert (LD : (List.length tmp <= 1000)%nat) by (unfold blen in *; lia). assert (LD' : Z.of_nat (List.length tmp) = blen tmp) by reflexivity.
    destruct (p =? 0) eqn:Z0.
    + change (as01 (negb true) =? 1) with false. rewrite ref_run_app. rewrite (compile_skip D y U M2) by (try reflexivity; try exact LD; lia). cbn [app].
      erewrite run_next; [|apply else_step; lia|lia]. cbn [negb]. rewrite ref_run_app. rewrite (IZ M3 tmp env) by (try exact C; lia).
      destruct (value (d_limit D) (d_minimal D) env z) as [t|]; [|reflexivity]. erewrite run_next; [|apply endif_step; lia|rewrite blen_cons; lia]. cbn [ref_run]. do 2 f_equal. lia.
    + change (as01 (negb false) =? 1) with true. rewrite ref_run_app. rewrite (IY M2 tmp env) by (try exact C; lia).
      destruct (value (d_limit D) (d_minimal D) env y) as [t|]; [|reflexivity]. cbn [app]. erewrite run_next; [|apply else_step; lia|rewrite blen_cons; lia]. cbn [negb].
      rewrite ref_run_app. rewrite (compile_skip D z U M3) by (try reflexivity; try exact LD; rewrite ?blen_cons; lia).
      erewrite run_next; [|apply endif_step; lia|rewrite blen_cons; lia]. cbn [ref_run]. do 2 f_equal. lia.
Qed.
(** ** whole scripts *)
Definition fine (l : list instr) (n : Z) : Prop :=
  Forall (fun i => well_formed i /\ ~ pushdata (i_op i) /\ (forall d, i_data i = Some d -> numeric_type d)) l /\ exists w, wire_script (map content l) w /\ blen w <= n.
Lemma fine_app l r m n : fine l m -> fine r n -> fine (l ++ r) (m + n).
Proof.
  intros (A & w & W & L) (B & v & V & K). split; [apply Forall_app; split; assumption|]. exists (w ++ v). rewrite map_app. split; [apply wire_script_app; exists w, v; auto|].
  unfold blen in *. rewrite app_length. lia.
Qed.
Lemma fine_le l m n : fine l m -> m <= n -> fine l n.
Proof. intros (A & w & W & L) H. split; [exact A|]. exists w. split; [exact W|lia]. Qed.
Lemma fine_word o : ~ pushes o -> fine [word o] 1.
Proof.
  intros P. split.
  - constructor; [|constructor]. split; [exact P|]. split; [unfold pushes, pushdata in *; cbn [word i_op]; lia|discriminate].
  - exists ([o] ++ []). split; [constructor; [constructor; exact P|constructor]|]. vm_compute. discriminate.
Qed.
Lemma fine_data x : 1 <= blen x <= 75 -> fine [Instr (Zb (blen x)) (Some (BA x))] (1 + blen x).
Proof.
  intros L. assert (Q : bZ (Zb (blen x)) = blen x) by (apply bZ_Zb; lia). split.
  - constructor; [|constructor]. split; [unfold well_formed, push_length; cbn [i_op i_data]; rewrite Q; left; split; [lia|reflexivity]|].
    split; [unfold pushdata; cbn [i_op]; lia|]. intros d [= <-]. exact I.
  - exists ((Zb (blen x) :: x) ++ []). split; [constructor; [constructor; rewrite Q; [lia|reflexivity]|constructor]|]. rewrite app_nil_r. unfold blen. cbn [List.length]. lia.
Qed.
Lemma fine_push n : Z.abs n < 2 ^ 31 -> fine [push_number n] 5.
Proof.
  pattern n. apply forall_18; clear n.
  - intros _. apply (fine_le _ 1); [apply fine_word; vm_compute; intuition discriminate|lia].
  - intros _. apply (fine_le _ 1); [apply fine_word; vm_compute; intuition discriminate|lia].
  - intros n N _. unfold push_number. replace (n =? 0) with false by lia. replace (n =? -1) with false by lia. replace ((1 <=? n) && (n <=? 16)) with true by lia.
    apply (fine_le _ 1); [apply fine_word; unfold pushes; rewrite bZ_Zb by lia; lia|lia].
  - intros n N R. destruct (num_push n N R) as (L & _). unfold push_number. replace (n =? 0) with false by lia. replace (n =? -1) with false by lia. replace ((1 <=? n) && (n <=? 16)) with false by lia.
    apply (fine_le _ (1 + blen (script_num n))); [apply fine_data; lia|lia].
Qed.
Lemma fine_un u : fine [word (un_code u)] 1.
Proof. apply fine_word. destruct u; vm_compute; intuition discriminate. Qed.
Lemma fine_bin b : fine [word (bin_code b)] 1.
Proof. apply fine_word. destruct b; vm_compute; intuition discriminate. Qed.
Lemma fine_other o : o = x79 \/ o = xa5 \/ o = x63 \/ o = x67 \/ o = x68 -> fine [word o] 1.
Proof. intros H. apply fine_word. destruct H as [->|[->|[->|[->| ->]]]]; vm_compute; intuition discriminate. Qed.
Lemma fine_compile f : modest f -> forall d, Z.of_nat d + cells f <= 1001 -> fine (compile d f) (5 + 12 * operations f).
Proof.
  induction f as [n|i|u x IX|b x IX y IY|x IX y IY z IZ|x IX y IY z IZ]; intros M d R; cbn [compile modest operations cells] in *.
  - apply (fine_push n M).
  - apply (fine_le _ (5 + (1 + (1 + 1)))); [|lia]. change [push_number (Z.of_nat (d + i)); word x79; word x8f; word x8f] with ([push_number (Z.of_nat (d + i))] ++ [word x79] ++ [word x8f] ++ [word x8f]).
    apply fine_app; [apply fine_push; lia|]. apply fine_app; [apply fine_other; auto|]. apply fine_app; apply (fine_un U_neg).
  - apply (fine_le _ (5 + 12 * operations x + 1)); [|lia]. apply fine_app; [apply IX; assumption|apply fine_un].
  - destruct M as (M1 & M2). apply (fine_le _ ((5 + 12 * operations x) + ((5 + 12 * operations y) + 1))); [|lia]. apply fine_app; [apply IX; [assumption|lia]|]. apply fine_app; [apply IY; [assumption|lia]|apply fine_bin].
  - destruct M as (M1 & M2 & M3). apply (fine_le _ ((5 + 12 * operations x) + ((5 + 12 * operations y) + ((5 + 12 * operations z) + 1)))); [|lia].
    apply fine_app; [apply IX; [assumption|lia]|]. apply fine_app; [apply IY; [assumption|lia]|]. apply fine_app; [apply IZ; [assumption|lia]|apply fine_other; auto].
  - destruct M as (M1 & M2 & M3). apply (fine_le _ ((5 + 12 * operations x) + ((1 + 1) + ((5 + 12 * operations y) + (1 + ((5 + 12 * operations z) + 1)))))); [|lia].
    apply fine_app; [apply IX; [assumption|lia]|]. apply fine_app; [apply (fine_app [word x92] [word x63]); [apply (fine_un U_nonzero)|apply fine_other; auto]|]. apply fine_app; [apply IY; [assumption|lia]|].
    apply fine_app; [apply fine_other; auto|]. apply fine_app; [apply IZ; [assumption|lia]|apply fine_other; auto 6].
Qed.
Lemma fine_script l n : fine l n -> n <= 10000 -> readable (Script None l) /\ sized (Script None l).
Proof. intros (A & w & W & L) N. split; [exact A|]. exists w. split; [exact W|lia]. Qed.
Lemma compile_eval D f s : usable D -> modest f -> operations f <= 201 -> blen s + cells f <= 1000 ->
  ref_eval D (map ref_instr (compile 0 f)) s = match value (d_limit D) (d_minimal D) s f with Some v => Some (script_num v :: s) | None => None end.
Proof.
  intros U M O R. unfold ref_eval. pose proof (compile_run D f U M [] s [] [] 0 eq_refl) as H. cbn [app List.length] in H. change (blen []) with 0 in H. rewrite H by lia.
  destruct (value (d_limit D) (d_minimal D) s f) as [v|]; [|reflexivity]. cbn [r_cond r_main]. unfold in_limit. cbn [r_main r_alt]. rewrite blen_cons. change (blen []) with 0. pose proof (cells_pos f).
  replace (1 + blen s + 0 <=? 1000) with true by lia. reflexivity.
Qed.
Lemma compile_evaluate f stack fl : modest f -> operations f <= 201 -> blen stack + cells f <= 1000 -> ~ flag fl MINIMALDATA -> Forall numeric_type stack -> forall t,
  (exists st, evaluate (ready (Script None (compile 0 f)) stack fl) = Ok (Next st) /\ rev (map pyb_bytes (s_stack st)) = t) <->
  (exists v, value 3 false (rev (map pyb_bytes stack)) f = Some v /\ t = script_num v :: rev (map pyb_bytes stack)).
Proof.
  intros M O R FM N t. pose proof (blen_nonneg stack) as NN. destruct (fine_script _ _ (fine_compile f M 0 ltac:(lia)) ltac:(pose proof (operations_pos f); lia)) as (RD & SZ).
  destruct (evaluate_ref (Script None (compile 0 f)) stack fl RD N) as (_ & H). rewrite (H t). unfold ref_script. cbn [s_ins].
  rewrite (compile_eval (bitforge fl) f _ (usable_bitforge fl FM) M O) by (rewrite blen_rev, blen_map; exact R). cbn [d_limit d_minimal bitforge].
  unfold flag in FM. destruct (Z.testbit fl MINIMALDATA); [contradiction FM; reflexivity|]. destruct (value 3 false (rev (map pyb_bytes stack)) f) as [v|].
  - split; [intros (_ & E); exists v; split; [reflexivity|congruence]|]. intros (w & E & ->). split; [exact SZ|congruence].
  - split; [intros (_ & E); discriminate|]. intros (w & E & _). discriminate.
Qed.
Lemma supply_run D xs : (forall z d, d_push D z d = true) -> Forall (fun x => 1 <= blen x <= 75) xs -> forall s k, blen s + blen xs <= 1000 ->
  ref_run D (ref_script (supply xs)) (RState s [] [] k) = Some (RState (rev xs ++ s) [] [] k).
Proof.
  intros P. induction 1 as [|x xs L F IH]; intros s k R; [reflexivity|]. unfold ref_script, supply in *. cbn [s_ins map] in *. rewrite blen_cons in R. pose proof (blen_nonneg xs).
  rewrite (run_next D _ _ _ (x :: s) [] [] k); [rewrite IH by (rewrite blen_cons; lia); cbn [rev]; rewrite <- app_assoc; reflexivity| |rewrite blen_cons; change (blen []) with 0; lia].
  unfold ref_instr. cbn [i_op i_data option_map pyb_bytes]. rewrite bZ_Zb by lia. unfold ref_step. replace (96 <? blen x) with false by lia. replace (520 <? blen x) with false by lia. cbn [andb forallb].
  assert (Q : ref_disabled (blen x) = false) by (unfold ref_disabled; lia). rewrite Q, P. replace (blen x <=? 78) with true by lia. revert L. generalize (blen x). intros z L.
  destruct z as [|z|z]; [reflexivity| |reflexivity]. do 7 (destruct z as [z|z|]; try reflexivity; try lia).
Qed.
Lemma supply_eval D xs : (forall z d, d_push D z d = true) -> Forall (fun x => 1 <= blen x <= 75) xs -> blen xs <= 1000 -> ref_eval D (ref_script (supply xs)) [] = Some (rev xs).
Proof.
  intros P F L. unfold ref_eval. rewrite (supply_run D xs P F) by exact L. cbn [r_cond r_main]. rewrite app_nil_r. unfold in_limit. cbn [r_main r_alt]. change (blen []) with 0. rewrite blen_rev.
  replace (blen xs + 0 <=? 1000) with true by lia. reflexivity.
Qed.
Lemma supply_readable xs : Forall (fun x => 1 <= blen x <= 75) xs -> readable (supply xs).
Proof.
  intros F. unfold readable, supply. cbn [s_ins]. induction F as [|x xs L F IH]; [constructor|]. cbn [map]. constructor; [|exact IH]. destruct (fine_data x L) as (A & _). inversion A. assumption.
Qed.
Lemma nonzero_value l m s f : value l m s (F_un U_nonzero f) = match fit l (value l m s f) with Some v => Some (as01 (negb (v =? 0))) | None => None end.
Proof. reflexivity. Qed.
Lemma demand_accepts D f xs : usable D -> (forall z d, d_push D z d = true) -> modest f -> operations f <= 200 -> blen xs + cells f <= 1000 -> Forall (fun x => 1 <= blen x <= 75) xs ->
  (ref_accepts D (ref_script (supply xs)) (ref_script (demand f)) <->
   exists v, value (d_limit D) (d_minimal D) (rev xs) f = Some v /\ Z.abs v < 2 ^ (8 * d_limit D - 1) /\ v <> 0).
Proof.
  intros U P M O R F. unfold ref_accepts. pose proof (cells_pos f). rewrite (supply_eval D xs P F) by lia. unfold demand, ref_script. cbn [s_ins].
  assert (E := compile_eval D (F_un U_nonzero f) (rev xs) U M ltac:(cbn [operations]; lia) ltac:(rewrite blen_rev; cbn [cells]; lia)). rewrite nonzero_value in E.
  destruct U as (_ & _ & T0 & T1). split.
  - intros (s & x & t & S & G & T). assert (s = rev xs) as -> by congruence. rewrite E in G. destruct (value (d_limit D) (d_minimal D) (rev xs) f) as [v|]; [|discriminate G]. unfold fit in G.
    destruct (Z.abs v <? 2 ^ (8 * d_limit D - 1)) eqn:L; [|discriminate G]. exists v. split; [reflexivity|]. split; [lia|]. assert (x = script_num (as01 (negb (v =? 0)))) as -> by congruence.
    destruct (v =? 0) eqn:V; [|lia]. unfold as01 in T. cbn [negb] in T. congruence.
  - intros (v & V & L & N). rewrite V in E. unfold fit in E. replace (Z.abs v <? 2 ^ (8 * d_limit D - 1)) with true in E by lia. replace (v =? 0) with false in E by lia.
    exists (rev xs), (script_num 1), (rev xs). auto.
Qed.
Lemma demand_fine f : modest f -> operations f <= 200 -> cells f <= 1000 -> readable (demand f) /\ sized (demand f).
Proof.
  intros M O C. pose proof (operations_pos f). apply (fine_script _ (5 + 12 * operations (F_un U_nonzero f))); [apply fine_compile; [exact M|cbn [cells]; lia]|cbn [operations]; lia].
Qed.
Lemma demand_verify self f xs fl : modest f -> operations f <= 200 -> blen xs + cells f <= 1000 -> Forall (fun x => 1 <= blen x <= 75) xs -> sized (supply xs) -> ~ flag fl P2SH -> ~ flag fl MINIMALDATA ->
  (verify self (supply xs) (demand f) fl = Ok (true, IE_None) <-> exists v, value 3 false (rev xs) f = Some v /\ Z.abs v < 2 ^ 23 /\ v <> 0).
Proof.
  intros M O R F SZ FP FM. pose proof (blen_nonneg xs). destruct (demand_fine f M O ltac:(lia)) as (RD & SD). rewrite (verify_ref self _ _ fl (supply_readable xs F) RD).
  assert (P : forall z d, d_push (bitforge fl) z d = true) by (intros z d; unfold bitforge, d_push; unfold flag in FM; destruct (Z.testbit fl MINIMALDATA); [contradiction FM; reflexivity|reflexivity]).
  rewrite (demand_accepts (bitforge fl) f xs (usable_bitforge fl FM) P M O R F). cbn [d_limit d_minimal bitforge]. change (8 * 3 - 1) with 23.
  assert (Q : Z.testbit fl MINIMALDATA = false) by (unfold flag in FM; destruct (Z.testbit fl MINIMALDATA); [contradiction FM; reflexivity|reflexivity]). rewrite Q. split; [tauto|].
  intros H'. split; [exact FP|]. split; [|tauto]. intros _. unfold supply. cbn [s_ins]. apply Forall_forall. intros i I. apply in_map_iff in I. destruct I as (x & <- & I). cbn [i_op].
  pose proof (proj1 (Forall_forall _ _) F x I) as L. cbv beta in L. rewrite bZ_Zb by lia. lia.
Qed.
Lemma demand_bitcoin f xs fl : modest f -> operations f <= 200 -> blen xs + cells f <= 1000 -> Forall (fun x => 1 <= blen x <= 75) xs -> ~ flag fl MINIMALDATA ->
  (ref_accepts (bitcoin fl) (ref_script (supply xs)) (ref_script (demand f)) <-> exists v, value 4 false (rev xs) f = Some v /\ Z.abs v < 2 ^ 31 /\ v <> 0).
Proof.
  intros M O R F FM. assert (Q : Z.testbit fl MINIMALDATA = false) by (unfold flag in FM; destruct (Z.testbit fl MINIMALDATA); [contradiction FM; reflexivity|reflexivity]).
  assert (P : forall z d, d_push (bitcoin fl) z d = true) by (intros z d; unfold bitcoin, d_push; rewrite Q; reflexivity).
  rewrite (demand_accepts (bitcoin fl) f xs (usable_bitcoin fl) P M O R F). cbn [d_limit d_minimal bitcoin]. change (8 * 4 - 1) with 31. rewrite Q. reflexivity.
Qed.
Lemma fit_wider l l' v n : 1 <= l <= l' -> fit l v = Some n -> fit l' v = Some n.
Proof.
  intros L. destruct v as [m|]; [|discriminate]. unfold fit. destruct (Z.abs m <? 2 ^ (8 * l - 1)) eqn:A; [|discriminate]. intros [= <-]. pose proof (Z.pow_le_mono_r 2 (8 * l - 1) (8 * l' - 1) ltac:(lia) ltac:(lia)).
  replace (Z.abs m <? 2 ^ (8 * l' - 1)) with true by lia. reflexivity.
Qed.
Lemma value_wider l l' m s f : 1 <= l <= l' -> forall v, value l m s f = Some v -> value l' m s f = Some v.
Proof.
  intros L. assert (A : forall x, (forall v, value l m s x = Some v -> value l' m s x = Some v) -> forall n, fit l (value l m s x) = Some n -> fit l' (value l' m s x) = Some n).
  { intros x IX n H. destruct (value l m s x) as [w|] eqn:E; [|discriminate H]. rewrite (IX w eq_refl). apply (fit_wider l); assumption. }
  induction f as [n|i|u x IX|b x IX y IY|x IX y IY z IZ|x IX y IY z IZ]; intros v; cbn [value].
  - auto.
  - destruct (nth_error s i) as [x|]; [|discriminate]. unfold item_number. destruct (blen x <=? l) eqn:E; [|discriminate]. replace (blen x <=? l') with true by lia. auto.
  - destruct (fit l (value l m s x)) as [p|] eqn:E; [|discriminate]. rewrite (A x IX p E). auto.
  - destruct (fit l (value l m s x)) as [p|] eqn:E; [|discriminate]. rewrite (A x IX p E). destruct (fit l (value l m s y)) as [q|] eqn:G; [|discriminate]. rewrite (A y IY q G). auto.
  - destruct (fit l (value l m s x)) as [p|] eqn:E; [|discriminate]. rewrite (A x IX p E). destruct (fit l (value l m s y)) as [q|] eqn:G; [|discriminate]. rewrite (A y IY q G).
    destruct (fit l (value l m s z)) as [r|] eqn:K; [|discriminate]. rewrite (A z IZ r K). auto.
  - destruct (fit l (value l m s x)) as [p|] eqn:E; [|discriminate]. rewrite (A x IX p E). destruct (p =? 0); auto.
Qed.
Lemma demand_sound self f xs fl : modest f -> operations f <= 200 -> blen xs + cells f <= 1000 -> Forall (fun x => 1 <= blen x <= 75) xs -> sized (supply xs) -> ~ flag fl P2SH -> ~ flag fl MINIMALDATA ->
  verify self (supply xs) (demand f) fl = Ok (true, IE_None) -> ref_accepts (bitcoin fl) (ref_script (supply xs)) (ref_script (demand f)).
Proof.
  intros M O R F S P FM H. apply demand_verify in H; try assumption. apply demand_bitcoin; try assumption. destruct H as (v & V & L & N). exists v.
  split; [apply (value_wider 3); [lia|exact V]|]. split; [lia|exact N].
Qed.
Lemma compile_bitcoin f s fl : modest f -> operations f <= 201 -> blen s + cells f <= 1000 ->
  ref_eval (bitcoin fl) (map ref_instr (compile 0 f)) s = match value 4 (Z.testbit fl MINIMALDATA) s f with Some v => Some (script_num v :: s) | None => None end.
Proof. apply (compile_eval (bitcoin fl)), usable_bitcoin. Qed.
Lemma compile_bytes f : modest f -> cells f <= 1000 -> exists w, wire_script (map content (compile 0 f)) w /\ blen w <= 5 + 12 * operations f.
Proof. intros M C. destruct (fine_compile f M 0 ltac:(lia)) as (_ & H). exact H. Qed.
Lemma one_of_value ns x n : Forall (fun k => Z.abs k < 2 ^ 23) ns -> item_number 3 false x = Some n -> value 3 false [x] (one_of ns) = Some (as01 (existsb (Z.eqb n) ns)).
Proof.
  intros F I. assert (S : Z.abs n <? 2 ^ (8 * 3 - 1) = true) by (apply (item_small (bitforge 0) false x n (usable_bitforge 0 ltac:(vm_compute; discriminate)) I)).
  induction F as [|k ns L F IH]; [reflexivity|]. cbn [one_of value nth_error]. rewrite I. unfold fit at 2. rewrite S. unfold fit at 2. replace (Z.abs k <? 2 ^ (8 * 3 - 1)) with true by (symmetry; apply Z.ltb_lt; exact L).
  cbn [bin_val]. rewrite IH. assert (T : forall b, fit 3 (Some (as01 b)) = Some (as01 b)) by (intros []; reflexivity). rewrite !T. cbn [existsb bin_val]. destruct (n =? k), (existsb (Z.eqb n) ns); reflexivity.
Qed.
Lemma one_of_none ns x : ns <> [] -> item_number 3 false x = None -> value 3 false [x] (one_of ns) = None.
Proof. intros N I. destruct ns as [|n ns]; [contradiction|]. cbn [one_of value nth_error]. rewrite I. reflexivity. Qed.
Lemma one_of_size ns : Forall (fun k => Z.abs k < 2 ^ 23) ns -> modest (one_of ns) /\ operations (one_of ns) = 5 * blen ns /\ cells (one_of ns) <= 2 + blen ns.
Proof.
  induction 1 as [|k ns L F (A & B & C)]; [cbn; lia|]. cbn [one_of modest operations cells]. rewrite B, blen_cons. pose proof (blen_nonneg ns).
  split; [split; [split; lia|exact A]|]. lia.
Qed.
Lemma one_of_verify self ns x fl : Forall (fun k => Z.abs k < 2 ^ 23) ns -> blen ns <= 40 -> 1 <= blen x <= 75 -> ~ flag fl P2SH -> ~ flag fl MINIMALDATA ->
  (verify self (supply [x]) (demand (one_of ns)) fl = Ok (true, IE_None) <-> exists n, item_number 3 false x = Some n /\ In n ns).
Proof.
  intros F L X P M. destruct (one_of_size ns F) as (A & B & C). pose proof (fine_script _ _ (fine_data x X) ltac:(lia)) as (_ & SZ).
  rewrite (demand_verify self (one_of ns) [x] fl A) by (try assumption; try lia; try (change (blen [x]) with 1; lia); try (constructor; [exact X|constructor])). cbn [rev app].
  destruct (item_number 3 false x) as [n|] eqn:I.
  - rewrite (one_of_value ns x n F I). split.
    + intros (v & V & _ & N). exists n. split; [reflexivity|]. assert (E : existsb (Z.eqb n) ns = true) by (destruct (existsb (Z.eqb n) ns); [reflexivity|]; unfold as01 in V; congruence).
      apply existsb_exists in E. destruct E as (k & E & K). assert (n = k) as -> by lia. exact E.
    + intros (k & E & K). assert (k = n) as -> by congruence. exists 1. split; [|lia]. replace (existsb (Z.eqb n) ns) with true; [reflexivity|]. symmetry. apply existsb_exists. exists n. split; [exact K|lia].
  - split; [|intros (n & E & _); discriminate]. intros (v & V & _ & N). destruct ns as [|n ns]; [injection V as <-; lia|]. rewrite (one_of_none (n :: ns) x ltac:(discriminate) I) in V. discriminate.
Qed.
Lemma demand_incomplete : exists f xs, modest f /\ operations f <= 200 /\ blen xs + cells f <= 1000 /\ Forall (fun x => 1 <= blen x <= 75) xs /\ sized (supply xs) /\
  ref_accepts (bitcoin 0) (ref_script (supply xs)) (ref_script (demand f)) /\ forall self, verify self (supply xs) (demand f) 0 <> Ok (true, IE_None).
Proof.
  assert (X : 1 <= blen [x00; x00; x00; x01] <= 75) by (vm_compute; intuition discriminate).
  exists (F_arg 0), [[x00; x00; x00; x01]]. split; [cbn; lia|]. split; [cbn; lia|]. split; [vm_compute; discriminate|]. split; [constructor; [exact X|constructor]|].
  destruct (fine_script _ _ (fine_data _ X) ltac:(vm_compute; discriminate)) as (_ & SZ). split; [exact SZ|]. split.
  - apply demand_bitcoin; [cbn; lia|cbn; lia|vm_compute; discriminate|constructor; [exact X|constructor]|vm_compute; discriminate|]. exists 16777216. split; [vm_compute; reflexivity|]. split; [reflexivity|discriminate].
  - intros self H. apply demand_verify in H; [|cbn; lia|cbn; lia|vm_compute; discriminate|constructor; [exact X|constructor]|exact SZ|vm_compute; discriminate|vm_compute; discriminate].
    destruct H as (v & V & _). vm_compute in V. discriminate.
Qed.
