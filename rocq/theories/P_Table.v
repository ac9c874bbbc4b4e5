(** Finite tables as scripts (lemmas). *)
From Coq Require Import ZArith Lia Bool List Strings.Byte.
From Verif Require Import Base S_Codec P_Codec P_ScriptNum M_Keys M_Script S_Script M_Interp S_Interp S_Ref P_Ref P_Local S_Formula P_Formula S_Perm P_Perm S_Table.
Import ListNotations.
Open Scope Z_scope.

Notation all_pushes D := (forall z d, d_push D z d = true).
Lemma datum_step D x s a c k : all_pushes D -> short_item x -> ref_step D (ref_instr (datum x)) (RState s a c k) = Some (RState (if on c then x :: s else s) a c k).
Proof.
  intros P L. unfold short_item in L. unfold ref_instr, datum, on. cbn [i_op i_data option_map pyb_bytes]. rewrite bZ_Zb by lia. unfold ref_step. replace (96 <? blen x) with false by lia. replace (520 <? blen x) with false by lia. cbn [andb].
  assert (Q : ref_disabled (blen x) = false) by (unfold ref_disabled; lia). rewrite Q, P. replace (blen x <=? 78) with true by lia. revert L. generalize (blen x). intros z L.
  destruct (forallb (fun b => b) c); destruct z as [|z|z]; try reflexivity; do 7 (destruct z as [z|z|]; try reflexivity; try lia).
Qed.
Lemma equal_step D x y s a c k : on c = true -> k + 1 <= 201 ->
  ref_step D (ref_instr (word x87)) (RState (y :: x :: s) a c k) = Some (RState (script_num (as01 (bytes_eqb x y)) :: s) a c (k + 1)).
Proof.
  intros C K. unfold on in C. unfold ref_step, ref_instr, word. cbn [i_op i_data option_map]. rewrite C. assert (E : 201 <? k + 1 = false) by lia. cbn -[script_num bytes_eqb]. rewrite E. reflexivity.
Qed.
Lemma return_step D s a c k : on c = true -> ref_step D (ref_instr (word x6a)) (RState s a c k) = None.
Proof.
  intros C. unfold on in C. unfold ref_step, ref_instr, word. cbn [i_op i_data option_map]. rewrite C. cbn. destruct (201 <? k + 1); reflexivity.
Qed.
(** instructions that are passed over *)
Definition quiet (i : instr) : Prop := match i_data i with Some d => blen (pyb_bytes d) <= 520 | None => True end /\ ref_disabled (bZ (i_op i)) = false /\ ~ 99 <= bZ (i_op i) <= 104.
Lemma quiet_skip D i s a c k : quiet i -> on c = false -> k + cost1 (bZ (i_op i)) <= 201 -> ref_step D (ref_instr i) (RState s a c k) = Some (RState s a c (k + cost1 (bZ (i_op i)))).
Proof.
  intros (L & DS & N) C K. unfold on in C. unfold ref_instr, ref_step, cost1 in *. set (z := bZ (i_op i)) in *.
  assert (LD : 520 <? blen (match option_map pyb_bytes (i_data i) with Some d => d | None => [] end) = false) by (destruct (i_data i); cbn [option_map]; [lia|reflexivity]). rewrite LD.
  assert (X : (96 <? z) && (201 <? (if 96 <? z then k + 1 else k)) = false) by (destruct (96 <? z); [lia|reflexivity]). rewrite X, DS, C.
  assert (E : (if 96 <? z then k + 1 else k) = k + (if 96 <? z then 1 else 0)) by (destruct (96 <? z); lia). rewrite E. clear E X K LD DS L.
  revert N. generalize z. clear z. intros z N. destruct z as [|z|z]; try reflexivity. do 7 (destruct z as [z|z|]; try reflexivity; try lia).
Qed.
Lemma ops_cons i l : ops_of (i :: l) = cost1 (bZ (i_op i)) + ops_of l.
Proof. unfold ops_of, cost1. cbn [filter]. destruct (96 <? bZ (i_op i)); [rewrite blen_cons; lia|lia]. Qed.
Lemma ops_app l r : ops_of (l ++ r) = ops_of l + ops_of r.
Proof. unfold ops_of. rewrite filter_app. unfold blen. rewrite app_length. lia. Qed.
Lemma ops_pos l : 0 <= ops_of l.
Proof. apply blen_nonneg. Qed.
Lemma quiet_run D l : Forall quiet l -> forall s a c k, on c = false -> blen s + blen a <= 1000 -> k + ops_of l <= 201 ->
  ref_run D (map ref_instr l) (RState s a c k) = Some (RState s a c (k + ops_of l)).
Proof.
  induction 1 as [|i l Q F IH]; intros s a c k C R K; [cbn; rewrite Z.add_0_r; reflexivity|]. rewrite ops_cons in *. pose proof (ops_pos l). cbn [map].
  erewrite run_next; [|apply quiet_skip; [exact Q|exact C|lia]|exact R]. rewrite IH by (try assumption; lia). do 2 f_equal. lia.
Qed.
Lemma quiet_push n : Z.abs n < 2 ^ 31 -> quiet (push_number n) /\ cost1 (bZ (i_op (push_number n))) = 0.
Proof.
  pattern n. apply forall_18; clear n.
  - intros _. vm_compute. intuition discriminate.
  - intros _. vm_compute. intuition discriminate.
  - intros n H _. revert n H. apply small_cases; vm_compute; intuition discriminate.
  - intros n N R. destruct (num_push n N R) as (L & _). unfold push_number. replace (n =? 0) with false by lia. replace (n =? -1) with false by lia. replace ((1 <=? n) && (n <=? 16)) with false by lia.
    unfold quiet, cost1. cbn [i_op i_data pyb_bytes]. rewrite bZ_Zb by lia. replace (96 <? blen (script_num n)) with false by lia. unfold ref_disabled. split; [|reflexivity]. repeat split; lia.
Qed.
Lemma quiet_datum x : short_item x -> quiet (datum x) /\ cost1 (bZ (i_op (datum x))) = 0.
Proof.
  intros L. unfold short_item in L. unfold quiet, cost1, datum. cbn [i_op i_data pyb_bytes]. rewrite bZ_Zb by lia. replace (96 <? blen x) with false by lia. unfold ref_disabled. split; [|reflexivity]. repeat split; lia.
Qed.
Lemma quiet_word o : ref_disabled (bZ o) = false -> ~ 99 <= bZ o <= 104 -> quiet (word o).
Proof. intros A B. repeat split; auto; exact I. Qed.
Ltac qw := apply quiet_word; vm_compute; intuition discriminate.
Lemma test_quiet args : Forall short_item args -> forall i, Z.of_nat (i + length args) < 2000 -> Forall quiet (test i args) /\ ops_of (test i args) = 3 * Z.of_nat (length args).
Proof.
  induction 1 as [|x r X F IH]; intros i L; cbn [test length] in *.
  - destruct (quiet_push 1 ltac:(reflexivity)) as (Q & C). split; [constructor; [exact Q|constructor]|reflexivity].
  - destruct (IH (S i) ltac:(lia)) as (Q & C). destruct (quiet_push (Z.of_nat (S i)) ltac:(lia)) as (QP & CP). destruct (quiet_datum x X) as (QD & CD). split.
    + apply Forall_app. split; [exact Q|]. repeat (apply Forall_cons); try assumption; try qw. constructor.
    + rewrite ops_app, C, !ops_cons, CP, CD. change (cost1 (bZ (i_op (word x79)))) with 1. change (cost1 (bZ (i_op (word x87)))) with 1. change (cost1 (bZ (i_op (word x9a)))) with 1. change (ops_of []) with 0. lia.
Qed.
Lemma discard_quiet n : Forall quiet (discard n) /\ ops_of (discard n) = 2 * Z.of_nat n.
Proof.
  induction n as [|n (Q & C)]; [split; [constructor|reflexivity]|]. cbn [discard app]. split; [repeat (apply Forall_cons); try assumption; qw|].
  rewrite !ops_cons, C. change (cost1 (bZ (i_op (word x76)))) with 1. change (cost1 (bZ (i_op (word x6d)))) with 1. lia.
Qed.
Lemma data_quiet o : Forall short_item o -> Forall quiet (map datum o) /\ ops_of (map datum o) = 0.
Proof.
  induction 1 as [|x o X F (Q & C)]; [split; [constructor|reflexivity]|]. destruct (quiet_datum x X) as (QD & CD). cbn [map]. split; [constructor; assumption|]. rewrite ops_cons, C, CD. reflexivity.
Qed.
Lemma body_quiet n o : Forall short_item o -> Forall quiet (discard n ++ map datum (rev o)) /\ ops_of (discard n ++ map datum (rev o)) = 2 * Z.of_nat n.
Proof.
  intros F. destruct (discard_quiet n) as (Q & C). destruct (data_quiet (rev o) (Forall_rev F)) as (Q' & C'). split; [apply Forall_app; split; assumption|]. rewrite ops_app, C, C'. lia.
Qed.
Lemma cost_cons n r t : table_cost n (r :: t) = 5 * Z.of_nat n + 3 + table_cost n t.
Proof. unfold table_cost. rewrite blen_cons. ring. Qed.
Lemma cost_pos n t : 1 <= table_cost n t.
Proof. unfold table_cost. pose proof (blen_nonneg t). nia. Qed.
Lemma table_skip D n t : table_ok n t -> (n < 1000)%nat -> forall s a c k, on c = false -> blen s + blen a <= 1000 -> k + table_cost n t <= 201 ->
  ref_run D (map ref_instr (tabulate n t)) (RState s a c k) = Some (RState s a c (k + table_cost n t)).
Proof.
  intros T NN. induction T as [|[x o] t (L & FX & FO) T IH]; intros s a c k C R K.
  - assert (E : table_cost n [] = ops_of [word x6a]) by (unfold table_cost; change (blen []) with 0; rewrite Z.mul_0_r; reflexivity). rewrite E in *. cbn [tabulate]. apply quiet_run; [constructor; [qw|constructor]|exact C|exact R|exact K].
  - cbn [fst snd] in *. rewrite cost_cons in *. pose proof (cost_pos n t). cbn [tabulate]. rewrite map_app, ref_run_app.
    destruct (test_quiet x FX 0 ltac:(lia)) as (Q1 & C1). rewrite quiet_run by (try assumption; lia). rewrite map_app. cbn [map app].
    erewrite run_next; [|apply if_skip; [exact C|lia]|exact R]. rewrite map_app, ref_run_app. destruct (body_quiet n o FO) as (Q2 & C2). rewrite quiet_run by (try assumption; try reflexivity; lia).
    cbn [map app]. erewrite run_next; [|apply else_step; lia|exact R]. rewrite map_app, ref_run_app. rewrite IH; [|cbn [on forallb negb andb]; exact C|exact R|lia].
    cbn [map]. erewrite run_next; [|apply endif_step; lia|exact R]. cbn [ref_run]. do 2 f_equal. lia.
Qed.
Definition same (x y : list bytes) : bool := if list_eq_dec (list_eq_dec byte_eq_dec) x y then true else false.
Lemma same_cons a x r y : same (a :: r) (x :: y) = bytes_eqb x a && same r y.
Proof.
  unfold same. destruct (list_eq_dec (list_eq_dec byte_eq_dec) r y) as [->|N'].
  - rewrite andb_true_r. destruct (list_eq_dec _ (a :: y) (x :: y)) as [H|N]; destruct (bytes_eqb x a) eqn:Q; try reflexivity.
    + exfalso. assert (x = a) as -> by congruence. rewrite bytes_eqb_refl in Q. discriminate Q.
    + exfalso. apply N. apply bytes_eqb_eq in Q. congruence.
  - rewrite andb_false_r. destruct (list_eq_dec _ (a :: r) (x :: y)) as [H|N]; [|reflexivity]. injection H as _ H. contradiction (N' H).
Qed.
Lemma fit01 l b : l = 3 \/ l = 4 -> fit l (Some (as01 b)) = Some (as01 b).
Proof. intros [->| ->]; destruct b; reflexivity. Qed.
Lemma test_run D a c : usable D -> all_pushes D -> on c = true -> forall r pre xs rest k, length xs = length r -> Forall short_item r -> k + 3 * Z.of_nat (length r) <= 201 ->
  blen (pre ++ xs ++ rest) + blen a + 3 <= 1000 ->
  ref_run D (map ref_instr (test (length pre) r)) (RState (pre ++ xs ++ rest) a c k) = Some (RState (script_num (as01 (same r xs)) :: pre ++ xs ++ rest) a c (k + 3 * Z.of_nat (length r))).
Proof.
  intros U P C. induction r as [|y r IH]; intros pre xs rest k L F K R; destruct xs as [|x xs]; try discriminate L.
  - cbn [test map]. erewrite run_next; [|rewrite push_step by (try assumption; lia); rewrite C; reflexivity|rewrite blen_cons; lia]. cbn [ref_run length]. rewrite Z.add_0_r. reflexivity.
  - inversion F as [|? ? Y F']; subst. cbn [length] in *. injection L as L. cbn [test]. rewrite map_app, ref_run_app. cbn [app] in R |- *.
    pose proof (IH (pre ++ [x]) xs rest k L F' ltac:(lia)) as H. rewrite <- !app_assoc in H. cbn [app] in H. specialize (H R). rewrite app_length, Nat.add_1_r in H. rewrite H. clear H IH. cbn [map app].
    set (s := pre ++ x :: xs ++ rest) in *. pose proof (blen_nonneg a).
    assert (B : Z.of_nat (S (length pre)) < 2000) by (unfold s, blen in R; rewrite app_length in R; lia).
    erewrite run_next; [|rewrite push_step by (try assumption; lia); rewrite C; reflexivity|rewrite !blen_cons; lia].
    assert (N : nth_error (script_num (as01 (same r xs)) :: s) (S (length pre)) = Some x) by (cbn [nth_error]; unfold s; rewrite nth_error_app2 by lia; rewrite Nat.sub_diag; reflexivity).
    erewrite run_next; [|rewrite pick_step by (try assumption; lia); rewrite N; reflexivity|rewrite !blen_cons; lia].
    erewrite run_next; [|rewrite datum_step by assumption; rewrite C; reflexivity|rewrite !blen_cons; lia].
    erewrite run_next; [|apply equal_step; [exact C|lia]|rewrite !blen_cons; lia].
    erewrite run_next; [|change x9a with (bin_code B_and); rewrite bin_step by (try assumption; lia); rewrite !fit01 by exact (proj1 U); reflexivity|rewrite !blen_cons; lia].
    cbn [ref_run]. rewrite same_cons. do 2 f_equal; [|lia]. f_equal. f_equal. cbn [bin_val]. destruct (same r xs), (bytes_eqb x y); reflexivity.
Qed.
Lemma discard_run D a c rest : on c = true -> forall xs k, k + 2 * Z.of_nat (length xs) <= 201 -> blen xs + blen rest + blen a + 1 <= 1000 ->
  ref_run D (map ref_instr (discard (length xs))) (RState (xs ++ rest) a c k) = Some (RState rest a c (k + 2 * Z.of_nat (length xs))).
Proof.
  intros C. induction xs as [|x xs IH]; intros k K R; [cbn; rewrite Z.add_0_r; reflexivity|]. cbn [length discard app map] in *. rewrite blen_cons in R.
  assert (B : blen (xs ++ rest) = blen xs + blen rest) by (unfold blen; rewrite app_length; lia).
  erewrite run_next; [|apply dup_step; [exact C|lia]|rewrite !blen_cons; lia]. erewrite run_next; [|apply drop2_step; [exact C|lia]|lia]. rewrite IH by lia. do 2 f_equal. lia.
Qed.
Lemma data_run D a c : all_pushes D -> on c = true -> forall o s k, Forall short_item o -> blen o + blen s + blen a <= 1000 ->
  ref_run D (map ref_instr (map datum o)) (RState s a c k) = Some (RState (rev o ++ s) a c k).
Proof.
  intros P C. induction o as [|x o IH]; intros s k F R; [reflexivity|]. inversion F; subst. cbn [map]. rewrite blen_cons in R. pose proof (blen_nonneg o).
  erewrite run_next; [|rewrite datum_step by assumption; rewrite C; reflexivity|rewrite blen_cons; lia]. rewrite IH by (try assumption; rewrite blen_cons; lia). cbn [rev]. rewrite <- app_assoc. reflexivity.
Qed.
Lemma table_run D n t : usable D -> all_pushes D -> table_ok n t -> forall xs rest a c k, length xs = n -> on c = true -> k + table_cost n t <= 201 ->
  blen xs + blen rest + blen a + 3 <= 1000 -> (forall o, lookup t xs = Some o -> blen o + blen rest + blen a <= 1000) ->
  ref_run D (map ref_instr (tabulate n t)) (RState (xs ++ rest) a c k) = match lookup t xs with Some o => Some (RState (o ++ rest) a c (k + table_cost n t)) | None => None end.
Proof.
  intros U P T. induction T as [|[y o] t (L & FX & FO) T IH]; intros xs rest a c k LX C K R RO.
  - cbn [tabulate map lookup]. apply run_none. apply return_step, C.
  - cbn [fst snd] in *. rewrite cost_cons in *. pose proof (cost_pos n t). assert (NN : (n < 1000)%nat) by (unfold blen in R; lia).
    assert (B : blen (xs ++ rest) = blen xs + blen rest) by (unfold blen; rewrite app_length; lia). pose proof (blen_nonneg rest). pose proof (blen_nonneg xs). pose proof (blen_nonneg a).
    cbn [tabulate]. rewrite map_app, ref_run_app. pose proof (test_run D a c U P C y [] xs rest k ltac:(lia) FX ltac:(lia)) as H3. cbn [app length] in H3. rewrite H3 by lia. clear H3. rewrite map_app. cbn [map app].
    assert (LK : lookup ((y, o) :: t) xs = if same y xs then Some o else lookup t xs) by (cbn [lookup]; unfold same; destruct (list_eq_dec _ y xs); reflexivity). rewrite LK in *. clear LK.
    erewrite run_next; [|apply if_step; [exact U|exact C|lia|destruct (same y xs); cbn; auto]|lia]. destruct (body_quiet n o FO) as (Q2 & C2). rewrite map_app, ref_run_app.
    destruct (same y xs); cbn [as01]; [change (1 =? 1) with true|change (0 =? 1) with false].
    + specialize (RO o eq_refl). rewrite map_app, ref_run_app. replace (discard n) with (discard (length xs)) by (rewrite LX; reflexivity). rewrite discard_run; [|cbn [on forallb]; exact C|lia|lia].
      rewrite data_run; [|exact P|cbn [on forallb]; exact C|apply Forall_rev, FO|rewrite blen_rev; lia]. rewrite rev_involutive.
      assert (BO : blen (o ++ rest) = blen o + blen rest) by (unfold blen; rewrite app_length; lia).
      cbn [map app]. erewrite run_next; [|apply else_step; lia|lia]. rewrite map_app, ref_run_app. rewrite table_skip; [|exact T|exact NN|reflexivity|lia|lia].
      cbn [map]. erewrite run_next; [|apply endif_step; lia|lia]. cbn [ref_run]. do 2 f_equal. lia.
    + rewrite quiet_run; [|exact Q2|reflexivity|lia|lia]. cbn [map app]. erewrite run_next; [|apply else_step; lia|lia]. rewrite map_app, ref_run_app.
      rewrite IH; [|exact LX|cbn [on forallb negb]; exact C|lia|lia|exact RO]. destruct (lookup t xs) as [o'|]; [|reflexivity]. specialize (RO o' eq_refl).
      assert (BO : blen (o' ++ rest) = blen o' + blen rest) by (unfold blen; rewrite app_length; lia).
      cbn [map]. erewrite run_next; [|apply endif_step; lia|lia]. cbn [ref_run]. do 2 f_equal. lia.
Qed.
Lemma fine_datums o : Forall short_item o -> fine (map datum o) (76 * blen o).
Proof.
  induction 1 as [|x o X F IH]; [split; [constructor|]; exists []; split; [constructor|vm_compute; discriminate]|]. cbn [map]. rewrite blen_cons. unfold short_item in X.
  apply (fine_le _ (1 + blen x + 76 * blen o)); [|lia]. change (datum x :: map datum o) with ([datum x] ++ map datum o). apply fine_app; [exact (fine_data x X)|exact IH].
Qed.
Lemma fine_test args : Forall short_item args -> forall i, Z.of_nat (i + length args) < 2000 -> fine (test i args) (5 + 84 * Z.of_nat (length args)).
Proof.
  induction 1 as [|x r X F IH]; intros i L; cbn [test length] in *; [apply (fine_push 1); reflexivity|]. unfold short_item in X.
  apply (fine_le _ ((5 + 84 * Z.of_nat (length r)) + (5 + (1 + ((1 + blen x) + (1 + 1)))))); [|lia]. apply fine_app; [apply IH; lia|].
  change [push_number (Z.of_nat (S i)); word x79; datum x; word x87; word x9a] with ([push_number (Z.of_nat (S i))] ++ [word x79] ++ [datum x] ++ [word x87] ++ [word x9a]).
  apply fine_app; [apply fine_push; lia|]. apply fine_app; [apply fine_other; auto|]. apply fine_app; [exact (fine_data x X)|]. apply fine_app; apply fine_word; vm_compute; intuition discriminate.
Qed.
Lemma fine_discard n : fine (discard n) (2 * Z.of_nat n).
Proof.
  induction n as [|n IH]; [split; [constructor|]; exists []; split; [constructor|vm_compute; discriminate]|]. cbn [discard].
  apply (fine_le _ ((1 + 1) + 2 * Z.of_nat n)); [|lia]. apply fine_app; [|exact IH]. change [word x76; word x6d] with ([word x76] ++ [word x6d]). apply fine_app; apply fine_word; vm_compute; intuition discriminate.
Qed.
Lemma fine_table n t : table_ok n t -> (n < 1000)%nat -> fine (tabulate n t) (18 * table_cost n t + 76 * results t).
Proof.
  intros T NN. induction T as [|[x o] t (L & FX & FO) T IH].
  - cbn [tabulate results]. apply (fine_le _ 1); [apply fine_word; vm_compute; intuition discriminate|]. pose proof (cost_pos n []). lia.
  - cbn [fst snd] in *. rewrite cost_cons. cbn [tabulate results].
    apply (fine_le _ ((5 + 84 * Z.of_nat (length x)) + (1 + ((2 * Z.of_nat n + 76 * blen (rev o)) + (1 + ((18 * table_cost n t + 76 * results t) + 1)))))); [|rewrite blen_rev; lia].
    apply fine_app; [apply fine_test; [exact FX|lia]|]. apply fine_app; [apply fine_other; auto|]. apply fine_app; [apply fine_app; [apply fine_discard|apply fine_datums, Forall_rev, FO]|].
    apply fine_app; [apply fine_other; auto|]. apply fine_app; [exact IH|apply fine_other; auto].
Qed.
Lemma table_bytes n t : table_ok n t -> (n < 1000)%nat -> exists w, wire_script (map content (tabulate n t)) w /\ blen w <= 18 * table_cost n t + 76 * results t.
Proof. intros T N. exact (proj2 (fine_table n t T N)). Qed.
Lemma table_eval D n t xs rest : usable D -> all_pushes D -> table_ok n t -> length xs = n -> table_cost n t <= 201 ->
  blen xs + blen rest + 3 <= 1000 -> (forall o, lookup t xs = Some o -> blen o + blen rest <= 1000) ->
  ref_eval D (map ref_instr (tabulate n t)) (xs ++ rest) = match lookup t xs with Some o => Some (o ++ rest) | None => None end.
Proof.
  intros U P T L K R RO. unfold ref_eval. assert (RO' : forall o, lookup t xs = Some o -> blen o + blen rest + blen (@nil bytes) <= 1000) by (intros o E; specialize (RO o E); change (blen (@nil bytes)) with 0; lia).
  rewrite (table_run D n t U P T xs rest [] [] 0 L eq_refl ltac:(lia) ltac:(change (blen (@nil bytes)) with 0; lia) RO'). destruct (lookup t xs) as [o|]; [|reflexivity]. cbn [r_cond r_main].
  specialize (RO o eq_refl). unfold in_limit. cbn [r_main r_alt]. replace (blen (o ++ rest) + blen [] <=? 1000) with true; [reflexivity|]. symmetry. apply Z.leb_le. unfold blen in *. rewrite app_length. cbn [length]. lia.
Qed.
Lemma bitforge_pushes fl : ~ flag fl MINIMALDATA -> all_pushes (bitforge fl).
Proof. intros FM z d. unfold bitforge, d_push. unfold flag in FM. destruct (Z.testbit fl MINIMALDATA); [contradiction FM; reflexivity|reflexivity]. Qed.
Lemma bitcoin_pushes fl : ~ flag fl MINIMALDATA -> all_pushes (bitcoin fl).
Proof. intros FM z d. unfold bitcoin, d_push. unfold flag in FM. destruct (Z.testbit fl MINIMALDATA); [contradiction FM; reflexivity|reflexivity]. Qed.
Lemma table_evaluate n t xs rest stack fl : table_ok n t -> length xs = n -> table_cost n t <= 201 -> 18 * table_cost n t + 76 * results t <= 10000 ->
  rev (map pyb_bytes stack) = xs ++ rest -> Forall numeric_type stack -> blen stack + 3 <= 1000 -> (forall o, lookup t xs = Some o -> blen o + blen rest <= 1000) -> ~ flag fl MINIMALDATA -> forall s,
  (exists st, evaluate (ready (Script None (tabulate n t)) stack fl) = Ok (Next st) /\ rev (map pyb_bytes (s_stack st)) = s) <-> exists o, lookup t xs = Some o /\ s = o ++ rest.
Proof.
  intros T L K B E N R RO FM s. assert (BS : blen stack = blen xs + blen rest) by (rewrite <- (blen_map pyb_bytes stack), <- blen_rev, E; unfold blen; rewrite app_length; lia). pose proof (blen_nonneg rest).
  destruct (fine_script _ _ (fine_table n t T ltac:(unfold blen in *; lia)) B) as (RD & SZ). destruct (evaluate_ref (Script None (tabulate n t)) stack fl RD N) as (_ & HE). rewrite (HE s). unfold ref_script. cbn [s_ins].
  rewrite E, (table_eval (bitforge fl) n t xs rest (usable_bitforge fl FM) (bitforge_pushes fl FM) T L K ltac:(lia) RO). destruct (lookup t xs) as [o|].
  - split; [intros (_ & Q); exists o; split; [reflexivity|congruence]|]. intros (o' & Q & ->). split; [exact SZ|congruence].
  - split; [intros (_ & Q); discriminate|]. intros (o' & Q & _). discriminate.
Qed.
Lemma table_bitcoin n t xs rest fl : table_ok n t -> length xs = n -> table_cost n t <= 201 -> blen xs + blen rest + 3 <= 1000 -> (forall o, lookup t xs = Some o -> blen o + blen rest <= 1000) -> ~ flag fl MINIMALDATA ->
  ref_eval (bitcoin fl) (map ref_instr (tabulate n t)) (xs ++ rest) = match lookup t xs with Some o => Some (o ++ rest) | None => None end.
Proof. intros T L K R RO FM. exact (table_eval (bitcoin fl) n t xs rest (usable_bitcoin fl) (bitcoin_pushes fl FM) T L K R RO). Qed.

(** exactly the listed pushes *)
Definition rows (l : list (list bytes)) : table := map (fun a => (rev a, [[x01]])) l.
Lemma rows_ok n l : Forall (fun a => length a = n /\ Forall short_item a) l -> table_ok n (rows l).
Proof.
  intros F. unfold table_ok, rows. apply Forall_map. refine (Forall_impl _ _ F). intros a (L & S). cbn [fst snd]. rewrite rev_length. split; [exact L|]. split; [apply Forall_rev, S|].
  constructor; [|constructor]. unfold short_item. vm_compute. intuition discriminate.
Qed.
Lemma rows_lookup l ys : lookup (rows l) (rev ys) = if in_dec (list_eq_dec (list_eq_dec byte_eq_dec)) ys l then Some [[x01]] else None.
Proof.
  induction l as [|a l IH]; [reflexivity|]. cbn [rows map lookup]. fold (rows l). rewrite IH. destruct (list_eq_dec _ (rev a) (rev ys)) as [E|E].
  - apply (f_equal (@rev bytes)) in E. rewrite !rev_involutive in E. subst a. destruct (in_dec _ ys (ys :: l)) as [|N]; [reflexivity|]. contradiction N. left. reflexivity.
  - destruct (in_dec _ ys l) as [I|I], (in_dec _ ys (a :: l)) as [J|J]; try reflexivity; [contradiction J; right; exact I|]. destruct J as [->|J]; [contradiction E; reflexivity|contradiction (I J)].
Qed.
Lemma rows_sizes n l : table_cost n (rows l) <= 201 -> results (rows l) = blen l /\ blen (rows l) = blen l /\ 18 * table_cost n (rows l) + 76 * results (rows l) <= 10000.
Proof.
  intros K. assert (RS : results (rows l) = blen l) by (clear K; induction l as [|a l IH]; [reflexivity|]; cbn [rows map results]; fold (rows l); rewrite IH, (blen_cons a); change (blen [[x01]]) with 1; lia).
  assert (BL : blen (rows l) = blen l) by (unfold rows; apply blen_map). split; [exact RS|]. split; [exact BL|]. rewrite RS. unfold table_cost in *. rewrite BL in *. pose proof (blen_nonneg l). nia.
Qed.
Lemma only_accepts D n l ys : usable D -> all_pushes D -> d_true D [x01] = true -> Forall (fun a => length a = n /\ Forall short_item a) l -> table_cost n (rows l) <= 201 -> (n <= 997)%nat ->
  length ys = n -> Forall short_item ys -> ref_accepts D (ref_script (supply ys)) (ref_script (only n l)) <-> In ys l.
Proof.
  intros U P TR F K NN L S. unfold ref_accepts. rewrite (supply_eval D ys P S) by (unfold blen; lia). unfold ref_script, only. cbn [s_ins]. fold (rows l).
  pose proof (table_eval D n (rows l) (rev ys) [] U P (rows_ok n l F) ltac:(rewrite rev_length; exact L) K ltac:(rewrite blen_rev; change (blen (@nil bytes)) with 0; unfold blen; lia)) as T. rewrite app_nil_r in T. rewrite rows_lookup in T.
  assert (Q : ref_eval D (map ref_instr (tabulate n (rows l))) (rev ys) = if in_dec (list_eq_dec (list_eq_dec byte_eq_dec)) ys l then Some [[x01]] else None).
  { rewrite T; [destruct (in_dec _ ys l); [rewrite app_nil_r|]; reflexivity|]. intros o. destruct (in_dec _ ys l); [|discriminate]. intros [= <-]. vm_compute. discriminate. }
  destruct (in_dec _ ys l) as [I|I].
  - split; [auto|]. intros _. exists (rev ys), [x01], []. auto.
  - split; [|contradiction]. intros (s & x & t & E & H & _). assert (s = rev ys) as -> by congruence. congruence.
Qed.
Lemma only_verify self n l ys fl : Forall (fun a => length a = n /\ Forall short_item a) l -> (5 * Z.of_nat n + 3) * blen l + 1 <= 201 -> (n <= 997)%nat -> length ys = n -> Forall short_item ys ->
  sized (supply ys) -> ~ flag fl P2SH -> ~ flag fl MINIMALDATA -> (verify self (supply ys) (only n l) fl = Ok (true, IE_None) <-> In ys l).
Proof.
  intros F K NN L S SZ FP FM. assert (K' : table_cost n (rows l) <= 201) by (unfold table_cost, rows; rewrite blen_map; exact K). destruct (rows_sizes n l K') as (_ & _ & B).
  destruct (fine_script _ _ (fine_table n (rows l) (rows_ok n l F) ltac:(lia)) B) as (RD & SD). rewrite (verify_ref self _ _ fl (supply_readable ys S) RD).
  rewrite (only_accepts (bitforge fl) n l ys (usable_bitforge fl FM) (bitforge_pushes fl FM) eq_refl F K' NN L S). split; [tauto|]. intros H. repeat split; try assumption.
  intros _. unfold supply. cbn [s_ins]. apply Forall_map. refine (Forall_impl _ _ S). intros x X. unfold short_item in X. cbn [i_op]. rewrite bZ_Zb by lia. lia.
Qed.
Lemma only_bitcoin n l ys fl : Forall (fun a => length a = n /\ Forall short_item a) l -> (5 * Z.of_nat n + 3) * blen l + 1 <= 201 -> (n <= 997)%nat -> length ys = n -> Forall short_item ys ->
  ~ flag fl MINIMALDATA -> (ref_accepts (bitcoin fl) (ref_script (supply ys)) (ref_script (only n l)) <-> In ys l).
Proof.
  intros F K NN L S FM. assert (K' : table_cost n (rows l) <= 201) by (unfold table_cost, rows; rewrite blen_map; exact K).
  exact (only_accepts (bitcoin fl) n l ys (usable_bitcoin fl) (bitcoin_pushes fl FM) eq_refl F K' NN L S).
Qed.
