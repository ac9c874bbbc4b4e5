(** Scripts that rearrange the stack (lemmas). *)
From Coq Require Import ZArith Lia Bool List.
From Verif Require Import Base S_Codec P_ScriptNum M_Keys M_Script S_Script M_Interp S_Interp S_Ref P_Ref P_Local S_Peep P_PeepW P_PeepT S_Formula P_Formula S_Perm.
Import ListNotations.
Open Scope Z_scope.

Lemma roll_step D d s a c k : usable D -> on c = true -> k + 1 <= 201 -> Z.of_nat d < 2 ^ 23 ->
  ref_step D (ref_instr (word x7a)) (RState (script_num (Z.of_nat d) :: s) a c k) =
  match nth_error s d with Some x => Some (RState (x :: firstn d s ++ skipn (S d) s) a c (k + 1)) | None => None end.
Proof.
  intros U C K R. unfold on in C. unfold ref_step, ref_instr, word. cbn [i_op i_data option_map]. rewrite C. assert (E : 201 <? k + 1 = false) by lia.
  cbn -[script_num fit operand_of Z.to_nat Z.of_nat nth_error firstn skipn]. rewrite E. unfold operand_of. rewrite (operand_num D _ _ U). unfold fit.
  assert (L : Z.abs (Z.of_nat d) <? 2 ^ (8 * d_limit D - 1) = true) by (destruct U as ([->| ->] & _); change (2 ^ (8 * 3 - 1)) with (2 ^ 23); change (2 ^ (8 * 4 - 1)) with (2 ^ 31); lia).
  rewrite L. replace (Z.of_nat d <? 0) with false by lia. rewrite Nat2Z.id. destruct s as [|y s]; [destruct d; reflexivity|]. cbn [need2]. destruct (nth_error (y :: s) d); reflexivity.
Qed.
Lemma dup_step D x s a c k : on c = true -> k + 1 <= 201 -> ref_step D (ref_instr (word x76)) (RState (x :: s) a c k) = Some (RState (x :: x :: s) a c (k + 1)).
Proof.
  intros C K. unfold on in C. unfold ref_step, ref_instr, word. cbn [i_op i_data option_map]. rewrite C. assert (E : 201 <? k + 1 = false) by lia. cbn. rewrite E. reflexivity.
Qed.
Lemma drop2_step D x y s a c k : on c = true -> k + 1 <= 201 -> ref_step D (ref_instr (word x6d)) (RState (x :: y :: s) a c k) = Some (RState s a c (k + 1)).
Proof.
  intros C K. unfold on in C. unfold ref_step, ref_instr, word. cbn [i_op i_data option_map]. rewrite C. assert (E : 201 <? k + 1 = false) by lia. cbn. rewrite E. reflexivity.
Qed.
Lemma select_length {A} (d : A) items sel : length (select d items sel) = length sel.
Proof. apply map_length. Qed.
Lemma copies_run D items rest a c : usable D -> on c = true -> forall sel k, Forall (fun i => (i < length items)%nat) sel -> k + Z.of_nat (length sel) <= 201 ->
  blen items + blen rest + blen a + Z.of_nat (length sel) + 1 <= 1000 ->
  ref_run D (map ref_instr (copies sel)) (RState (items ++ rest) a c k) = Some (RState (select [] items sel ++ items ++ rest) a c (k + Z.of_nat (length sel))).
Proof.
  intros U C. induction sel as [|x sel IH]; intros k F K R; [cbn; rewrite Z.add_0_r; reflexivity|]. inversion F as [|? ? X F']; subst. cbn [length] in K, R. cbn [copies]. rewrite map_app, ref_run_app, IH by (assumption || lia). cbn [map].
  pose proof (select_length [] items sel) as SL.
  assert (B : blen (select [] items sel ++ items ++ rest) = Z.of_nat (length sel) + blen items + blen rest) by (unfold blen; rewrite !app_length, SL; lia).
  pose proof (blen_nonneg rest). pose proof (blen_nonneg a).
  assert (XB : Z.of_nat (length sel + x) < 2000) by (unfold blen in *; lia).
  erewrite run_next; [|rewrite push_step by (try assumption; lia); rewrite C; reflexivity|rewrite blen_cons; lia].
  assert (N : nth_error (select [] items sel ++ items ++ rest) (length sel + x) = Some (nth x items [])).
  { rewrite nth_error_app2 by lia. replace (length sel + x - length (select [] items sel))%nat with x by lia. rewrite nth_error_app1 by lia. apply nth_error_nth'. exact X. }
  erewrite run_next; [|rewrite pick_step by (try assumption; lia); rewrite N; reflexivity|rewrite blen_cons; lia].
  cbn [ref_run select map length app]. do 2 f_equal. lia.
Qed.
Lemma remove_run D rest a c : usable D -> on c = true -> forall items out k, k + 3 * Z.of_nat (length items) <= 201 -> blen out + blen items + blen rest + blen a + 1 <= 1000 ->
  ref_run D (map ref_instr (remove (length out) (length items))) (RState (out ++ items ++ rest) a c k) = Some (RState (out ++ rest) a c (k + 3 * Z.of_nat (length items))).
Proof.
  intros U C. induction items as [|x items IH]; intros out k K R; [cbn [length remove map ref_run app]; rewrite Z.mul_0_r, Z.add_0_r; reflexivity|]. cbn [length remove] in *. rewrite map_app, ref_run_app. cbn [map].
  rewrite blen_cons in R. pose proof (blen_nonneg rest). pose proof (blen_nonneg a). pose proof (blen_nonneg items). pose proof (blen_nonneg out).
  assert (B : blen (out ++ (x :: items) ++ rest) = blen out + 1 + blen items + blen rest) by (unfold blen; rewrite !app_length; cbn [length]; lia).
  assert (B' : blen (out ++ items ++ rest) = blen out + blen items + blen rest) by (unfold blen; rewrite !app_length; lia).
  assert (XB : Z.of_nat (length out) < 2000) by (unfold blen in *; lia).
  erewrite run_next; [|rewrite push_step by (try assumption; lia); rewrite C; reflexivity|rewrite blen_cons; lia].
  assert (N : nth_error (out ++ (x :: items) ++ rest) (length out) = Some x) by (rewrite nth_error_app2 by lia; rewrite Nat.sub_diag; reflexivity).
  assert (Q : firstn (length out) (out ++ (x :: items) ++ rest) ++ skipn (S (length out)) (out ++ (x :: items) ++ rest) = out ++ items ++ rest).
  { rewrite firstn_app, Nat.sub_diag, firstn_all, firstn_O, app_nil_r. f_equal. replace (S (length out)) with (length out + 1)%nat by lia. rewrite skipn_app.
    rewrite skipn_all2 by lia. replace (length out + 1 - length out)%nat with 1%nat by lia. reflexivity. }
  erewrite run_next; [|rewrite roll_step by (try assumption; lia); rewrite N, Q; reflexivity|rewrite blen_cons; lia].
  erewrite run_next; [|apply dup_step; [exact C|lia]|rewrite !blen_cons; lia].
  erewrite run_next; [|apply drop2_step; [exact C|lia]|lia].
  cbn [ref_run]. rewrite IH by (try assumption; lia). do 2 f_equal. lia.
Qed.
Lemma arrange_run D sel items rest a c k : usable D -> on c = true -> Forall (fun i => (i < length items)%nat) sel -> k + arrange_cost (length items) sel <= 201 ->
  blen items + blen rest + blen a + Z.of_nat (length sel) + 1 <= 1000 ->
  ref_run D (map ref_instr (arrange (length items) sel)) (RState (items ++ rest) a c k) = Some (RState (select [] items sel ++ rest) a c (k + arrange_cost (length items) sel)).
Proof.
  intros U C F K R. unfold arrange_cost in *. unfold arrange. rewrite map_app, ref_run_app, copies_run by (try assumption; lia).
  rewrite <- (select_length [] items sel) at 1. rewrite remove_run; [do 2 f_equal; lia|assumption|assumption|lia|]. unfold blen in *. rewrite select_length. lia.
Qed.
Lemma fine_copies sel : Forall (fun i => (i < 2000)%nat) sel -> (length sel <= 2000)%nat -> fine (copies sel) (6 * Z.of_nat (length sel)).
Proof.
  induction 1 as [|x sel X F IH]; intros L; [split; [constructor|]; exists []; split; [constructor|vm_compute; discriminate]|]. cbn [length] in L. cbn [copies length].
  apply (fine_le _ (6 * Z.of_nat (length sel) + (5 + 1))); [|lia]. apply fine_app; [apply IH; lia|].
  change [push_number (Z.of_nat (length sel + x)); word x79] with ([push_number (Z.of_nat (length sel + x))] ++ [word x79]). apply fine_app; [apply fine_push; lia|apply fine_other; auto].
Qed.
Lemma fine_remove m n : (m <= 2000)%nat -> fine (remove m n) (8 * Z.of_nat n).
Proof.
  intros M. induction n as [|n IH]; [split; [constructor|]; exists []; split; [constructor|vm_compute; discriminate]|]. cbn [remove].
  apply (fine_le _ ((5 + (1 + (1 + 1))) + 8 * Z.of_nat n)); [|lia]. apply fine_app; [|exact IH].
  change [push_number (Z.of_nat m); word x7a; word x76; word x6d] with ([push_number (Z.of_nat m)] ++ [word x7a] ++ [word x76] ++ [word x6d]). apply fine_app; [apply fine_push; lia|].
  apply fine_app; [apply fine_word; vm_compute; intuition discriminate|]. apply fine_app; apply fine_word; vm_compute; intuition discriminate.
Qed.
Lemma fine_arrange n sel : Forall (fun i => (i < n)%nat) sel -> arrange_cost n sel <= 201 -> fine (arrange n sel) (6 * arrange_cost n sel).
Proof.
  intros F C. unfold arrange_cost in *. unfold arrange. apply (fine_le _ (6 * Z.of_nat (length sel) + 8 * Z.of_nat n)); [|lia]. apply fine_app; [apply fine_copies; [|lia]|apply fine_remove; lia].
  apply (Forall_impl _ (fun i (H : (i < n)%nat) => (ltac:(lia) : (i < 2000)%nat)) F).
Qed.
Lemma arrange_eval D sel items rest : usable D -> Forall (fun i => (i < length items)%nat) sel -> arrange_cost (length items) sel <= 201 ->
  blen items + blen rest + Z.of_nat (length sel) + 1 <= 1000 ->
  ref_eval D (map ref_instr (arrange (length items) sel)) (items ++ rest) = Some (select [] items sel ++ rest).
Proof.
  intros U F K R. unfold ref_eval. rewrite arrange_run; [|exact U|reflexivity|exact F|lia|change (blen []) with 0; lia]. cbn [r_cond r_main]. unfold in_limit. cbn [r_main r_alt].
  replace (blen (select [] items sel ++ rest) + blen [] <=? 1000) with true; [reflexivity|]. symmetry. apply Z.leb_le. unfold blen in *. rewrite app_length, select_length. cbn [length]. lia.
Qed.
Lemma arrange_evaluate sel items rest stack fl : Forall (fun i => (i < length items)%nat) sel -> arrange_cost (length items) sel <= 201 ->
  blen stack + Z.of_nat (length sel) + 1 <= 1000 -> ~ flag fl MINIMALDATA -> Forall numeric_type stack -> rev (map pyb_bytes stack) = items ++ rest ->
  exists st, evaluate (ready (Script None (arrange (length items) sel)) stack fl) = Ok (Next st) /\ rev (map pyb_bytes (s_stack st)) = select [] items sel ++ rest.
Proof.
  intros F K R FM N E. destruct (fine_script _ _ (fine_arrange _ sel F K) ltac:(lia)) as (RD & SZ).
  destruct (evaluate_ref (Script None (arrange (length items) sel)) stack fl RD N) as (_ & H). apply H. split; [exact SZ|]. rewrite E. apply arrange_eval; [apply usable_bitforge, FM|exact F|exact K|].
  assert (blen stack = blen items + blen rest); [|lia]. rewrite <- (blen_map pyb_bytes stack), <- blen_rev, E. unfold blen. rewrite app_length. lia.
Qed.

(** the number of operations so far does not matter while there is room *)
Definition shift (j : Z) (st : rstate) : rstate := RState (r_main st) (r_alt st) (r_cond st) (r_ops st + j).
Definition opt_shift (j : Z) (o : option rstate) : option rstate := match o with Some st => Some (shift j st) | None => None end.
Definition cost1 (z : Z) : Z := if 96 <? z then 1 else 0.
Lemma exec_shift D z s a c k j : z <> 174 -> z <> 175 -> ref_exec D z (RState s a c (k + j)) = opt_shift j (ref_exec D z (RState s a c k)).
Proof.
  intros N N'.
  assert (W : forall q, (match ref_word D z s with Some s => Some (RState s a c (q + j)) | None => None end) = opt_shift j (match ref_word D z s with Some s => Some (RState s a c q) | None => None end)) by (intros q; destruct (ref_word D z s); reflexivity).
  unfold ref_exec. destruct (Z.eq_dec z 107) as [-> |N1]; [destruct s; reflexivity|]. destruct (Z.eq_dec z 108) as [-> |N2]; [destruct a; reflexivity|].
  destruct z as [|z|z]; try apply W. do 8 (destruct z as [z|z|]; try apply W; try congruence).
Qed.
Lemma step_shift D z d s a c k j : z <> 174 -> z <> 175 -> 0 <= j -> k + cost1 z + j <= 201 ->
  ref_step D (z, d) (RState s a c (k + j)) = opt_shift j (ref_step D (z, d) (RState s a c k)) /\ (forall st, ref_step D (z, d) (RState s a c k) = Some st -> r_ops st = k + cost1 z).
Proof.
  intros N N' J K. unfold cost1 in K |- *. unfold ref_step. set (k1 := if 96 <? z then k + 1 else k).
  assert (E : (if 96 <? z then k + j + 1 else k + j) = k1 + j) by (unfold k1; destruct (96 <? z); lia). rewrite E.
  assert (L : (96 <? z) && (201 <? k1 + j) = false) by (unfold k1; destruct (96 <? z); [|reflexivity]; apply andb_false_intro2; lia).
  assert (L' : (96 <? z) && (201 <? k1) = false) by (unfold k1; destruct (96 <? z); [|reflexivity]; apply andb_false_intro2; lia).
  assert (V : k1 = k + (if 96 <? z then 1 else 0)) by (unfold k1; destruct (96 <? z); lia). rewrite <- V. clear V K E.
  rewrite L, L'. destruct (520 <? blen _); [split; [reflexivity|discriminate]|]. destruct (ref_disabled z); [split; [reflexivity|discriminate]|].
  assert (X : forall st, ref_exec D z (RState s a c k1) = Some st -> r_ops st = k1).
  { intros st. unfold ref_exec. assert (W : (match ref_word D z s with Some s => Some (RState s a c k1) | None => None end) = Some st -> r_ops st = k1) by (destruct (ref_word D z s); [intros [= <-]; reflexivity|discriminate]).
    destruct (Z.eq_dec z 107) as [-> |N1]; [destruct s; [discriminate|intros [= <-]; reflexivity]|]. destruct (Z.eq_dec z 108) as [-> |N2]; [destruct a; [discriminate|intros [= <-]; reflexivity]|].
    destruct z as [|z|z]; try exact W. do 8 (destruct z as [z|z|]; try exact W; try congruence). }
  pose proof (exec_shift D z s a c k1 j N N') as Y. set (g := forallb (fun b => b) c) in *.
  assert (Dflt : let r q := if g then (if z <=? 78 then (if d_push D z (match d with Some d => d | None => [] end) then Some (RState ((match d with Some d => d | None => [] end) :: s) a c q) else None) else ref_exec D z (RState s a c q)) else Some (RState s a c q) in
     r (k1 + j) = opt_shift j (r k1) /\ (forall st, r k1 = Some st -> r_ops st = k1)).
  { cbv zeta. destruct g; [|split; [reflexivity|intros st [= <-]; reflexivity]]. destruct (z <=? 78); [|split; [exact Y|exact X]].
    destruct (d_push D z _); split; try reflexivity; try discriminate. intros st [= <-]. reflexivity. }
  cbv zeta in Dflt. clear X Y L L'.
  destruct (Z.eq_dec z 99) as [-> |]; [destruct g, s; cbn; (split; [reflexivity|]); try discriminate; intros st [= <-]; reflexivity|].
  destruct (Z.eq_dec z 100) as [-> |]; [destruct g, s; cbn; (split; [reflexivity|]); try discriminate; intros st [= <-]; reflexivity|].
  destruct (Z.eq_dec z 101) as [-> |]; [split; [reflexivity|discriminate]|]. destruct (Z.eq_dec z 102) as [-> |]; [split; [reflexivity|discriminate]|].
  destruct (Z.eq_dec z 103) as [-> |]; [destruct c; (split; [reflexivity|]); try discriminate; intros st [= <-]; reflexivity|].
  destruct (Z.eq_dec z 104) as [-> |]; [destruct c; (split; [reflexivity|]); try discriminate; intros st [= <-]; reflexivity|].
  destruct z as [|z|z]; try exact Dflt. do 7 (destruct z as [z|z|]; try exact Dflt; try congruence).
Qed.
Lemma run_shift D j l : 0 <= j -> no_multisig l -> forall s a c k, k + ops_of l + j <= 201 ->
  ref_run D (map ref_instr l) (RState s a c (k + j)) = opt_shift j (ref_run D (map ref_instr l) (RState s a c k)).
Proof.
  intros J. induction 1 as [|i l (N & N') F IH]; intros s a c k K; [reflexivity|]. cbn [map ref_run].
  assert (O : ops_of (i :: l) = cost1 (bZ (i_op i)) + ops_of l) by (unfold ops_of, cost1; cbn [filter]; destruct (96 <? bZ (i_op i)); [rewrite blen_cons; lia|lia]). rewrite O in K.
  assert (0 <= ops_of l) by apply blen_nonneg.
  destruct (step_shift D (bZ (i_op i)) (option_map pyb_bytes (i_data i)) s a c k j N N' J ltac:(lia)) as (E & B). fold (ref_instr i) in *. rewrite E.
  destruct (ref_step D (ref_instr i) (RState s a c k)) as [st|]; [|reflexivity]. cbn [opt_shift]. specialize (B st eq_refl). destruct st as [s1 a1 c1 k1]. cbn [r_ops] in B. subst k1.
  unfold shift. cbn [r_main r_alt r_cond r_ops]. change (in_limit (RState s1 a1 c1 (k + cost1 (bZ (i_op i)) + j))) with (in_limit (RState s1 a1 c1 (k + cost1 (bZ (i_op i))))).
  destruct (negb (d_each D) || in_limit _); [|reflexivity]. apply IH. lia.
Qed.
Lemma arrange_then D sel items l : usable D -> Forall (fun i => (i < length items)%nat) sel -> arrange_cost (length items) sel + ops_of l <= 201 -> no_multisig l ->
  blen items + Z.of_nat (length sel) + 1 <= 1000 ->
  ref_eval D (map ref_instr (arrange (length items) sel ++ l)) items = ref_eval D (map ref_instr l) (select [] items sel).
Proof.
  intros U F K M R. assert (0 <= ops_of l) by apply blen_nonneg. unfold ref_eval. rewrite map_app, ref_run_app.
  pose proof (arrange_run D sel items [] [] [] 0 U eq_refl F ltac:(lia) ltac:(change (@blen bytes []) with 0; lia)) as A. rewrite !app_nil_r in A. rewrite A.
  rewrite run_shift by (try assumption; unfold arrange_cost in *; lia). destruct (ref_run D (map ref_instr l) _) as [st|]; reflexivity.
Qed.
Lemma reorder_verify self sel xs ys l fl : rev xs = select [] (rev ys) sel -> Forall (fun i => (i < length ys)%nat) sel ->
  arrange_cost (length ys) sel + ops_of l <= 201 -> no_multisig l -> readable (Script None l) -> sized (Script None (arrange (length ys) sel ++ l)) ->
  Forall (fun x => 1 <= blen x <= 75) ys -> sized (supply xs) -> sized (supply ys) -> ~ flag fl MINIMALDATA ->
  (verify self (supply ys) (Script None (arrange (length ys) sel ++ l)) fl = Ok (true, IE_None) <-> verify self (supply xs) (Script None l) fl = Ok (true, IE_None)).
Proof.
  intros EX F K M RL SA FY SX SY FM.
  assert (LX : length xs = length sel) by (rewrite <- (rev_length xs), EX; apply select_length).
  assert (SL : sized (Script None l)).
  { destruct SA as (w & W & LW). cbn [s_ins] in W. rewrite map_app in W. apply wire_script_app in W. destruct W as (w1 & w2 & -> & _ & W2). exists w2. split; [exact W2|]. unfold blen in *. rewrite app_length in LW. lia. }
  assert (0 <= ops_of l) by apply blen_nonneg.
  assert (FX : Forall (fun x => 1 <= blen x <= 75) xs).
  { apply Forall_rev in FY. rewrite <- (rev_involutive xs), EX. apply Forall_rev. unfold select. apply Forall_map. apply (Forall_impl _ (fun i H => proj1 (Forall_forall _ _) FY _ (nth_In _ _ ltac:(rewrite rev_length; exact H))) F). }
  destruct (fine_script _ _ (fine_arrange _ sel F ltac:(lia)) ltac:(lia)) as (RA & _).
  assert (R : readable (Script None (arrange (length ys) sel ++ l))) by (apply Forall_app; split; assumption).
  rewrite (verify_ref self _ _ fl (supply_readable ys FY) R), (verify_ref self _ _ fl (supply_readable xs FX) RL).
  assert (PO : forall zs, Forall (fun x => 1 <= blen x <= 75) zs -> push_only fl (supply zs)).
  { intros zs FZ _. unfold supply. cbn [s_ins]. apply Forall_map. apply (Forall_impl _ (fun x (L : 1 <= blen x <= 75) => (ltac:(cbn [i_op]; rewrite bZ_Zb by lia; lia) : bZ (i_op (Instr (Zb (blen x)) (Some (BA x)))) <= 96)) FZ). }
  assert (P : forall z d, d_push (bitforge fl) z d = true) by (intros z d; unfold bitforge, d_push; unfold flag in FM; destruct (Z.testbit fl MINIMALDATA); [contradiction FM; reflexivity|reflexivity]).
  unfold arrange_cost in K.
  assert (AC : ref_accepts (bitforge fl) (ref_script (supply ys)) (ref_script (Script None (arrange (length ys) sel ++ l))) <-> ref_accepts (bitforge fl) (ref_script (supply xs)) (ref_script (Script None l))).
  { unfold ref_accepts. rewrite (supply_eval _ ys P FY), (supply_eval _ xs P FX) by (unfold blen; lia). unfold ref_script. cbn [s_ins].
    pose proof (arrange_then (bitforge fl) sel (rev ys) l (usable_bitforge fl FM)) as T. rewrite rev_length in T. specialize (T F ltac:(unfold arrange_cost; lia) M ltac:(rewrite blen_rev; unfold blen; lia)).
    rewrite <- EX in T. split; intros (s & x & t & [= <-] & E & TR); [exists (rev xs)|exists (rev ys)]; exists x, t; (split; [reflexivity|]); (split; [congruence|exact TR]). }
  rewrite AC. pose proof (PO xs FX). pose proof (PO ys FY). tauto.
Qed.
(** stack words only rearrange *)
Lemma shuffle_in {A} l : forall (s o : list A), shuffle l s o -> forall x, In x o -> In x s.
Proof.
  induction l as [|z l IH]; intros s o H x I; [inversion H; subst; exact I|]. apply shuffle_inv in H. destruct H as (k & ks & s1 & a & m & _ & -> & _ & P & H). apply (IH _ _ H) in I.
  apply in_app_or in I. apply in_or_app. destruct I as [I|I]; [left; exact I|right]. clear -P I. induction P as [|k0 y ks m E P IH]; [destruct I|]. destruct I as [<-|I]; [exact (nth_error_In _ _ E)|exact (IH I)].
Qed.
Lemma words_select l : Forall stack_word l -> forall n,
  (exists sel, Forall (fun i => (i < n)%nat) sel /\ forall st, executing st -> s_nop st + blen l <= 201 -> length (s_stack st) = n ->
      forall s t, leaves (words l) st s t <-> s = select (BA []) (s_stack st) sel /\ t = s_alt st) \/
  (forall st, executing st -> s_nop st + blen l <= 201 -> length (s_stack st) = n -> forall s t, ~ leaves (words l) st s t).
Proof.
  intros F n.
  assert (SS : forall s : list pyb, length s = n -> map (fun i => nth i s (BA [])) (seq 0 n) = s).
  { intros s <-. induction s as [|x s IH]; [reflexivity|]. cbn [length seq map]. f_equal. rewrite <- seq_shift, map_map. exact IH. }
  destruct (try_words l (seq 0 n)) as [o|] eqn:T.
  - apply try_words_ok in T. left. exists o. split.
    + apply Forall_forall. intros i I. apply (shuffle_in l _ _ T) in I. apply in_seq in I. lia.
    + intros st X R L s t. rewrite (shuffle_leaves l F st s t X R). split; intros (A & B); (split; [|exact B]).
      * rewrite <- (SS _ L) in A. apply (shuffle_det _ _ _ _ A). exact (shuffle_map _ _ _ _ T).
      * subst s. rewrite <- (SS _ L) at 1. exact (shuffle_map _ _ _ _ T).
  - right. intros st X R L s t H. apply (shuffle_leaves l F st s t X R) in H. destruct H as (A & _). rewrite <- (SS _ L) in A. apply shuffle_unmap in A. destruct A as (o & _ & O).
    apply try_words_ok in O. congruence.
Qed.
Lemma arrange_bytes n sel : Forall (fun i => (i < n)%nat) sel -> arrange_cost n sel <= 201 -> exists w, wire_script (map content (arrange n sel)) w /\ blen w <= 6 * arrange_cost n sel.
Proof. intros F K. exact (proj2 (fine_arrange n sel F K)). Qed.
