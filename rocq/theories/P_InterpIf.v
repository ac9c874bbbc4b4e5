(** Proofs about conditionals and about the ways a step can fail. *)
From Verif Require Import Base M_Hash M_Codec S_Codec M_Keys M_Script S_Script P_Script M_Interp S_Interp P_Interp.
Open Scope Z_scope.

Lemma cond_step st i : conditional (bZ (i_op i)) -> ~ long_push i -> room st ->
  step st i = dispatch (branched st (s_stack st) (s_vf st)) (minimal_of st) (negb (existsb negb (s_vf st))) (i_op i).
Proof.
  intros C L R. unfold step. rewrite minimal_flag.
  rewrite <- long_push_iff in L. apply not_true_is_false in L. rewrite L.
  assert (D : op_in (i_op i) disabled_ops = false).
  { apply not_true_is_false. rewrite disabled_spec. unfold disabled, conditional in *. lia. }
  rewrite D.
  assert (Z2 : op_leb (i_op i) OP_16 = false) by (unfold op_leb; change (bZ OP_16) with 96; unfold conditional in C; lia).
  rewrite Z2. cbn [negb andb s_nop set_nop set_pc]. unfold room in R. replace (s_nop st + 1 >? 201) with false by lia.
  assert (Z3 : op_leb (i_op i) OP_PUSHDATA4 = false) by (unfold op_leb; change (bZ OP_PUSHDATA4) with 78; unfold conditional in C; lia).
  rewrite Z3, andb_false_r.
  replace (op_leb OP_IF (i_op i) && op_leb (i_op i) OP_ENDIF) with true by (unfold op_leb; change (bZ OP_IF) with 99; change (bZ OP_ENDIF) with 104; unfold conditional in C; lia).
  rewrite orb_true_r. destruct st; reflexivity.
Qed.
Lemma plain_short z i : plain z i -> ~ long_push i.
Proof. intros [_ N] (d & E & _). congruence. Qed.
Lemma op_notif o z : bZ o = z -> z = 99 \/ z = 100 -> op_eqb o OP_NOTIF = (z =? 100).
Proof. intros <- _. unfold op_eqb. reflexivity. Qed.

Lemma if_exec st i z s x : bZ (i_op i) = z -> ~ long_push i -> z = 99 \/ z = 100 -> executing st -> room st -> s_stack st = s ++ [x] ->
  step st i = Ok (Next (branched st s (s_vf st ++ [if z =? 100 then negb (cast_to_bool x) else cast_to_bool x]))).
Proof.
  intros P L C X R E. rewrite cond_step by (unfold conditional; auto; lia). apply executing_iff in X. rewrite X.
  rewrite dispatch_if by lia. unfold do_if. cbn [negb s_stack branched]. rewrite E.
  replace (blen (s ++ [x]) <? 1) with false by (rewrite blen_app; cbn [blen length]; unfold blen; cbn [length]; lia).
  rewrite last_n_app, drop_last_app by reflexivity. cbn zeta. rewrite (op_notif _ z P C). destruct (z =? 100); reflexivity.
Qed.
Lemma if_step st i z s x : plain z i -> z = 99 \/ z = 100 -> executing st -> room st -> s_stack st = s ++ [x] ->
  (true_item x -> step st i = Ok (Next (branched st s (s_vf st ++ [z =? 99])))) /\
  (~ true_item x -> step st i = Ok (Next (branched st s (s_vf st ++ [z =? 100])))).
Proof.
  intros P C X R E. pose proof (if_exec st i z s x (proj1 P) (plain_short _ _ P) C X R E) as H. split; intros T; rewrite H.
  - apply cast_iff in T. rewrite T. destruct C; subst z; reflexivity.
  - apply cast_false in T. rewrite T. destruct C; subst z; reflexivity.
Qed.
Lemma if_empty st i z : plain z i -> z = 99 \/ z = 100 -> executing st -> room st -> s_stack st = [] -> step st i = Ok (Fail IE_Unbalanced).
Proof.
  intros P C X R E. rewrite cond_step by (unfold conditional; eauto using plain_short; destruct P; lia). apply executing_iff in X. rewrite X.
  rewrite dispatch_if by (destruct P; lia). unfold do_if. cbn [negb s_stack branched]. rewrite E. reflexivity.
Qed.
Lemma if_skip st i : bZ (i_op i) = 99 \/ bZ (i_op i) = 100 -> ~ long_push i -> In false (s_vf st) -> room st ->
  step st i = Ok (Next (branched st (s_stack st) (s_vf st ++ [false]))).
Proof.
  intros C L F R. rewrite cond_step by (unfold conditional; auto; lia). rewrite (not_exec st F). rewrite dispatch_if by exact C. reflexivity.
Qed.
Lemma else_step st i l v : bZ (i_op i) = 103 -> ~ long_push i -> room st -> s_vf st = l ++ [v] ->
  step st i = Ok (Next (branched st (s_stack st) (l ++ [negb v]))).
Proof.
  intros C L R E. rewrite cond_step by (unfold conditional; auto). rewrite dispatch_else by exact C. unfold do_else. cbn [s_vf branched]. rewrite E.
  replace (blen (l ++ [v]) =? 0) with false by (rewrite blen_app; unfold blen; cbn [length]; lia).
  rewrite last_n_app, drop_last_app by reflexivity. reflexivity.
Qed.
Lemma endif_step st i l v : bZ (i_op i) = 104 -> ~ long_push i -> room st -> s_vf st = l ++ [v] ->
  step st i = Ok (Next (branched st (s_stack st) l)).
Proof.
  intros C L R E. rewrite cond_step by (unfold conditional; auto). rewrite dispatch_endif by exact C. unfold do_endif. cbn [s_vf branched]. rewrite E.
  replace (blen (l ++ [v]) =? 0) with false by (rewrite blen_app; unfold blen; cbn [length]; lia).
  rewrite drop_last_app by reflexivity. reflexivity.
Qed.
Lemma else_endif_plain st i z l v : plain z i -> room st -> s_vf st = l ++ [v] ->
  (z = 103 -> step st i = Ok (Next (branched st (s_stack st) (l ++ [negb v])))) /\
  (z = 104 -> step st i = Ok (Next (branched st (s_stack st) l))).
Proof.
  intros P R E. pose proof (plain_short _ _ P). destruct P as [P _].
  split; intros C; [eapply else_step|eapply endif_step]; eauto; congruence.
Qed.
Lemma else_endif_none st i z : plain z i -> z = 103 \/ z = 104 -> room st -> s_vf st = [] -> step st i = Ok (Fail IE_Unbalanced).
Proof.
  intros P C R E. pose proof (plain_short _ _ P). destruct P as [P _]. rewrite cond_step by (unfold conditional; auto; lia).
  destruct C as [C|C]; rewrite C in P; [rewrite dispatch_else by exact P; unfold do_else|rewrite dispatch_endif by exact P; unfold do_endif];
    cbn [s_vf branched]; rewrite E; reflexivity.
Qed.

(** ** passing over whole blocks *)
Lemma counted_ops_cons i l : counted_ops (i :: l) = (if 97 <=? bZ (i_op i) then 1 else 0) + counted_ops l.
Proof. unfold counted_ops. cbn [filter]. destruct (97 <=? bZ (i_op i)); [|lia]. unfold blen. cbn [length]. lia. Qed.
Lemma counted_ops_app a b : counted_ops (a ++ b) = counted_ops a + counted_ops b.
Proof. unfold counted_ops. rewrite filter_app. unfold blen. rewrite app_length. lia. Qed.
Lemma counted_ops_nonneg l : 0 <= counted_ops l.
Proof. unfold counted_ops, blen. lia. Qed.
Lemma blen_cons {A} (x : A) l : blen (x :: l) = 1 + blen l.
Proof. unfold blen. cbn [length]. lia. Qed.
(** the same, with other conditions at the end *)
Definition passed_vf (st : interp) (l : list instr) (vf : list bool) : interp := set_vf (passed st l) vf.
Lemma passed_nil st : passed st [] = st.
Proof. unfold passed. destruct st. cbn. f_equal; lia. Qed.
Lemma passed_vf_passed_vf st a b v w : passed_vf (passed_vf st a v) b w = passed_vf st (a ++ b) w.
Proof. unfold passed_vf, passed, set_vf. cbn. rewrite blen_app, counted_ops_app. f_equal; lia. Qed.
Lemma passed_vf_self st l : passed_vf st l (s_vf st) = passed st l.
Proof. reflexivity. Qed.
Lemma branched_passed st i vf : 97 <= bZ (i_op i) -> branched st (s_stack st) vf = passed_vf st [i] vf.
Proof. intros H. unfold branched, passed_vf, passed, set_vf. cbn. rewrite counted_ops_cons. replace (97 <=? _) with true by lia. reflexivity. Qed.
Lemma skipped_passed st i : skipped st i = passed_vf st [i] (s_vf st).
Proof.
  unfold skipped, passed_vf, passed, set_vf. cbn. rewrite counted_ops_cons. change (counted_ops []) with 0.
  destruct (bZ (i_op i) <=? 96) eqn:E; [replace (97 <=? bZ (i_op i)) with false by lia|replace (97 <=? bZ (i_op i)) with true by lia]; f_equal; lia.
Qed.

Scheme block_mind := Minimality for block Sort Prop with body_mind := Minimality for body Sort Prop.
Combined Scheme block_body_ind from block_mind, body_mind.

Lemma ops_app_inv l a b : ops l = a ++ b -> exists l1 l2, l = l1 ++ l2 /\ ops l1 = a /\ ops l2 = b.
Proof.
  unfold ops. revert l. induction a as [|x a IH]; intros l H.
  - exists [], l. auto.
  - destruct l as [|i l]; [discriminate|]. injection H as <- H. destruct (IH _ H) as (l1 & l2 & -> & <- & <-).
    exists (i :: l1), l2. auto.
Qed.
Lemma ops_cons_inv l z b : ops l = z :: b -> exists i r, l = i :: r /\ bZ (i_op i) = z /\ ops r = b.
Proof. destruct l as [|i r]; [discriminate|]. intros [= <- <-]. eauto. Qed.

Definition passes (l : list instr) (st : interp) : Prop := run l st = Ok (Next (passed st l)).

Lemma run_app_next l1 l2 st st1 st2 : run l1 st = Ok (Next st1) -> run l2 st1 = Ok (Next st2) -> run (l1 ++ l2) st = Ok (Next st2).
Proof. intros H1 H2. rewrite run_app, H1. exact H2. Qed.
Lemma run_cons_ok i l st st1 st2 : step st i = Ok (Next st1) -> run l st1 = Ok (Next st2) -> run (i :: l) st = Ok (Next st2).
Proof. intros H1 H2. cbn [run]. rewrite H1. exact H2. Qed.

Lemma pass_both :
  (forall zs, block zs -> forall l st, ops l = zs -> Forall passable l -> In false (s_vf st) -> s_nop st + counted_ops l <= 201 ->
     run l st = Ok (Next (passed_vf st l (s_vf st)))) /\
  (forall zs, body zs -> forall l st vf v, ops l = zs -> Forall passable l -> s_vf st = vf ++ [v] -> In false vf -> s_nop st + counted_ops l <= 201 ->
     exists w, run l st = Ok (Next (passed_vf st l (vf ++ [w])))).
Proof.
  apply block_body_ind.
  - intros l st E _ _ _. destruct l; [|discriminate]. rewrite passed_vf_self, passed_nil. reflexivity.
  - intros z r NC _ IH l st E F I N. apply ops_cons_inv in E. destruct E as (i & l1 & -> & Z & E).
    inversion F as [|? ? (P1 & P2 & P3 & P4) F']; subst. pose proof (counted_ops_nonneg l1). rewrite counted_ops_cons in N.
    assert (S1 : step st i = Ok (Next (skipped st i))).
    { apply skip_step; auto; [unfold conditional in NC; lia|]. intros K. replace (97 <=? bZ (i_op i)) with true in N by lia. lia. }
    rewrite skipped_passed in S1. eapply run_cons_ok; [exact S1|]. rewrite (IH l1 (passed_vf st [i] (s_vf st))); auto.
    + rewrite passed_vf_passed_vf. reflexivity.
    + cbn [s_nop passed_vf passed set_vf]. rewrite counted_ops_cons. change (counted_ops []) with 0. destruct (97 <=? bZ (i_op i)); lia.
  - intros z b r ZZ _ IHb _ IHr l st E F I N. apply ops_cons_inv in E. destruct E as (i & l0 & -> & Z & E).
    apply ops_app_inv in E. destruct E as (lb & lr & -> & E1 & E2). apply ops_cons_inv in E2. destruct E2 as (e & lr' & -> & Ze & E2).
    inversion F as [|? ? Pi F']; subst. apply Forall_app in F'. destruct F' as [Fb Fr]. inversion Fr as [|? ? Pe Fr']; subst.
    pose proof (counted_ops_nonneg lb). pose proof (counted_ops_nonneg lr').
    rewrite counted_ops_cons, counted_ops_app, counted_ops_cons in N.
    replace (97 <=? bZ (i_op i)) with true in N by lia. replace (97 <=? bZ (i_op e)) with true in N by lia.
    assert (S1 : step st i = Ok (Next (passed_vf st [i] (s_vf st ++ [false])))).
    { rewrite <- branched_passed by lia. apply if_skip; auto; [apply Pi|unfold room; lia]. }
    destruct (IHb lb (passed_vf st [i] (s_vf st ++ [false])) (s_vf st) false) as (w & RB); auto.
    { cbn [s_nop passed_vf passed set_vf]. rewrite counted_ops_cons. change (counted_ops []) with 0. replace (97 <=? bZ (i_op i)) with true by lia. lia. }
    rewrite passed_vf_passed_vf in RB. cbn [app] in RB. set (st2 := passed_vf st (i :: lb) (s_vf st ++ [w])) in *.
    assert (N2 : s_nop st2 = s_nop st + 1 + counted_ops lb).
    { unfold st2. cbn [s_nop passed_vf passed set_vf]. rewrite counted_ops_cons. replace (97 <=? bZ (i_op i)) with true by lia. lia. }
    assert (S2 : step st2 e = Ok (Next (passed_vf st2 [e] (s_vf st)))).
    { rewrite <- branched_passed by lia. eapply endif_step; [exact Ze|apply Pe|unfold room; lia|reflexivity]. }
    eapply run_cons_ok; [exact S1|]. eapply run_app_next; [exact RB|]. eapply run_cons_ok; [exact S2|].
    rewrite (IHr lr' (passed_vf st2 [e] (s_vf st))); auto.
    + unfold st2. rewrite !passed_vf_passed_vf. reflexivity.
    + cbn [s_nop passed_vf passed set_vf] in *. rewrite counted_ops_cons. change (counted_ops []) with 0. replace (97 <=? bZ (i_op e)) with true by lia. lia.
  - intros b _ IH l st vf v E F V I N. exists v. rewrite (IH l st); auto; [rewrite V; reflexivity|]. rewrite V. apply in_or_app. auto.
  - intros a b _ IHa _ IHb l st vf v E F V I N. apply ops_app_inv in E. destruct E as (la & lr & -> & E1 & E2).
    apply ops_cons_inv in E2. destruct E2 as (e & lb & -> & Ze & E2).
    apply Forall_app in F. destruct F as [Fa Fr]. inversion Fr as [|? ? Pe Fb]; subst.
    pose proof (counted_ops_nonneg la). pose proof (counted_ops_nonneg lb).
    rewrite counted_ops_app, counted_ops_cons in N. replace (97 <=? bZ (i_op e)) with true in N by lia.
    destruct (IHa la st vf v) as (w & RA); auto; [lia|]. set (st2 := passed_vf st la (vf ++ [w])) in *.
    assert (N2 : s_nop st2 = s_nop st + counted_ops la) by reflexivity.
    assert (S2 : step st2 e = Ok (Next (passed_vf st2 [e] (vf ++ [negb w])))).
    { rewrite <- branched_passed by lia. eapply else_step; [exact Ze|apply Pe|unfold room; lia|reflexivity]. }
    exists (negb w). eapply run_app_next; [exact RA|]. eapply run_cons_ok; [exact S2|].
    rewrite (IHb lb (passed_vf st2 [e] (vf ++ [negb w]))); auto.
    + unfold st2. rewrite !passed_vf_passed_vf. reflexivity.
    + cbn [s_vf passed_vf set_vf]. apply in_or_app. auto.
    + cbn [s_nop passed_vf passed set_vf] in *. rewrite counted_ops_cons. change (counted_ops []) with 0. replace (97 <=? bZ (i_op e)) with true by lia. lia.
Qed.

Lemma pass_block l st : block (ops l) -> Forall passable l -> In false (s_vf st) -> s_nop st + counted_ops l <= 201 ->
  run l st = Ok (Next (passed st l)).
Proof. intros. rewrite <- passed_vf_self. eapply (proj1 pass_both); eauto. Qed.

(** ** choosing a branch *)
Lemma run_ext_cases l1 l2 st : (exists st1, run l1 st = Ok (Next st1) /\ run (l1 ++ l2) st = run l2 st1) \/
  ((forall st1, run l1 st <> Ok (Next st1)) /\ run (l1 ++ l2) st = run l1 st).
Proof.
  rewrite run_app. destruct (run l1 st) as [[st1|e]|e].
  - left. exists st1. auto.
  - right. split; [discriminate|reflexivity].
  - right. split; [discriminate|reflexivity].
Qed.

Lemma block_vf_both :
  (forall zs, block zs -> forall l st st', ops l = zs -> run l st = Ok (Next st') -> s_vf st' = s_vf st) /\
  (forall zs, body zs -> forall l st st' vf v, ops l = zs -> s_vf st = vf ++ [v] -> run l st = Ok (Next st') -> exists w, s_vf st' = vf ++ [w]).
Proof.
  apply block_body_ind.
  - intros l st st' E H. destruct l; [|discriminate]. injection H as <-. reflexivity.
  - intros z r NC _ IH l st st' E H. apply ops_cons_inv in E. destruct E as (i & l1 & -> & Z & E).
    apply run_cons_next in H. destruct H as (st1 & H1 & H2). rewrite (IH _ _ _ E H2). apply step_vf in H1. rewrite Z in H1.
    inversion H1; subst; auto; exfalso; apply NC; unfold conditional; auto. lia.
  - intros z b r ZZ _ IHb _ IHr l st st' E H. apply ops_cons_inv in E. destruct E as (i & l0 & -> & Z & E).
    apply ops_app_inv in E. destruct E as (lb & lr & -> & E1 & E2). apply ops_cons_inv in E2. destruct E2 as (e & lr' & -> & Ze & E2).
    apply run_cons_next in H. destruct H as (st1 & H1 & H2). rewrite run_app in H2. destruct (run lb st1) as [[st2|]|] eqn:RB; cbn [bind] in H2; try discriminate.
    apply run_cons_next in H2. destruct H2 as (st3 & H2 & H3). rewrite (IHr _ _ _ E2 H3).
    apply step_vf in H1. rewrite Z in H1. assert (exists v, s_vf st1 = s_vf st ++ [v]) as (v & V).
    { remember (s_vf st) as va. remember (s_vf st1) as vb. clear - H1 ZZ. inversion H1; subst; eauto; try lia. exfalso. apply H. unfold conditional. lia. }
    destruct (IHb _ _ _ _ _ E1 V RB) as (w & W). apply step_vf in H2. rewrite Ze, W in H2.
    remember (s_vf st ++ [w]) as vb eqn:EB. clear - H2 EB. inversion H2; subst; try lia.
    + apply app_inj_tail in H0. tauto.
    + exfalso. apply H. unfold conditional. lia.
  - intros b _ IH l st st' vf v E V H. exists v. rewrite (IH _ _ _ E H). exact V.
  - intros a b _ IHa _ IHb l st st' vf v E V H. apply ops_app_inv in E. destruct E as (la & lr & -> & E1 & E2).
    apply ops_cons_inv in E2. destruct E2 as (e & lb & -> & Ze & E2).
    rewrite run_app in H. destruct (run la st) as [[st1|]|] eqn:RA; cbn [bind] in H; try discriminate.
    apply run_cons_next in H. destruct H as (st2 & H1 & H2). rewrite (IHb _ _ _ E2 H2).
    destruct (IHa _ _ _ _ _ E1 V RA) as (w & W). apply step_vf in H1. rewrite Ze, W in H1. exists (negb w).
    remember (vf ++ [w]) as vb eqn:EB. clear - H1 EB. inversion H1; subst; try lia.
    + apply app_inj_tail in H0. destruct H0; subst. reflexivity.
    + exfalso. apply H. unfold conditional. lia.
Qed.
Lemma block_vf l st st' : block (ops l) -> run l st = Ok (Next st') -> s_vf st' = s_vf st.
Proof. intros B H. eapply (proj1 block_vf_both); eauto. Qed.

Lemma plain_pass z i : plain z i -> conditional z -> passable i.
Proof. intros P C. split; [|split; [|split]]; [destruct P; unfold conditional in C; lia..| |apply (plain_short _ _ P)]. destruct P as [-> _]. unfold disabled, conditional in *. lia. Qed.

Lemma then_branch st st2 i z e f a b s x : plain z i -> z = 99 \/ z = 100 -> plain 103 e -> plain 104 f ->
  executing st -> room st -> s_stack st = s ++ [x] -> (true_item x <-> z = 99) ->
  block (ops a) -> run a (branched st s (s_vf st ++ [true])) = Ok (Next st2) ->
  block (ops b) -> Forall passable b -> s_nop st2 + 2 + counted_ops b <= 201 ->
  run (i :: a ++ e :: b ++ [f]) st = Ok (Next (set_vf (passed st2 (e :: b ++ [f])) (s_vf st))).
Proof.
  intros Pi Z Pe Pf X R S T Ba Ra Bb Fb N.
  assert (S1 : step st i = Ok (Next (branched st s (s_vf st ++ [true])))).
  { destruct (if_step st i z s x Pi Z X R S) as [H1 H2]. destruct Z as [Z|Z]; subst z.
    - rewrite H1 by (apply T; reflexivity). reflexivity.
    - rewrite H2 by (intros K; apply T in K; discriminate). reflexivity. }
  eapply run_cons_ok; [exact S1|]. eapply run_app_next; [exact Ra|]. pose proof (block_vf _ _ _ Ba Ra) as V. cbn [s_vf branched] in V.
  pose proof (counted_ops_nonneg b). destruct (else_endif_plain st2 e 103 (s_vf st) true Pe) as [S2 _]; [unfold room; lia|exact V|].
  specialize (S2 eq_refl). cbn [negb] in S2. eapply run_cons_ok; [exact S2|].
  destruct Pe as [Oe _]. rewrite (branched_passed _ e) by lia. eapply run_app_next.
  { apply pass_block; auto; [cbn [s_vf passed_vf set_vf]; apply in_or_app; right; left; reflexivity|].
    cbn [s_nop passed_vf passed set_vf]. rewrite counted_ops_cons, Oe. change (counted_ops []) with 0. change (97 <=? 103) with true. cbn iota. lia. }
  rewrite <- passed_vf_self, passed_vf_passed_vf. cbn [s_vf passed_vf set_vf]. fold (passed_vf st2 ([e] ++ b) (s_vf st ++ [false])).
  destruct (else_endif_plain (passed_vf st2 ([e] ++ b) (s_vf st ++ [false])) f 104 (s_vf st) false Pf) as [_ S3].
  { unfold room. cbn [s_nop passed_vf passed set_vf app]. rewrite counted_ops_cons, Oe. change (97 <=? 103) with true. cbn iota. lia. }
  { reflexivity. }
  specialize (S3 eq_refl). destruct Pf as [Of _]. rewrite (branched_passed _ f) in S3 by lia. rewrite passed_vf_passed_vf in S3.
  cbn [run]. change (set_vf (passed st2 ([e] ++ b)) (s_vf st ++ [false])) with (passed_vf st2 ([e] ++ b) (s_vf st ++ [false])). 
  change (set_vf (passed_vf st2 ([e] ++ b) (s_vf st ++ [false])) (s_vf st ++ [false])) with (passed_vf st2 ([e] ++ b) (s_vf st ++ [false])).
  rewrite S3. reflexivity.
Qed.

Lemma else_branch st st2 i z e f a b s x : plain z i -> z = 99 \/ z = 100 -> plain 103 e -> plain 104 f ->
  executing st -> room st -> s_stack st = s ++ [x] -> (true_item x <-> z = 100) ->
  block (ops a) -> Forall passable a -> s_nop st + 2 + counted_ops a <= 201 -> block (ops b) ->
  run b (set_vf (passed (branched st s (s_vf st)) (a ++ [e])) (s_vf st ++ [true])) = Ok (Next st2) -> s_nop st2 < 201 ->
  run (i :: a ++ e :: b ++ [f]) st = Ok (Next (branched st2 (s_stack st2) (s_vf st))).
Proof.
  intros Pi Z Pe Pf X R S T Ba Fa N Bb Rb N2.
  assert (S1 : step st i = Ok (Next (branched st s (s_vf st ++ [false])))).
  { destruct (if_step st i z s x Pi Z X R S) as [H1 H2]. destruct Z as [Z|Z]; subst z.
    - rewrite H2 by (intros K; apply T in K; discriminate). reflexivity.
    - rewrite H1 by (apply T; reflexivity). reflexivity. }
  pose proof (counted_ops_nonneg a).
  eapply run_cons_ok; [exact S1|]. eapply run_app_next.
  { apply pass_block; auto; [cbn [s_vf branched]; apply in_or_app; right; left; reflexivity|]. cbn [s_nop branched]. lia. }
  destruct (else_endif_plain (passed (branched st s (s_vf st ++ [false])) a) e 103 (s_vf st) false Pe) as [S2 _];
    [unfold room; cbn [s_nop passed branched]; lia|reflexivity|].
  specialize (S2 eq_refl). cbn [negb] in S2. eapply run_cons_ok; [exact S2|].
  destruct Pe as [Oe _]. rewrite (branched_passed _ e) by lia. rewrite <- passed_vf_self, passed_vf_passed_vf.
  eapply run_app_next; [exact Rb|]. pose proof (block_vf _ _ _ Bb Rb) as V. cbn [s_vf set_vf] in V.
  destruct (else_endif_plain st2 f 104 (s_vf st) true Pf N2 V) as [_ S3]. cbn [run]. rewrite (S3 eq_refl). reflexivity.
Qed.

(** ** failing steps *)
Lemma step_long st i : long_push i -> step st i = Ok (Fail IE_PushSize).
Proof. intros L. apply long_push_iff in L. unfold step. rewrite L. reflexivity. Qed.
Lemma step_limit st i : ~ long_push i -> 97 <= bZ (i_op i) -> 201 <= s_nop st -> step st i = Ok (Fail IE_OpCount).
Proof.
  intros L O N. rewrite <- long_push_iff in L. apply not_true_is_false in L. unfold step. rewrite L.
  assert (Z2 : op_leb (i_op i) OP_16 = false) by (unfold op_leb; change (bZ OP_16) with 96; lia). rewrite Z2.
  cbn [negb andb s_nop set_nop set_pc]. replace (s_nop st + 1 >? 201) with true by lia. reflexivity.
Qed.
Lemma step_disabled st i : ~ long_push i -> room st -> disabled (bZ (i_op i)) -> step st i = Ok (Fail IE_Disabled).
Proof.
  intros L N D. rewrite <- long_push_iff in L. apply not_true_is_false in L. unfold step. rewrite L.
  assert (Z2 : op_leb (i_op i) OP_16 = false) by (unfold op_leb; change (bZ OP_16) with 96; unfold disabled in D; lia). rewrite Z2.
  unfold room in N. cbn [negb andb s_nop set_nop set_pc]. replace (s_nop st + 1 >? 201) with false by lia.
  apply disabled_spec in D. rewrite D. reflexivity.
Qed.
Lemma reserved_step st i z : plain z i -> reserved z -> executing st -> room st -> step st i = Ok (Fail IE_BadOpcode).
Proof.
  intros P Q X R. pose proof (plain_short _ _ P) as L. destruct P as [P _].
  assert (BAD : forall st m f, dispatch st m f (i_op i) = Ok (Fail IE_BadOpcode)).
  { intros st0 m f. clear - P Q. unfold reserved in Q. destruct (i_op i) eqn:E; cbn in P; subst z; try (exfalso; lia); reflexivity. }
  rewrite <- long_push_iff in L. apply not_true_is_false in L. unfold step. rewrite L.
  assert (D : op_in (i_op i) disabled_ops = false).
  { apply not_true_is_false. rewrite disabled_spec. unfold disabled, reserved in *. lia. }
  apply executing_iff in X. unfold room in R. rewrite D, X.
  assert (Z3 : op_leb (i_op i) OP_PUSHDATA4 = false) by (unfold op_leb; change (bZ OP_PUSHDATA4) with 78; unfold reserved in Q; lia).
  rewrite Z3. cbn [negb andb orb]. rewrite BAD.
  destruct (op_leb (i_op i) OP_16); cbn [negb andb s_nop set_nop set_pc]; [reflexivity|].
  replace (s_nop st + 1 >? 201) with false by lia. reflexivity.
Qed.

(** ** refutations *)
Lemma drop_refuted : exists st i s x, plain 117 i /\ executing st /\ room st /\ s_stack st = s ++ [x] /\
  step st i <> Ok (Next (counted st s (s_alt st))).
Proof.
  exists (ready (Script None []) [BA [x01]; BA [x02]] 0), (Instr x75 None), [BA [x01]], (BA [x02]).
  split; [split; reflexivity|]. split; [intros []|]. split; [reflexivity|]. split; [reflexivity|]. vm_compute. discriminate.
Qed.
Lemma abs_refuted : exists st i s p n, plain 144 i /\ executing st /\ room st /\ s_stack st = s ++ [p] /\ operand (minimal_of st) p n /\
  forall q, number_item q (Z.abs n) -> step st i <> Ok (Next (counted st (s ++ [q]) (s_alt st))).
Proof.
  exists (ready (Script None []) [BA [x85]] 0), (Instr x90 None), [], (BA [x85]), (-5).
  split; [split; reflexivity|]. split; [intros []|]. split; [reflexivity|]. split; [reflexivity|].
  split; [apply operand_iff; reflexivity|]. intros q Q. apply number_item_num in Q. subst q. vm_compute. discriminate.
Qed.
Lemma truth_refuted : exists p, bitcoin_true (pyb_bytes p) /\ ~ true_item p.
Proof.
  exists (BA [x00; x01]). split.
  - exists [x00], x01, []. split; [reflexivity|]. split; [discriminate|]. intros [K _]. discriminate.
  - rewrite <- cast_false. reflexivity.
Qed.
