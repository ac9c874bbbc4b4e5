(** Where the items on the stacks come from (lemmas). *)
From Coq Require Import ZArith Lia Bool List.
From Verif Require Import Base M_Hash M_Codec S_Codec P_Codec P_ScriptNum M_Keys M_Script S_Script M_Interp S_Interp P_Interp S_Origin.
Import ListNotations.
Open Scope Z_scope.

Section P.
Context (P : bytes -> Prop) (SHORT : forall b, blen b <= 4 -> P b) (HASH : forall z f b, hash_op z f -> P b -> P (f b)).
Definition good (p : pyb) : Prop := P (pyb_bytes p).
Definition goods (st : interp) : Prop := Forall good (s_stack st) /\ Forall good (s_alt st).

Lemma good_num n : Z.abs n <= 2 ^ 30 -> good (num n).
Proof using P SHORT.
  intros H. apply SHORT. clear SHORT HASH. unfold num. cbn [pyb_bytes]. pose proof (proj2 (encode_script_number_fits n 5 ltac:(lia))) as F. change (sm_lo 5) with (2 ^ 31) in F. lia.
Qed.
Lemma good_bool b : good (bool_bytes b).
Proof using P SHORT. apply SHORT. destruct b; vm_compute; discriminate. Qed.
Lemma unary_30 o n : - 2 ^ 23 < n < 2 ^ 23 -> Z.abs (unary o n) <= 2 ^ 30.
Proof. intros H. unfold unary, b2z. repeat match goal with |- context[if ?c then _ else _] => destruct c end; lia. Qed.
Lemma binary_30 o a b : - 2 ^ 23 < a < 2 ^ 23 -> - 2 ^ 23 < b < 2 ^ 23 -> Z.abs (binary o a b) <= 2 ^ 30.
Proof. intros H H'. unfold binary, b2z. repeat match goal with |- context[if ?c then _ else _] => destruct c end; lia. Qed.

Definition keeps (st st' : interp) : Prop := items st <= 2 ^ 30 -> small_items st -> goods st -> goods st'.
Ltac good_parts := repeat match goal with
  | Q : last_n ?k ?l = _, F : Forall good ?l |- _ =>
      let N := fresh in pose proof (last_n_Forall good k l F) as N; rewrite Q in N; revert Q
  | Q : Forall good (_ :: _) |- _ => inversion Q; clear Q; subst
  end; intros.
Ltac finish_good := repeat match goal with
  | |- Forall good (_ ++ _) => apply Forall_app; split
  | |- Forall good (drop_last _ _) => apply drop_last_Forall
  | |- Forall good (last_n _ _) => apply last_n_Forall
  | |- Forall good (_ :: _) => constructor
  | |- Forall good [] => constructor
  | |- Forall good _ => assumption
  | |- good (num _) => apply good_num
  | |- good (bool_bytes _) => apply good_bool
  end; try assumption.
Ltac bare := unfold keeps, goods; cbn [s_stack s_alt s_pc s_begin s_nop s_vf s_errstr s_flags s_script set_stack set_alt set_pc set_begin set_nop set_vf].
Ltac solve_keeps H d := unfold d, need, go, unpack_error in H; crunch H; bare; intros ? ? [? ?]; try (split; assumption); split; good_parts; finish_good.

Lemma k_pick_roll st m r st' : do_pick_roll st m r = Ok (Next st') -> keeps st st'.
Proof.
  intros H. unfold do_pick_roll, need, go, unpack_error in H; crunch H. bare. intros _ _ [F1 F2]. pose proof (drop_last_Forall good 1 _ F1) as F3. split; [|assumption].
  assert (N : good p0) by (rewrite Forall_forall in F3; apply F3; eapply nth_error_In; eassumption).
  destruct r; apply Forall_app; split; try (constructor; [exact N|constructor]); [|assumption].
  apply Forall_app; split; [apply firstn_Forall; assumption|apply (skipn_Forall good (S _)); assumption].
Qed.
Lemma k_hash st o st' : do_hash st o = Ok (Next st') -> keeps st st'.
Proof.
  intros H. solve_keeps H do_hash; unfold good; cbn [pyb_bytes].
  - apply (HASH 166); [left; auto|assumption].
  - apply (HASH 167); [right; left; auto|assumption].
  - apply (HASH 168); [right; right; left; auto|assumption].
  - apply (HASH 170 (fun x => sha256 (sha256 x))); [right; right; right; auto|assumption].
Qed.
Lemma k_checkmultisig st m v st' : do_checkmultisig st m v = Ok (Next st') -> keeps st st'.
Proof.
  intros H. unfold do_checkmultisig, need, go, unpack_error in H; crunch H; bare; intros ? ? [? ?]; (split; [|assumption]); cbn [s_stack s_alt s_nop set_nop] in *; destruct v; finish_good.
Qed.
Lemma dispatch_keeps o st m f st' : dispatch st m f o = Ok (Next st') -> keeps st st'.
Proof.
  unfold dispatch. intros H.
  repeat match type of H with
  | (if ?c then _ else _) = _ => let E := fresh "E" in destruct c eqn:E
  end; try discriminate H; try (injection H as <-; intros _ _ G; exact G).
  all: try solve [solve_keeps H do_cltv | solve_keeps H do_nop_n | solve_keeps H do_if | solve_keeps H do_else | solve_keeps H do_endif
   | solve_keeps H do_verify | solve_keeps H do_toalt | solve_keeps H do_fromalt | solve_keeps H do_2drop | solve_keeps H do_2dup
   | solve_keeps H do_3dup | solve_keeps H do_2over | solve_keeps H do_2rot | solve_keeps H do_2swap | solve_keeps H do_ifdup | solve_keeps H do_drop
   | solve_keeps H do_dup | solve_keeps H do_nip | solve_keeps H do_over | solve_keeps H do_rot | solve_keeps H do_swap | solve_keeps H do_tuck
   | solve_keeps H do_equal | solve_keeps H do_within | solve_keeps H do_checksig | eapply k_pick_roll; exact H | eapply k_hash; exact H
   | eapply k_checkmultisig; exact H ].
  - solve_keeps H go. pose proof (bZ_range o). change (bZ OP_1) with 81. lia.
  - solve_keeps H do_depth. unfold items in *. unfold blen in *. lia.
  - solve_keeps H do_size. 
    match goal with Q : last_n 1 _ = [?x], S : small_items _ |- _ => pose proof (last_n_Forall small_item 1 _ (proj1 S)) as N; rewrite Q in N; inversion N; subst end.
    unfold small_item, pyb_len in *. lia.
  - solve_keeps H do_unary. apply unary_30. eapply decode_bound; eassumption.
  - solve_keeps H do_binary; apply binary_30; eapply decode_bound; eassumption.
Qed.
Lemma step_keeps st i st' : step st i = Ok (Next st') -> (forall d, i_data i = Some d -> good d) -> keeps st st'.
Proof.
  unfold step. intros H DG. destruct (match data_bytes i with Some d => _ | None => _ end); [discriminate|].
  destruct (_ && (s_nop _ >? 201)); [discriminate|]. destruct (op_in (i_op i) disabled_ops); [discriminate|].
  set (st1 := if negb (op_leb (i_op i) OP_16) then _ else _) in H.
  assert (E : s_stack st1 = s_stack st /\ s_alt st1 = s_alt st) by (unfold st1; destruct (negb (op_leb (i_op i) OP_16)); split; reflexivity). destruct E as (E1 & E2).
  assert (K : keeps st1 st' -> keeps st st') by (unfold keeps, items, small_items, goods; rewrite E1, E2; auto). apply K. clear K.
  destruct (_ && op_leb (i_op i) OP_PUSHDATA4).
  - unfold do_push in H. assert (X : good (match data_bytes i with Some d => d | None => false_bytes end)).
    { unfold data_bytes. destruct (i_data i) as [d|] eqn:ED; [destruct (pyb_len d =? 0)|]; [apply (good_bool false)|apply DG; reflexivity|apply (good_bool false)]. }
    unfold go in H. crunch H; bare; intros _ _ [? ?]; (split; [|assumption]); finish_good.
  - destruct (_ || _); [exact (dispatch_keeps _ _ _ _ _ H)|]. injection H as <-. intros _ _ G. exact G.
Qed.
Lemma run_keeps l st st' : run l st = Ok (Next st') -> (forall b, pushed l b -> P b) -> s_nop st <= 201 -> items st + blen l + 2 * (201 - s_nop st) <= 2 ^ 30 ->
  small_items st -> goods st -> goods st'.
Proof.
  revert st. induction l as [|i l IH]; intros st H PU N B S G; [injection H as <-; exact G|].
  apply run_cons_next in H. destruct H as (st1 & H1 & H2). pose proof (step_inv _ _ _ H1) as Q.
  assert (blen (i :: l) = 1 + blen l) by (unfold blen; cbn [length]; lia). assert (0 <= blen l) by (unfold blen; lia).
  pose proof (p_nop _ _ _ Q) as [NN1 NN2]. specialize (NN2 N). pose proof (p_size _ _ _ Q).
  apply (IH st1 H2); [|exact NN2|lia|apply (p_small _ _ _ Q); [lia|exact S]|].
  - intros b (j & d & I & ED & EB). apply PU. exists j, d. split; [right; exact I|auto].
  - apply (step_keeps _ _ _ H1); [|lia|exact S|exact G]. intros d ED. apply PU. exists i, d. split; [left; reflexivity|auto].
Qed.
Lemma step_pushes st i st' : step st i = Ok (Next st') -> bZ (i_op i) <= 96 -> (forall d, i_data i = Some d -> good d) -> goods st -> goods st'.
Proof using P SHORT.
  clear HASH. unfold step. intros H OP DG. destruct (match data_bytes i with Some d => _ | None => _ end); [discriminate|].
  destruct (_ && (s_nop _ >? 201)); [discriminate|]. destruct (op_in (i_op i) disabled_ops); [discriminate|].
  set (st1 := if negb (op_leb (i_op i) OP_16) then _ else _) in H.
  assert (E : s_stack st1 = s_stack st /\ s_alt st1 = s_alt st) by (unfold st1; destruct (negb (op_leb (i_op i) OP_16)); split; reflexivity). destruct E as (E1 & E2).
  unfold goods. rewrite <- E1, <- E2. intros [G1 G2]. clearbody st1. destruct (negb (existsb negb (s_vf st))); cbn [andb orb] in H.
  - destruct (op_leb (i_op i) OP_PUSHDATA4) eqn:PU.
    + unfold do_push in H. assert (X : good (match data_bytes i with Some d => d | None => false_bytes end)).
      { unfold data_bytes. destruct (i_data i) as [d|] eqn:ED; [destruct (pyb_len d =? 0)|]; [apply (good_bool false)|apply DG; reflexivity|apply (good_bool false)]. }
      unfold go in H. crunch H; cbn [s_stack s_alt set_stack]; (split; [|assumption]); finish_good.
    + destruct (i_op i); vm_compute in OP; try (destruct (OP eq_refl)); vm_compute in PU; try discriminate PU; unfold dispatch in H;
      repeat match type of H with (if ?c then _ else _) = _ => let v := eval vm_compute in c in change c with v in H; cbv iota in H end;
      try discriminate H; unfold go in H; injection H as <-; cbn [s_stack s_alt set_stack]; (split; [|assumption]); finish_good; vm_compute; discriminate.
  - repeat match type of H with (if ?c then _ else _) = _ => destruct c eqn:? end; try (injection H as <-; split; assumption); exfalso.
    destruct (i_op i); vm_compute in OP; try (destruct (OP eq_refl)); match goal with Q : _ = true |- _ => vm_compute in Q; discriminate Q end.
Qed.
Lemma run_pushes l st st' : run l st = Ok (Next st') -> Forall (fun i => bZ (i_op i) <= 96) l -> (forall b, pushed l b -> P b) -> goods st -> goods st'.
Proof using P SHORT.
  revert st. induction l as [|i l IH]; intros st H F PU G; [injection H as <-; exact G|].
  apply run_cons_next in H. destruct H as (st1 & H1 & H2). inversion F; subst.
  apply (IH st1 H2); [assumption| |].
  - intros b (j & d & I & ED & EB). apply PU. exists j, d. split; [right; exact I|auto].
  - apply (step_pushes _ _ _ H1); [assumption| |exact G]. intros d ED. apply PU. exists i, d. split; [left; reflexivity|auto].
Qed.
End P.

Lemma goods_iff P st : goods P st <-> forall b, holds_item st b -> P b.
Proof.
  unfold goods, holds_item. rewrite !Forall_forall. split.
  - intros (A & B) b (p & I & <-). apply in_app_or in I. destruct I; [apply A|apply B]; assumption.
  - intros H. split; intros p I; apply H; exists p; (split; [apply in_or_app; auto|reflexivity]).
Qed.
Lemma made_mono (s s' : bytes -> Prop) b : (forall b, s b -> s' b) -> made s b -> made s' b.
Proof. intros H M. induction M as [b S|b S|z f b HO M IH]; [apply made_src, H, S|apply made_short, S|eapply made_hash; eassumption]. Qed.

(** in every state that is reached *)
Lemma origin st st1 l1 b : reaches st st1 l1 -> s_nop st = 0 -> items st <= 1000 -> small_items st -> holds_item st1 b ->
  made (fun c => holds_item st c \/ pushed l1 c) b.
Proof.
  intros (bs & l2 & B & L & E & R) N T S I. unfold script_to_bytes in B. apply to_bytes_length in B. rewrite E, blen_app in B.
  assert (0 <= blen l2) by (unfold blen; lia). set (src := fun c => holds_item st c \/ pushed l1 c).
  assert (G : goods (made src) st1).
  { apply (run_keeps (made src) (made_short src) (made_hash src) _ _ _ R); [|lia|lia|exact S|].
    - intros c PU. apply made_src. right. exact PU.
    - apply goods_iff. intros c HC. apply made_src. left. exact HC. }
  exact (proj1 (goods_iff _ _) G b I).
Qed.

(** ** locks *)
Lemma snoc_cases {A} (l : list A) : l = [] \/ exists s x, l = s ++ [x].
Proof. destruct l as [|a r]; [left; reflexivity|right]. destruct (exists_last (l := a :: r)) as (s & x & E); [discriminate|rewrite E; eauto]. Qed.
Lemma hash_split st i st' z f : step st i = Ok (Next st') -> hash_op z f -> plain z i -> executing st -> room st ->
  exists s x, s_stack st = s ++ [x] /\ st' = counted st (s ++ [Str (f (pyb_bytes x))]) (s_alt st).
Proof.
  intros E H P X R. destruct (snoc_cases (s_stack st)) as [N|(s & x & N)].
  - assert (Z : 166 <= z <= 170) by (destruct H as [(-> & _)|[(-> & _)|[(-> & _)|(-> & _)]]]; lia). rewrite (hash_short st i z X R P Z N) in E. discriminate E.
  - exists s, x. split; [exact N|]. pose proof (hash_step st i z f s x X R P H N) as E'. congruence.
Qed.
Lemma push_split st i d st' : step st i = Ok (Next st') -> executing st -> pushes_data i d -> minimal_of st = false /\ st' = uncounted st (s_stack st ++ [d]).
Proof.
  intros E X P. destruct (push_step st i d X P) as (A & B). destruct (minimal_of st) eqn:M; [destruct (B eq_refl st' E)|]. split; [reflexivity|]. specialize (A eq_refl). congruence.
Qed.
Lemma compare_holds st e rest st' s x y s' t : run (e :: rest) st = Ok (Next st') -> compares e rest -> executing st -> room st -> s_stack st = s ++ [x; y] ->
  s_stack st' = s' ++ [t] -> true_item t -> pyb_bytes x = pyb_bytes y.
Proof.
  intros E C X R S F T. destruct (bytes_eqb (pyb_bytes x) (pyb_bytes y)) eqn:Q; [apply bytes_eqb_eq; exact Q|exfalso].
  assert (NE : pyb_bytes x <> pyb_bytes y) by (rewrite <- bytes_eqb_eq; congruence). destruct C as [C|(C & ->)]; cbn [run] in E.
  - rewrite (proj2 (equalverify_step st e s x y C X R S) NE) in E. discriminate E.
  - rewrite (proj2 (equal_step st e s x y C X R S) NE) in E. cbn [bind] in E. injection E as <-. cbn [s_stack counted] in F. apply app_inj_tail in F. destruct F as (_ & <-).
    exact (empty_false (BA []) eq_refl T).
Qed.
Lemma evaluated_made a fl st1 b : evaluate (ready a [] fl) = Ok (Next st1) -> holds_item st1 b -> made (pushed (s_ins a)) b.
Proof.
  intros E I. apply evaluate_next in E. destruct E as (bs & B & L & R & _).
  apply (made_mono (fun c => holds_item (ready a [] fl) c \/ pushed (s_ins a) c)).
  - intros c [(p & [] & _)|H]. exact H.
  - apply (origin (ready a [] fl) st1 (s_ins a)); [|reflexivity|vm_compute; discriminate|split; constructor|exact I].
    exists bs, []. rewrite app_nil_r. auto.
Qed.
Lemma hash_lock_top b fl st0 z f o i2 h e rest st2 s' t : s_ins b = o :: i2 :: e :: rest -> hash_op z f -> plain z o -> pushes_data i2 h -> compares e rest ->
  evaluate (ready b st0 fl) = Ok (Next st2) -> s_stack st2 = s' ++ [t] -> true_item t -> exists s x, st0 = s ++ [x] /\ f (pyb_bytes x) = pyb_bytes h.
Proof.
  intros EB H P0 P1 C E2 F T. apply evaluate_next in E2. destruct E2 as (_ & _ & _ & R & _). cbn [s_script ready] in R. rewrite EB in R.
  apply run_cons_next in R. destruct R as (sa & SA & R). apply run_cons_next in R. destruct R as (sb & SB & R).
  destruct (hash_split _ _ _ z f SA H P0 ltac:(intros []) ltac:(unfold room; cbn; lia)) as (s & x & S & ->). cbn [s_stack ready] in S.
  destruct (push_split _ i2 h _ SB ltac:(intros []) P1) as (_ & ->). cbn [s_stack s_alt counted] in R.
  exists s, x. split; [exact S|].
  refine (compare_holds _ e rest st2 s (Str (f (pyb_bytes x))) h s' t R C _ _ _ F T); [intros []|unfold room; cbn; lia|].
  cbn [s_stack uncounted]. rewrite <- app_assoc. reflexivity.
Qed.
Lemma hash_lock self a b fl er z f o i2 h e rest : s_ins b = o :: i2 :: e :: rest -> hash_op z f -> plain z o -> pushes_data i2 h -> compares e rest ->
  verify self a b fl = Ok (true, er) -> exists x, f x = pyb_bytes h /\ made (pushed (s_ins a)) x.
Proof.
  intros EB H P0 P1 C V. apply verify_iff in V. destruct V as (_ & _ & _ & st1 & st2 & s' & t & E1 & E2 & F & T).
  destruct (hash_lock_top _ _ _ _ _ _ _ _ _ _ _ _ _ EB H P0 P1 C E2 F T) as (s & x & S & Q). exists (pyb_bytes x). split; [exact Q|].
  apply (evaluated_made a fl st1 _ E1). exists x. split; [|reflexivity]. rewrite S. apply in_or_app. left. apply in_or_app. right. left. reflexivity.
Qed.
Lemma literal_lock self a b fl er i2 h e rest : s_ins b = i2 :: e :: rest -> pushes_data i2 h -> compares e rest ->
  verify self a b fl = Ok (true, er) -> made (pushed (s_ins a)) (pyb_bytes h).
Proof.
  intros EB P1 C V. apply verify_iff in V. destruct V as (_ & _ & _ & st1 & st2 & s' & t & E1 & E2 & F & T).
  pose proof E2 as E2'. apply evaluate_next in E2'. destruct E2' as (_ & _ & _ & R & _). cbn [s_script ready] in R. rewrite EB in R.
  apply run_cons_next in R. destruct R as (sb & SB & R). destruct (push_split _ i2 h _ SB ltac:(intros []) P1) as (_ & ->). cbn [s_stack ready] in R.
  destruct (snoc_cases (s_stack st1)) as [N|(s & x & N)].
  - exfalso. rewrite N in R. cbn [run app] in R. destruct C as [C|(C & ->)];
      (erewrite needs_short with (n := 2) in R; [discriminate R| |exact C|intros []|unfold room; cbn; lia|reflexivity]; cbn; tauto).
  - rewrite <- (compare_holds _ e rest st2 s x h s' t R C ltac:(intros []) ltac:(unfold room; cbn; lia) ltac:(cbn [s_stack uncounted]; rewrite N, <- app_assoc; reflexivity) F T).
    apply (evaluated_made a fl st1 _ E1). exists x. split; [|reflexivity]. rewrite N. apply in_or_app. left. apply in_or_app. right. left. reflexivity.
Qed.

(** the lock is opened exactly by the scripts that leave a preimage on top *)
Lemma hash_lock_iff self a cls fl z f o i2 h e : hash_op z f -> plain z o -> pushes_data i2 h -> plain 135 e ->
  (verify self a (Script cls [o; i2; e]) fl = Ok (true, IE_None) <->
   ~ flag fl P2SH /\ ~ flag fl MINIMALDATA /\ (flag fl SIGPUSHONLY -> Forall (fun i => bZ (i_op i) <= 96) (s_ins a)) /\
   exists st1 s x, evaluate (ready a [] fl) = Ok (Next st1) /\ s_stack st1 = s ++ [x] /\ f (pyb_bytes x) = pyb_bytes h).
Proof.
  intros H P0 P1 P2. rewrite verify_iff. split.
  - intros (_ & NP & SP & st1 & st2 & s' & t & E1 & E2 & F & T). split; [exact NP|].
    pose proof E2 as E2'. apply evaluate_next in E2'. destruct E2' as (_ & _ & _ & R & _). cbn [s_script ready s_ins] in R.
    apply run_cons_next in R. destruct R as (sa & SA & R). apply run_cons_next in R. destruct R as (sb & SB & R).
    destruct (hash_split _ _ _ z f SA H P0 ltac:(intros []) ltac:(unfold room; cbn; lia)) as (s & x & S & ->). cbn [s_stack ready] in S.
    destruct (push_split _ i2 h _ SB ltac:(intros []) P1) as (M & ->). cbn [s_stack s_alt counted] in R.
    split; [intros FM; unfold flag, MINIMALDATA in FM; change (minimal_of _) with (Z.testbit fl 6) in M; congruence|]. split; [exact SP|]. exists st1, s, x. split; [exact E1|]. split; [exact S|].
    refine (compare_holds _ e [] st2 s (Str (f (pyb_bytes x))) h s' t R (or_intror (conj P2 eq_refl)) _ _ _ F T); [intros []|unfold room; cbn; lia|].
    cbn [s_stack uncounted]. rewrite <- app_assoc. reflexivity.
  - intros (NP & NM & SP & st1 & s & x & E1 & S & Q). split; [reflexivity|]. split; [exact NP|]. split; [exact SP|].
    set (st := ready (Script cls [o; i2; e]) (s_stack st1) fl).
    pose proof (hash_step st o z f s x ltac:(intros []) ltac:(unfold room; cbn; lia) P0 H S) as S1. set (sa := counted st (s ++ [Str (f (pyb_bytes x))]) (s_alt st)) in *.
    assert (M : minimal_of sa = false) by (unfold flag, MINIMALDATA in NM; change (minimal_of sa) with (Z.testbit fl 6); destruct (Z.testbit fl 6); congruence).
    pose proof (proj1 (push_step sa i2 h ltac:(intros []) P1) M) as S2. set (sb := uncounted sa (s_stack sa ++ [h])) in *.
    assert (SS : s_stack sb = s ++ [Str (f (pyb_bytes x)); h]) by (unfold sb, sa; cbn [s_stack uncounted counted]; rewrite <- app_assoc; reflexivity).
    pose proof (proj1 (equal_step sb e s (Str (f (pyb_bytes x))) h P2 ltac:(intros []) ltac:(unfold room; cbn; lia) SS) Q) as S3.
    exists st1, (counted sb (s ++ [BA [x01]]) (s_alt sb)), s, (BA [x01]). split; [exact E1|]. split; [|split; [reflexivity|apply one_byte_true; reflexivity]].
    apply evaluate_next. destruct (pushes_data_wf i2 h P1) as (_ & _ & B2).
    assert (B : exists b, script_to_bytes (Script cls [o; i2; e]) = Ok b /\ blen b <= 10000).
    { unfold script_to_bytes. cbn [s_ins ins_list_to_bytes].
      assert (B1 : ins_to_bytes o = Ok [Zb z]).
      { apply plain_inv in P0. destruct P0 as [-> _]. destruct H as [[-> _]|[[-> _]|[[-> _]|[-> _]]]]; reflexivity. }
      assert (B3 : ins_to_bytes e = Ok [x87]) by (apply plain_inv in P2; destruct P2 as [-> _]; reflexivity).
      rewrite B1, B2, B3. cbn [bind app]. eexists. split; [reflexivity|].
      destruct P1 as (_ & O & L). unfold pyb_len in L. unfold blen. cbn [length]. rewrite app_length. cbn [length]. lia. }
    destruct B as (b & B & LB). exists b. split; [exact B|]. split; [exact LB|]. split; [|split; [|reflexivity]].
    + change (ready (Script cls [o; i2; e]) (s_stack st1) fl) with st. change (s_ins (s_script st)) with [o; i2; e]. cbn [run]. rewrite S1. cbn [bind]. rewrite S2. cbn [bind]. rewrite S3. reflexivity.
    + pose proof (evaluate_items _ _ E1) as I. unfold items in *. cbn [s_stack s_alt counted]. change (s_alt sb) with (@nil pyb). rewrite S in I. unfold blen in *. rewrite app_length in *. cbn [length] in *. lia.
Qed.
(** what is not short and no digest was pushed *)
Lemma made_cases src b : made src b -> src b \/ blen b <= 4 \/ blen b = 20 \/ blen b = 32.
Proof.
  intros [c S|c S|z f c HO M]; [auto|auto|]. right. right. unfold blen.
  destruct HO as [(_ & ->)|[(_ & ->)|[(_ & ->)|(_ & ->)]]]; rewrite ?ripemd160_length, ?sha1_length, ?sha256_length; auto.
Qed.
Lemma evaluated_pushed a fl st1 b : Forall (fun i => bZ (i_op i) <= 96) (s_ins a) -> evaluate (ready a [] fl) = Ok (Next st1) -> holds_item st1 b ->
  pushed (s_ins a) b \/ blen b <= 4.
Proof.
  intros PO E I. apply evaluate_next in E. destruct E as (bs & B & L & R & _).
  refine (proj1 (goods_iff (fun b => pushed (s_ins a) b \/ blen b <= 4) st1) _ b I).
  apply (run_pushes (fun b => pushed (s_ins a) b \/ blen b <= 4) (fun b H => or_intror H) _ _ _ R PO (fun b H => or_introl H)). split; constructor.
Qed.

(** a secret that is no digest itself is written in the spending script *)
Lemma hash_lock_reveals self a b fl er z f o i2 h e rest : s_ins b = o :: i2 :: e :: rest -> hash_op z f -> plain z o -> pushes_data i2 h -> compares e rest ->
  verify self a b fl = Ok (true, er) -> exists x, f x = pyb_bytes h /\ (pushed (s_ins a) x \/ blen x <= 4 \/ blen x = 20 \/ blen x = 32).
Proof.
  intros E H P0 P1 C V. destruct (hash_lock _ _ _ _ _ _ _ _ _ _ _ _ E H P0 P1 C V) as (x & Q & M). exists x. split; [exact Q|exact (made_cases _ _ M)].
Qed.
Lemma hash_lock_push_only self a b fl er z f o i2 h e rest : s_ins b = o :: i2 :: e :: rest -> hash_op z f -> plain z o -> pushes_data i2 h -> compares e rest ->
  Forall (fun i => bZ (i_op i) <= 96) (s_ins a) -> verify self a b fl = Ok (true, er) -> exists x, f x = pyb_bytes h /\ (pushed (s_ins a) x \/ blen x <= 4).
Proof.
  intros EB H P0 P1 C PO V. apply verify_iff in V. destruct V as (_ & _ & _ & st1 & st2 & s' & t & E1 & E2 & F & T).
  destruct (hash_lock_top _ _ _ _ _ _ _ _ _ _ _ _ _ EB H P0 P1 C E2 F T) as (s & x & S & Q).
  exists (pyb_bytes x). split; [exact Q|]. apply (evaluated_pushed a fl st1 _ PO E1). exists x. split; [|reflexivity]. rewrite S. apply in_or_app. left. apply in_or_app. right. left. reflexivity.
Qed.
Lemma literal_lock_reveals self a b fl er i2 h e rest : s_ins b = i2 :: e :: rest -> pushes_data i2 h -> compares e rest ->
  verify self a b fl = Ok (true, er) -> pushed (s_ins a) (pyb_bytes h) \/ pyb_len h <= 4 \/ pyb_len h = 20 \/ pyb_len h = 32.
Proof. intros E P1 C V. exact (made_cases _ _ (literal_lock _ _ _ _ _ _ _ _ _ E P1 C V)). Qed.
