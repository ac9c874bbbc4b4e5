(** Proofs of the replacements, continued: stack words, CHECKMULTISIG VERIFY, what does not hold. *)
From Coq Require Import ZArith List Lia Bool.
From Verif Require Import Base M_Codec S_Codec P_Codec P_ScriptNum M_Hash M_Keys M_Script S_Script P_Script M_Interp S_Interp P_Interp P_Obj S_Peep P_Peep P_PeepW P_PeepR.
Import ListNotations.
Open Scope Z_scope.

Lemma shuffle_nothing {B} m (x : list B) : shuffle m [] x -> m = [] /\ x = [].
Proof.
  intros X. destruct m as [|z m]; [inversion X; auto|]. apply shuffle_inv in X. destruct X as (k & ks & s & args & mid & T & E & L & _). symmetry in E. apply app_eq_nil in E. destruct E as [-> ->]. subst k. unfold stack_words in T. cbn [In length] in T.
  repeat (destruct T as [T|T]; [discriminate T|]). destruct T.
Qed.
Lemma shuffle_implied l l' : Forall stack_word l ->
  (forall n o, (n <= 6 * length l)%nat -> shuffle l (seq 0 n) o -> shuffle l' (seq 0 n) o) -> forall A (s o : list A), shuffle l s o -> shuffle l' s o.
Proof.
  intros F H. set (N := (6 * length l)%nat) in *.
  assert (G : forall n o, shuffle l (seq 0 n) o -> shuffle l' (seq 0 n) o).
  { intros n o X. destruct (Nat.le_gt_cases n N) as [L|L]; [apply H; assumption|].
    destruct (shuffle_total l F (seq 0 N)) as (o1 & O1); [rewrite seq_length; unfold N; lia|]. pose proof (H N o1 (le_n _) O1) as O2.
    assert (E : seq 0 n = seq 0 (n - N) ++ map (fun i => i + (n - N))%nat (seq 0 N)).
    { replace n with ((n - N) + N)%nat at 1 by lia. rewrite seq_app. f_equal. cbn [Nat.add]. generalize (n - N)%nat. clear. intros d. clear -d.
      assert (Q : forall m a, seq (a + d) m = map (fun i => (i + d)%nat) (seq a m)) by (induction m as [|m IH]; intros a; [reflexivity|]; cbn [seq map]; f_equal; apply (IH (S a))). apply (Q N 0%nat). }
    rewrite E in *. set (g := fun i : nat => (i + (n - N))%nat) in *.
    pose proof (shuffle_frame l (seq 0 (n - N)) _ _ (shuffle_map g l _ _ O1)) as P1. pose proof (shuffle_frame l' (seq 0 (n - N)) _ _ (shuffle_map g l' _ _ O2)) as P2.
    rewrite (shuffle_det _ _ _ _ X P1). exact P2. }
  intros A s o X. destruct s as [|d s0].
  - destruct (shuffle_nothing _ _ X) as [-> ->]. destruct (shuffle_nothing _ _ (G 0%nat [] (sh_nil []))) as [-> _]. constructor.
  - set (s := d :: s0) in *. rewrite <- (seq_stack d s) in *. destruct (shuffle_unmap _ _ _ _ X) as (o' & -> & Y). apply shuffle_map, G, Y.
Qed.
(** words that are neither conditionals nor disabled, as counted and as skipped *)
Definition dull (z : Z) : Prop := 97 <= z <= 255 /\ ~ (99 <= z <= 104) /\ ~ disabled z.
Lemma stack_dull z : stack_word z -> dull z.
Proof. intros ((k & ks) & T). destruct (table_size _ _ _ T). unfold dull, disabled. lia. Qed.
Lemma dull_step st z : dull z -> In false (s_vf st) -> s_nop st < 201 -> step st (word z) = Ok (Next (after st z (s_stack st) (s_alt st))).
Proof.
  intros (RZ & C & D) X R. assert (B : bZ (Zb z) = z) by (apply bZ_Zb; lia).
  assert (SK : skipped st (word z) = after st z (s_stack st) (s_alt st)) by (unfold skipped, after, cost; cbn [word i_op]; rewrite B; destruct (z <=? 96); rewrite ?Z.add_0_r; reflexivity).
  rewrite <- SK. apply skip_step; [exact X|cbn [word i_op]; rewrite B; exact C|intros (d & DD & _); discriminate DD|intros _; exact R|cbn [word i_op]; rewrite B; exact D].
Qed.
Lemma dull_skip l : Forall dull l -> forall st st', In false (s_vf st) -> run (words l) st = Ok (Next st') <->
  (l = [] \/ s_nop st + blen l <= 201) /\ st' = ended st l (s_stack st) (s_alt st).
Proof.
  induction l as [|z l IH]; intros F st st' X.
  - cbn [words map run]. unfold ended. cbn [costs]. change (blen (@nil Z)) with 0. rewrite !Z.add_0_r. split; [intros [= <-]; split; [auto|destruct st; reflexivity]|intros [_ ->]; destruct st; reflexivity].
  - apply Forall_cons_iff in F. destruct F as [Z F]. pose proof Z as (RZ & _). assert (C1 : cost z = 1) by (unfold cost; destruct (Z.leb_spec z 96); lia). assert (B : bZ (Zb z) = z) by (apply bZ_Zb; lia).
    assert (AE : ended (after st z (s_stack st) (s_alt st)) l (s_stack st) (s_alt st) = ended st (z :: l) (s_stack st) (s_alt st)).
    { intros. unfold ended, after. cbn [s_pc s_begin s_nop s_vf s_errstr s_flags s_script costs]. f_equal; [|lia]. rewrite (blen_cons z l). lia. }
    change (words (z :: l)) with (word z :: words l). rewrite (blen_cons z l). pose proof (blen_nonneg l). split.
    + intros R. apply run_cons_next in R. destruct R as (st1 & S & R). pose proof (p_count _ _ _ (step_inv _ _ _ S)) as N. cbn [word i_op] in N. rewrite B in N.
      rewrite dull_step in S by (assumption || lia). injection S as <-. apply IH in R; [|exact F|exact X]. destruct R as (R2 & ->). cbn [after s_nop s_stack s_alt] in *. split; [|exact AE]. right.
      destruct R2 as [->|R2]; [change (blen (@nil BinNums.Z)) with 0|]; lia.
    + intros (R & ->). assert (s_nop st + (1 + blen l) <= 201) by (destruct R as [[=]|]; lia). apply (run_cons_so _ _ _ (after st z (s_stack st) (s_alt st))); [apply dull_step; [exact Z|exact X|lia]|].
      apply IH; [exact F|exact X|]. split; [cbn [after s_nop]; lia|symmetry; exact AE].
Qed.
Lemma words_counted l : Forall stack_word l -> forall st st', executing st -> run (words l) st = Ok (Next st') -> s_nop st' = s_nop st + blen l /\ s_vf st' = s_vf st /\ (l = [] \/ s_nop st + blen l <= 201).
Proof.
  induction l as [|z l IH]; intros F st st' X R.
  - injection R as <-. change (blen (@nil Z)) with 0. repeat split; [lia|left; reflexivity].
  - apply Forall_cons_iff in F. destruct F as [((k & ks) & T) F]. destruct (table_size _ _ _ T) as [_ RZ]. assert (P : plain z (word z)) by (apply word_plain; lia). assert (B : bZ (Zb z) = z) by (apply bZ_Zb; lia).
    change (words (z :: l)) with (word z :: words l) in R. apply run_cons_next in R. destruct R as (st1 & S & R).
    pose proof (p_count _ _ _ (step_inv _ _ _ S)) as N. cbn [word i_op] in N. rewrite B in N. assert (RM : room st) by (unfold room; lia).
    destruct (Nat.le_gt_cases k (length (s_stack st))) as [L|L]; [|rewrite (stack_word_short _ _ _ st _ T P X RM L) in S; discriminate].
    destruct (split_at_end k _ L) as (s1 & a & E & LA). destruct (pick_total _ _ _ a T LA) as (m & PK). rewrite (stack_word_step _ _ _ st _ s1 a m T P X RM E LA PK) in S. injection S as <-.
    destruct (IH F (counted st (s1 ++ m) (s_alt st)) st' X R) as (N1 & V1 & R1). cbn [counted s_nop s_vf] in *. rewrite (blen_cons z l). repeat split; [lia|exact V1|]. right. unfold room in RM. destruct R1 as [->|R1]; [change (blen (@nil Z)) with 0|]; lia.
Qed.
Lemma costs_dull l : Forall dull l -> costs l = blen l.
Proof.
  intros F. induction F as [|z l (R & _) F IH]; [reflexivity|]. cbn [costs]. rewrite IH, (blen_cons z l). unfold cost. destruct (Z.leb_spec z 96); lia.
Qed.
Lemma words_improve l l' : Forall stack_word l -> Forall stack_word l' -> blen l' <= blen l ->
  (forall n o, (n <= 6 * length l)%nat -> shuffle l (seq 0 n) o -> shuffle l' (seq 0 n) o) -> improves (words l) (words l').
Proof.
  intros F F' L H st st1 R. pose proof (Forall_impl _ stack_dull F) as D. pose proof (Forall_impl _ stack_dull F') as D'. pose proof (blen_nonneg l').
  destruct (in_dec bool_dec false (s_vf st)) as [X|X].
  - apply (dull_skip l D st st1 X) in R. destruct R as (R & ->). exists (ended st l' (s_stack st) (s_alt st)).
    split; [apply (dull_skip l' D' st _ X); split; [|reflexivity]|cbn [ended s_stack s_alt s_vf s_nop]; rewrite !costs_dull by assumption; repeat split; lia].
    destruct R as [->|R]; [left; apply no_items; change (blen (@nil Z)) with 0 in L; lia|right; lia].
  - destruct (words_counted l F st st1 X R) as (N & V & RM). assert (RM' : l' = [] \/ s_nop st + blen l' <= 201).
    { destruct RM as [->|RM]; [left; apply no_items; change (blen (@nil Z)) with 0 in L; lia|right; lia]. }
    destruct RM as [->|RM].
    { assert (l' = []) as -> by (apply no_items; change (blen (@nil Z)) with 0 in L; lia). exists st1. repeat split; auto. lia. }
    assert (LV : leaves (words l) st (s_stack st1) (s_alt st1)) by (exists st1; auto). apply (shuffle_leaves l F st _ _ X RM) in LV. destruct LV as [SH A].
    assert (LV' : leaves (words l') st (s_stack st1) (s_alt st1)) by (apply (shuffle_leaves l' F' st _ _ X); [lia|]; split; [exact (shuffle_implied l l' F H _ _ _ SH)|exact A]).
    destruct LV' as (st2 & R2 & S2 & A2). destruct (words_counted l' F' st st2 X R2) as (N2 & V2 & _). exists st2. repeat split; try assumption; [congruence|lia].
Qed.
Lemma stack_wordb z : (exists e, find_word z stack_words = Some e) -> stack_word z.
Proof. intros (e & E). exists e. apply find_word_in, E. Qed.
Ltac stack_list := repeat (apply Forall_cons; [apply stack_wordb; eexists; reflexivity|]); apply Forall_nil.
Lemma reorder_list : Forall (fun r => Forall stack_word (fst r) /\ Forall stack_word (snd r) /\ blen (snd r) <= blen (fst r) <= 5 /\ same_try (fst r) (snd r) = true) reorders.
Proof. repeat (apply Forall_cons; [cbn [fst snd]; split; [stack_list|]; split; [stack_list|]; split; [split; vm_compute; discriminate|vm_compute; reflexivity]|]). apply Forall_nil. Qed.
Lemma alike_mono k k' a b : k <= k' -> alike k a b -> alike k' a b.
Proof. intros L A st X R. apply A; [exact X|lia]. Qed.
Lemma reorders_hold a b : In (a, b) reorders -> improves (words a) (words b) /\ alike 5 (words a) (words b).
Proof.
  intros IN. pose proof (proj1 (Forall_forall _ _) reorder_list _ IN) as (F & F' & (L & L5) & S). cbn [fst snd] in *. pose proof (same_try_ok _ _ S) as T. split.
  - apply words_improve; try assumption. intros n o N. apply T. lia.
  - apply (alike_mono (Z.max (blen a) (blen b))); [lia|]. apply words_tests; try assumption; lia.
Qed.
Lemma simple_dec z : existsb (Z.eqb z) simple = true -> In z simple.
Proof. intros H. apply existsb_exists in H. destruct H as (y & I & E). apply Z.eqb_eq in E. congruence. Qed.
Lemma simple_list l : forallb (fun z => existsb (Z.eqb z) simple) l = true -> Forall (fun z => In z simple) l.
Proof. intros H. apply Forall_forall. intros z I. apply simple_dec. rewrite forallb_forall in H. apply H, I. Qed.
Lemma in_pairs {A} (P : A -> Prop) (f : A -> bool) l : (forall x, f x = true -> P x) -> forallb f l = true -> forall x, In x l -> P x.
Proof. intros H F x I. apply H. rewrite forallb_forall in F. apply F, I. Qed.
Definition fine (r : list Z * list Z) : bool :=
  forallb (fun z => existsb (Z.eqb z) simple) (fst r) && forallb (fun z => existsb (Z.eqb z) simple) (snd r) && (costs (snd r) <=? costs (fst r)) && (costs (fst r) <=? 3).
Lemma fine_ok r : fine r = true -> Forall (fun z => In z simple) (fst r) /\ Forall (fun z => In z simple) (snd r) /\ costs (snd r) <= costs (fst r) <= 3.
Proof. unfold fine. rewrite !andb_true_iff, !Z.leb_le. intros (((A & B) & C) & D). auto using simple_list. Qed.
Lemma rewrites_hold a b : In (a, b) rewrites -> improves (words a) (words b) /\ alike 3 (words a) (words b).
Proof.
  intros IN. destruct (in_pairs _ _ rewrites fine_ok ltac:(vm_compute; reflexivity) _ IN) as (A & B & C & D). pose proof (proj1 (Forall_forall _ _) rule_list _ IN) as (F & G). cbn [fst snd] in *.
  split; [apply follows_improves; assumption|apply follows_alike; try assumption; lia].
Qed.
Lemma relaxes_hold a b : In (a, b) relaxes -> improves (words a) (words b).
Proof.
  intros IN. destruct (in_pairs _ _ relaxes fine_ok ltac:(vm_compute; reflexivity) _ IN) as (A & B & C & D). pose proof (proj1 (Forall_forall _ _) relax_list _ IN) as F. cbn [fst snd] in *.
  apply follows_improves; assumption.
Qed.
(** ** CHECKMULTISIG VERIFY *)
Definition verified (n : Z) (r r' : res outcome) : Prop :=
  match r, r' with
  | Ok (Next a), Ok (Next b) => a = set_stack b (s_stack b ++ [bool_bytes true]) /\ s_nop b <= n + 20
  | Ok (Next _), _ | _, Ok (Next _) => False
  | _, _ => True
  end.
Ltac ver_case := match goal with
  | |- verified _ (match ?x with _ => _ end) (match ?x with _ => _ end) => let E := fresh "E" in destruct x eqn:E
  | |- verified _ (bind ?x _) (bind ?x _) => let E := fresh "E" in destruct x eqn:E
  end.
Lemma multisig_verified st m : verified (s_nop st) (do_checkmultisig st m false) (do_checkmultisig st m true).
Proof.
  unfold do_checkmultisig, need, unpack_error, go. cbv zeta. cbn [s_stack s_nop set_nop s_flags].
  repeat (ver_case; cbn [bind]; try exact I).
  unfold verified. rewrite drop_last_app by reflexivity. split; [reflexivity|cbn [set_stack s_nop set_nop]; lia].
Qed.
Lemma multisig_step st a : executing st -> step st (word 174) = Ok (Next a) <-> exists b, step st (word 175) = Ok (Next b) /\ a = set_stack b (s_stack b ++ [bool_bytes true]).
Proof.
  intros X. pose proof (core 174 (do_checkmultisig (counted st (s_stack st) (s_alt st)) (minimal_of st) false) st) as C1.
  pose proof (core 175 (do_checkmultisig (counted st (s_stack st) (s_alt st)) (minimal_of st) true) st) as C2.
  pose proof (multisig_verified (counted st (s_stack st) (s_alt st)) (minimal_of st)) as V. unfold verified in V. split.
  - intros H. apply C1 in H; [|exact X|lia|unfold disabled; lia|reflexivity]. destruct H as [RM H]. rewrite H in V. destruct (do_checkmultisig _ _ true) as [[b|]|] eqn:S2 in V; try contradiction.
    destruct V as [-> _]. exists b. split; [|reflexivity]. apply C2; [exact X|lia|unfold disabled; lia|reflexivity|]. auto.
  - intros (b & H & ->). apply C2 in H; [|exact X|lia|unfold disabled; lia|reflexivity]. destruct H as [RM H]. rewrite H in V. destruct (do_checkmultisig _ _ false) as [[a|]|] eqn:S2 in V; try contradiction.
    destruct V as [E _]. apply C1; [exact X|lia|unfold disabled; lia|reflexivity|]. split; [exact RM|]. congruence.
Qed.
Lemma multisig_count st b : executing st -> step st (word 175) = Ok (Next b) -> s_nop b <= s_nop st + 21 /\ s_vf b = s_vf st.
Proof.
  intros X H. split; [|apply (p_vf _ _ _ (step_inv _ _ _ H)); cbn [word i_op]; change (bZ (Zb 175)) with 175; unfold conditional; lia].
  pose proof (core 175 (do_checkmultisig (counted st (s_stack st) (s_alt st)) (minimal_of st) true) st b X ltac:(lia) ltac:(unfold disabled; lia) eq_refl) as C2. apply C2 in H. destruct H as [_ H].
  pose proof (multisig_verified (counted st (s_stack st) (s_alt st)) (minimal_of st)) as V. unfold verified in V. rewrite H in V. destruct (do_checkmultisig _ _ false) as [[a|]|] in V; try contradiction. destruct V as [_ N]. cbn [counted s_nop] in N. lia.
Qed.
Lemma verify_true st a : executing st -> s_nop st < 201 -> step (set_stack st (s_stack st ++ [bool_bytes true])) (word 105) = Ok (Next a) <-> a = after st 105 (s_stack st) (s_alt st).
Proof.
  intros X R. rewrite (so_verify (set_stack st (s_stack st ++ [bool_bytes true])) a X). cbn [set_stack s_stack s_alt]. split.
  - intros (_ & s & t & E & ->). inversion E; subst; try bad_in. match goal with H : _ ++ _ = _ ++ _ |- _ => apply app_inj_tail in H; destruct H; subst end. reflexivity.
  - intros ->. split; [right; exact R|]. exists (s_stack st), (s_alt st). split; [apply e_verify; reflexivity|reflexivity].
Qed.
Lemma multisig_improves : improves (words [174; 105]) (words [175]).
Proof.
  intros st st1 R. assert (D : Forall dull [174; 105] /\ Forall dull [175]) by (unfold dull, disabled; split; repeat (apply Forall_cons; [lia|]); apply Forall_nil). destruct D as [D D'].
  destruct (in_dec bool_dec false (s_vf st)) as [X|X].
  - apply (dull_skip _ D st st1 X) in R. destruct R as (R & ->). change (blen [174; 105]) with 2 in R. assert (s_nop st + 2 <= 201) by (destruct R as [[=]|]; lia).
    exists (ended st [175] (s_stack st) (s_alt st)). split; [apply (dull_skip _ D' st _ X); split; [right; change (blen [175]) with 1; lia|reflexivity]|].
    cbn [ended s_stack s_alt s_vf s_nop]. rewrite !costs_dull by assumption. change (blen [174; 105]) with 2. change (blen [175]) with 1. repeat split; lia.
  - change (words [174; 105]) with [word 174; word 105] in R. apply run_cons_next in R. destruct R as (a & S & R). apply (multisig_step st a X) in S. destruct S as (b & S & ->).
    destruct (multisig_count st b X S) as [_ V]. apply run_cons_next in R. destruct R as (sv & SV & R). injection R as <-.
    pose proof (p_count _ _ _ (step_inv _ _ _ SV)) as N. cbn [word i_op set_stack s_nop] in N. change (bZ (Zb 105)) with 105 in N.
    assert (XB : executing b) by (unfold executing in *; congruence). apply (verify_true b sv XB) in SV; [|lia]. subst sv. exists b. split; [cbn [words map run]; rewrite S; reflexivity|].
    cbn [after s_stack s_alt s_vf s_nop]. pose proof (cost_range 105). repeat split; lia.
Qed.
Lemma multisig_alike : alike 22 (words [174; 105]) (words [175]).
Proof.
  intros st X R s t. split.
  - intros (st1 & H & <- & <-). destruct (multisig_improves st st1 H) as (st2 & R2 & A & B & _). exists st2. auto.
  - intros (st2 & H & <- & <-). change (words [175]) with [word 175] in H. apply run_cons_next in H. destruct H as (b & S & H). injection H as <-. destruct (multisig_count st b X S) as [N V].
    exists (after b 105 (s_stack b) (s_alt b)). split; [|auto]. change (words [174; 105]) with [word 174; word 105].
    apply (run_cons_so _ _ _ (set_stack b (s_stack b ++ [bool_bytes true]))); [apply multisig_step; [exact X|eauto]|].
    apply (run_cons_so _ _ _ (after b 105 (s_stack b) (s_alt b))); [|reflexivity]. apply verify_true; [unfold executing in *; congruence|lia|reflexivity].
Qed.
(** ** dropping an item *)
Lemma drops_drop l st s t : In l drops -> executing st -> s_nop st + 2 <= 201 -> leaves (words l) st s t <-> (exists x, s_stack st = s ++ [x]) /\ t = s_alt st.
Proof.
  intros I X R. destruct I as [<-|[<-|[]]].
  - rewrite shuffle_leaves; [|stack_list|exact X|exact R]. split.
    + intros [H ->]. split; [|reflexivity]. apply shuffle_inv in H. destruct H as (k & ks & s1 & a & m & T & E & L & P & H). apply in_find_word in T. injection T as <- <-.
      apply shuffle_inv in H. destruct H as (k & ks & s2 & a2 & m2 & T & E2 & L2 & P2 & H). apply in_find_word in T. injection T as <- <-. inversion P2; subst m2. inversion H; subst. rewrite app_nil_r.
      destruct a as [|x [|? ?]]; try discriminate L. exists x. inversion P as [|? ? ? ? P3 P4]; subst. inversion P4 as [|? ? ? ? P5 P6]; subst. inversion P6; subst.
      apply app_end in E2; [|exact (eq_sym L2)]. destruct E2 as [-> _]. assumption.
    + intros [(x & E) ->]. split; [|reflexivity]. rewrite E. apply (sh_word 118 1%nat [0;0]%nat _ _ [x] [x; x]); [apply find_word_in; reflexivity|reflexivity|repeat constructor|].
      apply (sh_word 109 2%nat []%nat _ _ [x; x] []); [apply find_word_in; reflexivity|reflexivity|constructor|]. rewrite app_nil_r. constructor.
  - rewrite leaves_chain; [|apply simple_list; reflexivity|exact X|exact R]. split.
    + intros H. unpack. eauto.
    + intros [(x & E) ->]. rewrite E. eapply c_cons; [apply e_dup|]. apply c_one. apply e_equalverify. apply pyb_eqb_refl.
Qed.
(** ** what does not hold *)
Definition at_stack (s : list pyb) : interp := Interp s [] 0 0 0 [] IE_None 0 (Script None []).
Lemma not_alike k a b s o : k <= 201 -> leaves a (at_stack s) o [] -> ~ leaves b (at_stack s) o [] -> ~ alike k a b.
Proof. intros K A B H. apply B. apply (H (at_stack s)); [intros []|cbn [at_stack s_nop]; lia|exact A]. Qed.
Ltac leaves_run := eexists; split; [vm_compute; reflexivity|split; vm_compute; reflexivity].
Ltac leaves_not := intros (st' & H & S & _); revert H S; vm_compute; first [discriminate | intros [= <-]; discriminate | congruence].
Lemma drop_refuted k : k <= 201 -> ~ alike k (words [124; 117]) (words [119]) /\ ~ alike k (words [117; 117]) (words [109]) /\ ~ alike k (words [118; 117]) (words []).
Proof.
  intros K. repeat split.
  - apply (not_alike k _ _ [num 1; num 2] []); [exact K|leaves_run|leaves_not].
  - apply (not_alike k _ _ [num 1; num 2; num 3] []); [exact K|leaves_run|leaves_not].
  - apply (not_alike k _ _ [num 1] []); [exact K|leaves_run|leaves_not].
Qed.
Lemma relaxes_refuted k a b : In (a, b) relaxes -> k <= 201 -> ~ alike k (words a) (words b).
Proof.
  intros I K A. assert (A' : alike k (words b) (words a)) by (intros st X R s t; symmetry; apply A; assumption). revert A'.
  repeat (destruct I as [[= <- <-]|I]; [first [apply (not_alike k _ _ [] []); [exact K|leaves_run|leaves_not] | apply (not_alike k _ _ [num (2^23-1); num (- (2^23 - 1))] [num (2^24-2)]); [exact K|leaves_run|leaves_not]]|]). destruct I.
Qed.
Lemma negate_refuted : ~ improves (words [143; 143]) (words []).
Proof.
  intros H. specialize (H (at_stack [BA [Zb 5; Zb 0]])). destruct (run (words [143; 143]) _) as [[st1|]|] eqn:E in H; [|vm_compute in E; discriminate E|vm_compute in E; discriminate E].
  destruct (H st1 eq_refl) as (st2 & R2 & S2 & _). revert E R2 S2. vm_compute. intros [= <-] [= <-]. discriminate.
Qed.
