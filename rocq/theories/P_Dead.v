(** Proofs about scripts that can never be spent. *)
From Verif Require Import Base M_Hash M_Codec S_Codec P_Codec P_ScriptNum M_Keys S_Keys M_EC M_Script S_Script P_Script M_Interp S_Interp P_Interp.
From Verif Require Import M_Tx S_Tx P_Tx P_TxSign S_Size P_Size S_Dead.
Open Scope Z_scope.

Lemma dead_split z : 0 <= z <= 255 -> dead z -> disabled z \/ hopeless z \/ z = 80 \/ z = 98 \/ z = 101 \/ z = 102 \/ z = 106 \/ z = 137 \/ z = 138 \/ 186 <= z.
Proof. unfold dead, disabled, hopeless. lia. Qed.

(** the dead opcodes that only reach the end of the chain, or RETURN *)
Definition plain_dead (o : opcode) : bool :=
  let z := bZ o in (z =? 80) || (z =? 98) || (z =? 101) || (z =? 102) || (z =? 106) || (z =? 137) || (z =? 138) || (186 <=? z).
Lemma dispatch_dead o st m f : plain_dead o = true -> exists e, dispatch st m f o = Ok (Fail e).
Proof. intros H. destruct o; try discriminate H; eexists; reflexivity. Qed.

Lemma dead_never st i st' : executing st -> dead (bZ (i_op i)) -> step st i <> Ok (Next st').
Proof.
  intros X D H. pose proof (step_inv _ _ _ H) as S. pose proof (bZ_range (i_op i)) as R.
  assert (R' : 0 <= bZ (i_op i) <= 255) by lia. destruct (dead_split _ R' D) as [A|[A|A]].
  - exact (p_able _ _ _ S A).
  - exact (hopeless_never st i st' X A H).
  - assert (P : plain_dead (i_op i) = true) by (unfold plain_dead; lia). revert H.
    unfold step. destruct (match data_bytes i with Some d => _ | None => _ end); [discriminate|].
    destruct (_ && (s_nop _ >? 201)); [discriminate|]. destruct (op_in (i_op i) disabled_ops); [discriminate|].
    apply executing_iff in X. rewrite X. cbn [negb andb orb].
    replace (op_leb (i_op i) OP_PUSHDATA4) with false by (unfold op_leb; change (bZ OP_PUSHDATA4) with 78; lia).
    match goal with |- dispatch ?s ?m ?f _ = _ -> _ => destruct (dispatch_dead (i_op i) s m f P) as [e E]; rewrite E end. discriminate.
Qed.
Lemma dead_anywhere_never st i st' : dead_anywhere (bZ (i_op i)) -> step st i <> Ok (Next st').
Proof.
  intros D H. pose proof (step_inv _ _ _ H) as S.
  assert (C : disabled (bZ (i_op i)) \/ bZ (i_op i) = 101 \/ bZ (i_op i) = 102) by (unfold dead_anywhere in D; unfold disabled; lia).
  destruct C as [C|C]; [exact (p_able _ _ _ S C)|]. revert H.
  unfold step. destruct (match data_bytes i with Some d => _ | None => _ end); [discriminate|].
  destruct (_ && (s_nop _ >? 201)); [discriminate|]. destruct (op_in (i_op i) disabled_ops); [discriminate|].
  replace (op_leb (i_op i) OP_PUSHDATA4) with false by (unfold op_leb; change (bZ OP_PUSHDATA4) with 78; lia). rewrite andb_false_r.
  replace (op_leb OP_IF (i_op i) && op_leb (i_op i) OP_ENDIF) with true by (unfold op_leb; change (bZ OP_IF) with 99; change (bZ OP_ENDIF) with 104; lia).
  rewrite orb_true_r. assert (P : plain_dead (i_op i) = true) by (unfold plain_dead; lia).
  match goal with |- dispatch ?s ?m ?f _ = _ -> _ => destruct (dispatch_dead (i_op i) s m f P) as [e E]; rewrite E end. discriminate.
Qed.

(** ** the lists are complete: every other opcode passes in some state *)
Definition wit (x : pyb) : interp := Interp (repeat x 7) [x] 0 0 0 [true] IE_None 0 (Script None []).
Definition wit_off : interp := Interp [] [] 0 0 0 [false] IE_None 0 (Script None []).
Definition passes (r : res outcome) : bool := match r with Ok (Next _) => true | _ => false end.
Definition hash_byte (o : opcode) : bool := (166 <=? bZ o) && (bZ o <=? 170) && negb (bZ o =? 169).
Definition dead_b (z : Z) : bool :=
  (z =? 80) || (z =? 98) || (z =? 101) || (z =? 102) || (z =? 106) || (z =? 137) || (z =? 138) ||
  ((126 <=? z) && (z <=? 129)) || ((131 <=? z) && (z <=? 134)) || (z =? 141) || (z =? 142) || ((149 <=? z) && (z <=? 153)) ||
  (z =? 169) || (z =? 172) || (z =? 173) || (z =? 177) || (186 <=? z).
Definition dead_any_b (z : Z) : bool :=
  (z =? 101) || (z =? 102) || ((126 <=? z) && (z <=? 129)) || ((131 <=? z) && (z <=? 134)) || (z =? 141) || (z =? 142) || ((149 <=? z) && (z <=? 153)).
Lemma alive_passes o : dead_b (bZ o) = false -> hash_byte o = false ->
  passes (step (wit (BA [])) (Instr o None)) || passes (step (wit (BA [x01])) (Instr o None)) = true.
Proof. intros A B. destruct o; try discriminate A; try discriminate B; reflexivity. Qed.
Lemma hash_passes o : hash_byte o = true -> exists st', step (wit (BA [])) (Instr o None) = Ok (Next st').
Proof.
  intros H. rewrite step_op; [|intros [E|[]]; discriminate|unfold room; cbn; lia|exact I|unfold hash_byte in H; cbn [i_op]; lia|unfold hash_byte, disabled in *; cbn [i_op]; lia].
  cbn [i_op]. set (st := counted _ _ _). assert (S : s_stack st = repeat (BA []) 7) by reflexivity. clearbody st.
  assert (E : dispatch st (minimal_of (wit (BA []))) true o = do_hash st o) by (destruct o; try discriminate H; reflexivity). rewrite E. clear E.
  unfold do_hash, need. rewrite S. change (blen (repeat (BA []) 7) <? 1) with false. cbn iota. change (last_n 1 (repeat (BA []) 7)) with [BA []]. cbn iota.
  destruct o; try discriminate H; eexists; reflexivity.
Qed.
Lemma wit_executing x : executing (wit x).
Proof. intros [E|[]]. discriminate. Qed.
Lemma off_passes o : dead_any_b (bZ o) = false -> passes (step wit_off (Instr o None)) = true.
Proof. intros A. destruct o; try discriminate A; reflexivity. Qed.
Lemma passes_inv r : passes r = true -> exists st, r = Ok (Next st).
Proof. destruct r as [[st|e]|e]; try discriminate. eauto. Qed.

Lemma dead_iff o : dead (bZ o) <-> forall st d st', executing st -> step st (Instr o d) <> Ok (Next st').
Proof.
  split; [intros D st d st' X; apply dead_never; assumption|]. intros H.
  destruct (dead_b (bZ o)) eqn:B; [unfold dead_b in B; unfold dead; lia|exfalso].
  destruct (hash_byte o) eqn:C.
  - destruct (hash_passes o C) as [st' E]. exact (H _ _ _ (wit_executing _) E).
  - pose proof (alive_passes o B C) as P. apply orb_true_iff in P. destruct P as [P|P]; apply passes_inv in P; destruct P as [st' E]; exact (H _ _ _ (wit_executing _) E).
Qed.
Lemma dead_anywhere_iff o : dead_anywhere (bZ o) <-> forall st d st', step st (Instr o d) <> Ok (Next st').
Proof.
  split; [intros D st d st'; apply dead_anywhere_never; exact D|]. intros H.
  destruct (dead_any_b (bZ o)) eqn:B; [unfold dead_any_b in B; unfold dead_anywhere; lia|exfalso].
  destruct (passes_inv _ (off_passes o B)) as [st' E]. exact (H _ _ _ E).
Qed.

(** ** a balanced part leaves the conditions alone *)
Lemma vf_if_inv z v v' : z = 99 \/ z = 100 -> vf_move z v v' -> exists b, v' = v ++ [b] /\ (In false v -> b = false).
Proof. intros Z M. destruct M as [z v b _ F|v b|v b|z v N]; [eauto|lia|lia|]. exfalso. apply N. unfold conditional. lia. Qed.
Lemma vf_else_inv v b v' : vf_move 103 (v ++ [b]) v' -> v' = v ++ [negb b].
Proof.
  intros M. remember 103 as z eqn:EZ. remember (v ++ [b]) as w eqn:EW. destruct M as [z l c Z _|l c|l c|z l N]; [lia| |lia|exfalso; apply N; unfold conditional; lia].
  apply app_inj_tail in EW. destruct EW as [-> ->]. reflexivity.
Qed.
Lemma vf_endif_inv v b v' : vf_move 104 (v ++ [b]) v' -> v' = v.
Proof.
  intros M. remember 104 as z eqn:EZ. remember (v ++ [b]) as w eqn:EW. destruct M as [z l c Z _|l c|l c|z l N]; [lia|lia| |exfalso; apply N; unfold conditional; lia].
  apply app_inj_tail in EW. destruct EW as [-> _]. reflexivity.
Qed.
Lemma vf_other_inv z v v' : ~ conditional z -> vf_move z v v' -> v' = v.
Proof.
  intros C M. destruct M as [z v b Z F|v b|v b|z v N]; [| | |reflexivity]; exfalso; apply C; unfold conditional; lia.
Qed.

Inductive moves : list Z -> list bool -> list bool -> Prop :=
  | mv_nil v : moves [] v v
  | mv_cons z l v v1 v2 : vf_move z v v1 -> moves l v1 v2 -> moves (z :: l) v v2.
Lemma run_moves l st st' : run l st = Ok (Next st') -> moves (ops l) (s_vf st) (s_vf st').
Proof.
  revert st. induction l as [|i l IH]; intros st H; [injection H as ->; constructor|].
  apply run_cons_next in H. destruct H as (st1 & H1 & H2). apply step_vf in H1. econstructor; [exact H1|apply IH; exact H2].
Qed.
Lemma moves_app a b v v2 : moves (a ++ b) v v2 -> exists v1, moves a v v1 /\ moves b v1 v2.
Proof.
  revert v. induction a as [|z a IH]; intros v M; [exists v; split; [constructor|exact M]|].
  cbn [app] in M. inversion M as [|? ? ? v1 ? M1 M2]; subst. destruct (IH _ M2) as (w & A & B). exists w. split; [econstructor; eassumption|exact B].
Qed.
Scheme block_rec2 := Induction for block Sort Prop with body_rec2 := Induction for body Sort Prop.
Combined Scheme block_body_ind from block_rec2, body_rec2.
Lemma blocks_move : (forall l, block l -> forall v v', moves l v v' -> v' = v) /\
  (forall l, body l -> forall v b v', moves l (v ++ [b]) v' -> exists b', v' = v ++ [b']).
Proof.
  apply block_body_ind.
  - intros v v' M. inversion M. reflexivity.
  - intros z r C B IH v v' M. inversion M as [|? ? ? v1 ? M1 M2]; subst. apply (vf_other_inv _ _ _ C) in M1. subst v1. exact (IH _ _ M2).
  - intros z b r Z B IHB R IHR v v' M. inversion M as [|? ? ? v1 ? M1 M2]; subst. apply (vf_if_inv _ _ _ Z) in M1. destruct M1 as (c & -> & _).
    apply moves_app in M2. destruct M2 as (w & M2 & M3). apply IHB in M2. destruct M2 as (c' & ->).
    inversion M3 as [|? ? ? w1 ? M4 M5]; subst. apply vf_endif_inv in M4. subst w1. exact (IHR _ _ M5).
  - intros b B IH v c v' M. apply IH in M. subst. eauto.
  - intros a b A IHA B IHB v c v' M. apply moves_app in M. destruct M as (w & M1 & M2). apply IHA in M1. destruct M1 as (c' & ->).
    inversion M2 as [|? ? ? w1 ? M3 M4]; subst. apply vf_else_inv in M3. subst w1. apply IHB in M4. subst. eauto.
Qed.
Lemma run_block l st st' : block (ops l) -> run l st = Ok (Next st') -> s_vf st' = s_vf st.
Proof. intros B R. apply run_moves in R. exact (proj1 blocks_move _ B _ _ R). Qed.

Lemma run_split a b st st' : run (a ++ b) st = Ok (Next st') -> exists st1, run a st = Ok (Next st1) /\ run b st1 = Ok (Next st').
Proof. rewrite run_app. destruct (run a st) as [[st1|e]|e]; cbn [bind]; try discriminate. eauto. Qed.

Lemma doomed_run l : doomed l -> forall st st', executing st -> run l st <> Ok (Next st').
Proof.
  induction 1 as [pre i post B D|pre c a e b rest B Z BA E DA IHA DB IHB]; intros st st' X R.
  - apply run_split in R. destruct R as (st1 & R1 & R2). apply (run_block _ _ _ B) in R1. apply run_cons_next in R2. destruct R2 as (st2 & R2 & _).
    apply (dead_never st1 i st2); [|exact D|exact R2]. unfold executing. rewrite R1. exact X.
  - apply run_split in R. destruct R as (st1 & R1 & R2). apply (run_block _ _ _ B) in R1. apply run_cons_next in R2. destruct R2 as (st2 & R2 & R3).
    apply step_vf in R2. apply (vf_if_inv _ _ _ Z) in R2. destruct R2 as (v & V2 & _). rewrite R1 in V2.
    apply run_split in R3. destruct R3 as (st3 & R3 & R4). destruct v.
    + apply (IHA st2 st3); [|exact R3]. unfold executing. rewrite V2. intros I. apply in_app_or in I. destruct I as [I|[I|[]]]; [exact (X I)|discriminate].
    + apply (run_block _ _ _ BA) in R3. apply run_cons_next in R4. destruct R4 as (st4 & R4 & R5). apply step_vf in R4. rewrite E, R3, V2 in R4. apply vf_else_inv in R4.
      apply run_split in R5. destruct R5 as (st5 & R5 & _). apply (IHB st4 st5); [|exact R5]. unfold executing. rewrite R4. cbn [negb].
      intros I. apply in_app_or in I. destruct I as [I|[I|[]]]; [exact (X I)|discriminate].
Qed.
Lemma doomed_script st st' : s_vf st = [] -> doomed (s_ins (s_script st)) -> evaluate st <> Ok (Next st').
Proof.
  intros V D H. apply evaluate_next in H. destruct H as (b & _ & _ & R & _). apply (doomed_run _ D st st'); [|exact R]. unfold executing. rewrite V. intros [].
Qed.
Lemma verify_doomed self a b f e : doomed (s_ins a) \/ doomed (s_ins b) -> verify self a b f <> Ok (true, e).
Proof.
  intros D H. apply verify_needs in H. destruct H as (st1 & st2 & E1 & E2). destruct D as [D|D].
  - apply (doomed_script (ready a [] f) st1); [reflexivity|exact D|exact E1].
  - apply (doomed_script (ready b (s_stack st1) f) st2); [reflexivity|exact D|exact E2].
Qed.

Lemma broken_script st st' : s_vf st = [] -> 0 <= s_nop st <= 201 -> broken (s_script st) -> evaluate st <> Ok (Next st').
Proof.
  intros V N B H. pose proof (evaluate_balanced _ _ H V) as BL. apply evaluate_next in H. destruct H as (w & W & L & R & _).
  destruct B as [B|[B|[B|B]]].
  - assert (F : Forall (fun i => ~ (dead_anywhere (bZ (i_op i)) \/ long_push i)) (s_ins (s_script st))).
    { apply (run_forall _ _ st st'); [|exact R]. intros s i s' T [D|D]; [exact (dead_anywhere_never _ _ _ D T)|].
      apply step_inv in T. pose proof (p_quiet _ _ _ T) as Q. destruct D as (d & D & LD). unfold quiet, data_bytes in Q. rewrite D in Q.
      destruct (pyb_len d =? 0) eqn:Z; lia. }
    apply Exists_exists in B. destruct B as (i & I & B). rewrite Forall_forall in F. exact (F i I B).
  - apply run_bounds in R. lia.
  - exact (B BL).
  - destruct B as (b & E & G). rewrite E in W. injection W as ->. lia.
Qed.
Lemma verify_broken self a b f e : broken a \/ broken b -> verify self a b f <> Ok (true, e).
Proof.
  intros D H. apply verify_needs in H. destruct H as (st1 & st2 & E1 & E2). destruct D as [D|D].
  - apply (broken_script (ready a [] f) st1); [reflexivity|cbn; lia|exact D|exact E1].
  - apply (broken_script (ready b (s_stack st1) f) st2); [reflexivity|cbn; lia|exact D|exact E2].
Qed.

(** ** the library's own outputs *)
Lemma verify_data_output self d o a f e : data_output_create d = Ok o -> verify self a (out_script o) f <> Ok (true, e).
Proof.
  intros H. apply data_output_ok in H. destruct H as (b & _ & _ & _ & _ & _ & M & _). apply verify_doomed. right.
  destruct (s_ins (out_script o)) as [|i l]; [discriminate|]. cbn [map] in M. injection M as M _ _.
  apply (doom_op [] i l); [constructor|]. rewrite M. vm_compute. tauto.
Qed.

(** multisig outputs *)
Lemma small_step_next st o n st' : executing st -> small_number o n -> step st (Instr o None) = Ok (Next st') -> st' = uncounted st (s_stack st ++ [num n]).
Proof.
  intros X [[-> O]|[R O]] H.
  - apply (bZ_inj o x00) in O. subst o. apply executing_iff in X. unfold step in H. rewrite X in H. cbn [negb andb orb i_op i_data data_bytes] in H.
    change (op_leb x00 OP_16) with true in H. change (op_in x00 disabled_ops) with false in H. change (op_leb x00 OP_PUSHDATA4) with true in H. cbn [negb andb] in H.
    unfold do_push in H. cbn [data_bytes i_data] in H. change (num 0) with (BA []).
    match type of H with (let! m := ?x in _) = _ => destruct x as [[]|] end; cbn [bind negb] in H; try discriminate. injection H as <-. destruct st; reflexivity.
  - destruct (const_step st (Instr o None) n X) as (p & N & E); [split; [exact O|reflexivity]|lia|]. apply number_item_num in N. subst p. rewrite E in H. injection H as <-. reflexivity.
Qed.
Lemma small_step st o n : executing st -> minimal_of st = false -> small_number o n -> step st (Instr o None) = Ok (Next (uncounted st (s_stack st ++ [num n]))).
Proof.
  intros X M [[-> O]|[R O]].
  - apply (bZ_inj o x00) in O. subst o. apply executing_iff in X. unfold step. rewrite minimal_flag, M, X. cbn [negb andb orb i_op i_data data_bytes].
    change (num 0) with (BA []). destruct st; reflexivity.
  - destruct (const_step st (Instr o None) n X) as (p & N & E); [split; [exact O|reflexivity]|lia|]. apply number_item_num in N. subst p. exact E.
Qed.
Lemma multisig_layout ks m s : multisig_create ks m = Ok s -> exists o n ins ds,
  s_ins s = Instr o None :: ins ++ [Instr n None; Instr xae None] /\ small_number o m /\ small_number n (blen ks) /\ Forall2 pushes_data ins ds /\ blen ds = blen ks.
Proof.
  unfold multisig_create. intros H. apply bind_ok in H. destruct H as [o [M H]]. apply bind_ok in H. destruct H as [bs [B H]].
  apply bind_ok in H. destruct H as [n [N H]]. destruct (keys_size _ _ B) as [_ SZ]. apply pubkeys_bytes_ok in B. apply for_number_ok in M, N. apply sub_create_inv in H. destruct H as [_ H].
  cbn [app] in H. inversion H as [|? z ? t H1 H2 E1 E2]; subst. apply to_instruction_op in H1. destruct H1 as [-> _].
  apply Forall2_app_inv_l in H2. destruct H2 as [ki [ri [H2 [H3 ->]]]].
  inversion H3 as [|? a ? ra A1 A2]; subst. inversion A2 as [|? b ? rb B1 B2]; subst. inversion B2; subst. apply to_instruction_op in A1, B1. destruct A1 as [-> _]. destruct B1 as [-> _].
  exists o, n, ki, (map Str bs). split; [reflexivity|]. split; [exact M|]. split; [exact N|]. split.
  - clear - H2 SZ. revert ki H2. induction SZ as [|b bs L SZ IH]; intros ki H2; inversion H2 as [|? i ? t T1 T2]; subst; [constructor|]. cbn [map]. constructor; [|apply IH; exact T2].
    apply to_instruction_bytes in T1. destruct T1 as (b' & [= <-] & LB & D & P & W). unfold well_formed, push_length in W. rewrite D in W. change (pyb_len (Str b)) with (blen b) in W.
    cbn [to_instruction] in *. unfold pushes_data. change (pyb_len (Str b)) with (blen b). unfold is_a_push, pushes in P. split; [exact D|].
    inversion H2 as [|? ? ? ? T1' _]; subst. cbn [to_instruction] in T1'. apply bind_ok in T1'. destruct T1' as (op & OP & NI). apply op_push_for_ok in OP. apply new_instr_ok in NI. destruct NI as [-> _].
    cbn [i_op] in *. lia.
  - unfold blen. rewrite map_length. f_equal. clear - B. induction B; cbn [length]; congruence.
Qed.
Definition pushed (st : interp) (l : list instr) (ds : list pyb) : interp :=
  Interp (s_stack st ++ ds) (s_alt st) (s_pc st + blen l) (s_begin st) (s_nop st) (s_vf st) (s_errstr st) (s_flags st) (s_script st).
Lemma run_pushes_ok l ds st : Forall2 pushes_data l ds -> executing st -> minimal_of st = false -> run l st = Ok (Next (pushed st l ds)).
Proof.
  intros F. revert st. induction F as [|i d l ds P F IH]; intros st X M.
  - unfold pushed. rewrite app_nil_r. change (blen (@nil instr)) with 0. rewrite Z.add_0_r. destruct st; reflexivity.
  - cbn [run]. rewrite (proj1 (push_step st i d X P) M). cbn [bind]. rewrite IH; [|exact X|exact M]. unfold pushed, uncounted. cbn [s_stack s_alt s_pc s_begin s_nop s_vf s_errstr s_flags s_script].
    rewrite <- app_assoc. cbn [app]. replace (blen (i :: l)) with (1 + blen l) by (unfold blen; cbn [length]; lia). rewrite Z.add_assoc. reflexivity.
Qed.
Lemma run_pushes_next l ds st st' : Forall2 pushes_data l ds -> executing st -> run l st = Ok (Next st') -> st' = pushed st l ds.
Proof.
  intros F X R. destruct F as [|i d l ds P F]; [injection R as <-; unfold pushed; rewrite app_nil_r; change (blen (@nil instr)) with 0; rewrite Z.add_0_r; destruct st; reflexivity|].
  destruct (minimal_of st) eqn:M.
  - apply run_cons_next in R. destruct R as (st1 & R & _). destruct (proj2 (push_step st i d X P) M _ R).
  - rewrite (run_pushes_ok _ (d :: ds)) in R; [|constructor; assumption|assumption..]. injection R as <-. reflexivity.
Qed.
Lemma num_operand m p n k : p = num n -> operand m p k -> k = n.
Proof.
  intros -> O. apply operand_iff in O. unfold num in O. rewrite decode_encode_script_number in O. destruct (_ <? _); [congruence|discriminate].
Qed.
Lemma multisig_run ks m s st st' : multisig_create ks m = Ok s -> executing st -> run (s_ins s) st = Ok (Next st') -> m = 0.
Proof.
  intros C X R. destruct (multisig_layout _ _ _ C) as (o & n & ins & ds & E & M & N & F & L). rewrite E in R.
  apply run_cons_next in R. destruct R as (st1 & R1 & R2). apply (small_step_next _ _ _ _ X M) in R1. subst st1.
  apply run_split in R2. destruct R2 as (st2 & R2 & R3). apply (run_pushes_next _ ds) in R2; [|exact F|exact X]. subst st2.
  apply run_cons_next in R3. destruct R3 as (st3 & R3 & R4). apply (small_step_next _ n (blen ks)) in R3; [|exact X|exact N]. subst st3.
  apply run_cons_next in R4. destruct R4 as (st4 & R4 & _). apply (multisig_step _ _ 174) in R4; [|exact X|split; reflexivity|auto].
  destruct R4 as (s0 & dummy & zero & keys & k & E4 & O1 & O2 & _). cbn [s_stack uncounted pushed] in E4.
  rewrite !app_assoc in E4. apply app_inj_tail in E4. destruct E4 as [E4 E5]. symmetry in E5. apply (num_operand _ _ _ _ E5) in O1.
  assert (LK : length ds = length keys) by (unfold blen in *; lia).
  apply (f_equal (drop_last (length keys))) in E4. rewrite (drop_last_app _ _ ds) in E4 by exact LK. rewrite (drop_last_app _ _ keys) in E4 by reflexivity.
  change (s0 ++ [dummy; zero]) with (s0 ++ [dummy] ++ [zero]) in E4. rewrite app_assoc in E4. apply app_inj_tail in E4. destruct E4 as [_ E4]. symmetry in E4.
  symmetry. exact (num_operand _ _ _ _ E4 O2).
Qed.
Lemma number_operand p n : number_item p n -> -16 <= n <= 20 -> operand false p n.
Proof.
  intros N R. apply number_item_num in N. subst p. apply operand_iff. unfold num. rewrite decode_encode_script_number.
  assert (H : forallb (fun z => blen (encode_script_number z) <? 4) (map (fun k => Z.of_nat k - 16) (seq 0 37)) = true) by (vm_compute; reflexivity).
  rewrite forallb_forall in H. specialize (H n). rewrite H; [reflexivity|]. apply in_map_iff. exists (Z.to_nat (n + 16)). split; [lia|]. apply (proj2 (List.in_seq 37 0 (Z.to_nat (n + 16)))). lia.
Qed.
Lemma multisig_open ks s self : multisig_create ks 0 = Ok s -> verify self (Script None [Instr x00 None]) s 0 = Ok (true, IE_None).
Proof.
  intros C. apply verify_iff. split; [reflexivity|]. split; [discriminate|]. split; [discriminate|].
  set (a := Script None [Instr x00 None]). set (st1 := uncounted (ready a [] 0) [BA []]).
  destruct (multisig_layout _ _ _ C) as (o & n & ins & ds & E & M & N & F & L).
  assert (B : blen ks <= 16) by (unfold small_number in N; lia). assert (B0 : 0 <= blen ks) by (unfold blen; lia).
  set (st := ready s [BA []] 0).
  set (st2 := uncounted (pushed (uncounted st ([BA []] ++ [num 0])) ins ds) ((([BA []] ++ [num 0]) ++ ds) ++ [num (blen ks)])).
  set (st3 := multisig_done st2 (blen ds) ([] ++ [BA [x01]])).
  assert (R : run (s_ins s) st = Ok (Next st3)).
  { rewrite E. cbn [run]. rewrite (small_step st o 0); [|intros []|reflexivity|exact M]. cbn [bind]. rewrite run_app.
    change (s_stack st) with [BA []]. rewrite (run_pushes_ok ins ds); [|exact F|intros []|reflexivity]. cbn [bind run].
    rewrite (small_step _ n (blen ks)); [|intros []|reflexivity|exact N]. cbn [bind]. change (s_stack (pushed (uncounted st ([BA []] ++ [num 0])) ins ds)) with (([BA []] ++ [num 0]) ++ ds). fold st2.
    assert (S3 : step st2 (Instr xae None) = Ok (Next st3)).
    { apply (multisig_step st2 _ 174); [intros []|split; reflexivity|auto|]. exists [], (BA []), (num 0), ds, (num (blen ks)). rewrite L.
      split; [unfold st2; cbn [s_stack uncounted app]; rewrite <- ?app_assoc; reflexivity|]. split; [apply number_operand; [apply num_item|lia]|].
      split; [apply number_operand; [apply num_item|lia]|]. split; [lia|]. split; [change (s_nop st2) with 0; lia|]. split; [discriminate|]. unfold st3. rewrite L. reflexivity. }
    rewrite S3. reflexivity. }
  exists st1, st3, [], (BA [x01]). split; [|split; [|split]].
  - vm_compute. reflexivity.
  - change (s_stack st1) with [BA []]. fold st. destruct (multisig_size _ _ _ C) as (SZ & w & W). pose proof (script_size_ok _ _ W) as LW. apply evaluate_next. exists w. cbn [st ready s_script]. split; [exact W|].
    split; [|split; [exact R|split; [vm_compute; congruence|reflexivity]]].
    assert (T : total (fun k => 1 + key_size k) ks <= 66 * blen ks).
    { clear. unfold total, blen. induction ks as [|k ks IH]; [reflexivity|]. cbn [fold_right length]. pose proof (key_size_range k). lia. }
    lia.
  - reflexivity.
  - apply one_byte_true. reflexivity.
Qed.
Lemma multisig_spendable ks m s : multisig_create ks m = Ok s -> (exists self a f e, verify self a s f = Ok (true, e)) <-> m = 0.
Proof.
  intros C. split.
  - intros (self & a & f & e & H). apply verify_needs in H. destruct H as (st1 & st2 & _ & E2). apply evaluate_next in E2. destruct E2 as (w & _ & _ & R & _).
    apply (multisig_run ks m s _ _ C) in R; [exact R|intros []].
  - intros ->. exists wit_off, (Script None [Instr x00 None]), 0, IE_None. apply (multisig_open ks); exact C.
Qed.
Lemma verify_own self a s f e :
  (exists h, p2pk_out_create h = Ok s) \/ (exists r, p2sh_out_create r = Ok s) \/ (exists d, op_return_create d = Ok s) \/
  (exists ks m, multisig_create ks m = Ok s /\ m <> 0) -> verify self a s f <> Ok (true, e).
Proof.
  intros [[h H]|[[r H]|[[d H]|(ks & m & H & N)]]].
  - apply p2pk_out_ok in H. apply verify_p2pkh. apply H.
  - apply p2sh_out_ok in H. destruct H as (rb & _ & H & _). apply verify_p2sh_out. exact H.
  - apply verify_doomed. right. unfold op_return_create in H. apply sub_create_inv in H. destruct H as [_ H].
    inversion H as [|? i ? l H1 _ EQ1 EQ2]. apply to_instruction_op in H1. destruct H1 as [-> _]. apply (doom_op [] _ l); [constructor|vm_compute; tauto].
  - intros V. apply N. apply (multisig_spendable ks m s H). eauto.
Qed.

(** ** examples *)
Lemma ex_doomed : doomed [Instr x76 None; Instr x63 None; Instr x51 None; Instr x6a None; Instr x67 None; Instr xac None; Instr x68 None; Instr x51 None].
Proof.
  apply (doom_if [Instr x76 None] (Instr x63 None) [Instr x51 None; Instr x6a None] (Instr x67 None) [Instr xac None] [Instr x68 None; Instr x51 None]).
  - apply bl_op; [unfold conditional; vm_compute; intuition discriminate|constructor].
  - left. reflexivity.
  - apply bl_op; [unfold conditional; vm_compute; intuition discriminate|]. apply bl_op; [unfold conditional; vm_compute; intuition discriminate|constructor].
  - reflexivity.
  - apply (doom_op [Instr x51 None] (Instr x6a None) []); [|vm_compute; tauto]. apply bl_op; [unfold conditional; vm_compute; intuition discriminate|constructor].
  - apply (doom_op [] (Instr xac None) []); [constructor|vm_compute; tauto].
Qed.
(** a dead opcode in one branch only is harmless in the other *)
Lemma one_branch_spendable : exists a, verify wit_off a (Script None [Instr x63 None; Instr x6a None; Instr x67 None; Instr x51 None; Instr x68 None]) 0 = Ok (true, IE_None).
Proof. exists (Script None [Instr x00 None]). vm_compute. reflexivity. Qed.
Lemma dead_somewhere : ~ (forall self a b f e, Exists (fun i => dead (bZ (i_op i))) (s_ins b) -> verify self a b f <> Ok (true, e)).
Proof.
  intros H. destruct one_branch_spendable as [a V]. apply (H _ _ _ _ _) in V; [exact V|]. cbn [s_ins]. apply Exists_cons_tl, Exists_cons_hd. vm_compute. tauto.
Qed.
Lemma ex_broken : broken (Script None [Instr x00 None; Instr x63 None; Instr x65 None; Instr x68 None; Instr x51 None]) /\
  broken (Script None (repeat (Instr x61 None) 202)) /\ broken (Script None [Instr x51 None; Instr x63 None; Instr x51 None]).
Proof.
  split; [|split].
  - left. cbn [s_ins]. apply Exists_cons_tl, Exists_cons_tl, Exists_cons_hd. left. left. reflexivity.
  - right. left. vm_compute. reflexivity.
  - right. right. left. intros B. assert (N : forall l, block l -> count_occ Z.eq_dec l 99 = 1%nat -> In 104 l).
    { intros l X. induction X as [|z r C X IH|z b r Z D X IH]; cbn [count_occ]; [discriminate| |].
      - destruct (Z.eq_dec z 99) as [->|]; [destruct C; unfold conditional; auto|]. intros E. right. apply IH. exact E.
      - intros _. right. apply in_or_app. right. left. reflexivity. }
    specialize (N _ B eq_refl). vm_compute in N. intuition discriminate.
Qed.
