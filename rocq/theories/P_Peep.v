(** Proofs about replacing a part of a script by another that does the same. *)
From Coq Require Import ZArith List Lia Bool.
From Verif Require Import Base M_Codec S_Codec P_Codec M_Hash M_Keys M_Script S_Script P_Script M_Interp S_Interp P_Interp S_Peep.
Import ListNotations.
Open Scope Z_scope.

(** ** fewer operations counted *)
Definition less (st st2 : interp) : Prop :=
  s_stack st2 = s_stack st /\ s_alt st2 = s_alt st /\ s_nop st2 <= s_nop st /\ s_vf st2 = s_vf st /\ s_errstr st2 = s_errstr st /\ s_flags st2 = s_flags st.
Definition carried (r r' : res outcome) : Prop :=
  match r with Ok (Next st) => exists st2, r' = Ok (Next st2) /\ less st st2 | _ => True end.
Ltac less_end := first [exact I | eexists; split; [reflexivity|]; unfold less;
  cbn [s_stack s_alt s_pc s_begin s_nop s_vf s_errstr s_flags s_script set_stack set_alt set_vf set_begin set_nop];
  repeat split; solve [assumption | lia | reflexivity]].
Ltac less_case := match goal with
  | |- carried (match ?x with _ => _ end) (match ?x with _ => _ end) => destruct x
  | |- carried (bind ?x _) (bind ?x _) => destruct x
  | |- carried (Ok (Fail _)) _ => exact I
  | |- carried (Err _) _ => exact I
  end.
Ltac less_op := unfold need, go, unpack_error; cbn [s_stack s_alt s_flags s_vf s_nop]; repeat (less_case; cbn [bind]); try less_end.
Section Less.
Context (m : bool) (s a : list pyb) (pc pc2 bg bg2 n n2 : Z) (N : n2 <= n) (vf : list bool) (e : ierr) (f : Z) (sc sc2 : script).
Let st := Interp s a pc bg n vf e f sc.
Let st2 := Interp s a pc2 bg2 n2 vf e f sc2.
Lemma less_multisig v : carried (do_checkmultisig st m v) (do_checkmultisig st2 m v).
Proof using N.
  unfold do_checkmultisig, st, st2. clear st st2. unfold need. cbn [s_stack s_nop set_nop s_flags].
  less_case; [exact I|]. destruct (last_n 1 s) as [|b [|? ?]]; try exact I. destruct (decode_script_number b m 4) as [k|]; [|exact I]. cbn [bind].
  destruct (negb _) eqn:K; [exact I|]. destruct (n + k >? 201) eqn:G1; [exact I|]. replace (n2 + k >? 201) with false by lia. less_case; [exact I|].
  destruct (nth_error _ _) as [c|]; [|exact I]. destruct (decode_script_number c m 4) as [j|]; [|exact I]. cbn [bind]. destruct (negb ((0 <=? j) && _)) eqn:J in |- *; [exact I|].
  less_case; [exact I|]. destruct (Z.gtb_spec j 0) as [G|G].
  - destruct (remove_all _ _) in |- *; exact I.
  - assert (j = 0) as -> by lia. change (Z.to_nat 0) with 0%nat.
    replace (last_n 0 (drop_last (Z.to_nat k + 2) s)) with (@nil pyb) by (unfold last_n; rewrite Nat.sub_0_r, skipn_all; reflexivity).
    cbn [rev remove_all bind]. destruct (last_n 1 _) as [|d [|? ?]]; try exact I.
    less_case; [exact I|]. unfold go. less_end.
Qed.
Lemma less_checksig : carried (do_checksig st) (do_checksig st2).
Proof using.
  unfold do_checksig, st, st2, need, unpack_error. cbn [s_stack]. destruct (blen s <? 2); [exact I|]. destruct (last_n 2 s) as [|x [|y [|? ?]]]; try exact I.
  destruct (script_remove_opcode_by_data _ _) in |- *; exact I.
Qed.
Lemma less_dispatch x o : carried (dispatch st m x o) (dispatch st2 m x o).
Proof using N.
  unfold dispatch.
  repeat match goal with |- carried (if ?b then _ else _) (if ?b then _ else _) => destruct b end.
  all: try apply less_multisig; try apply less_checksig.
  all: unfold do_cltv, do_nop_n, do_if, do_else, do_endif, do_verify, do_toalt, do_fromalt, do_2drop, do_2dup, do_3dup, do_2over, do_2rot, do_2swap,
    do_ifdup, do_depth, do_drop, do_dup, do_nip, do_over, do_pick_roll, do_rot, do_swap, do_tuck, do_size, do_equal, do_unary, do_binary, do_within, do_hash,
    unpack_error, st, st2; cbv zeta; less_op.
Qed.
Lemma less_push i : carried (do_push st m i) (do_push st2 m i).
Proof using N. unfold do_push, st, st2. cbn [s_stack]. less_op. Qed.
End Less.
Lemma less_step st st2 i : less st st2 -> carried (step st i) (step st2 i).
Proof.
  destruct st as [s a pc bg n vf e f sc], st2 as [s2 a2 pc2 bg2 n2 vf2 e2 f2 sc2]. unfold less. cbn [s_stack s_alt s_nop s_vf s_errstr s_flags]. intros (-> & -> & N & -> & -> & ->).
  unfold step. cbv zeta. cbn [s_flags s_vf s_pc set_pc set_nop s_nop s_stack s_alt s_begin s_errstr s_script].
  destruct (match data_bytes i with Some d => _ | None => false end); [exact I|].
  destruct (negb (op_leb (i_op i) OP_16)); cbn [andb s_flags s_vf s_pc set_pc set_nop s_nop s_stack s_alt s_begin s_errstr s_script].
  - destruct (n + 1 >? 201) eqn:G; [exact I|]. replace (n2 + 1 >? 201) with false by lia. destruct (op_in _ _); [exact I|]. destruct (_ && _); [apply less_push; lia|].
    destruct (_ || _); [apply less_dispatch; lia|less_end].
  - destruct (op_in _ _); [exact I|]. destruct (_ && _); [apply less_push; exact N|].
    destruct (_ || _); [apply less_dispatch; exact N|less_end].
Qed.
Lemma less_run l : forall st st2, less st st2 -> carried (run l st) (run l st2).
Proof.
  induction l as [|i l IH]; intros st st2 L; cbn [run].
  - exists st2. auto.
  - pose proof (less_step st st2 i L) as C. destruct (step st i) as [[st1|]|]; cbn [bind]; try exact I. destruct C as (st3 & -> & L3). cbn [bind]. apply IH, L3.
Qed.
Lemma run_next l st st2 st1 : less st st2 -> run l st = Ok (Next st1) -> exists st3, run l st2 = Ok (Next st3) /\ less st1 st3.
Proof. intros L H. pose proof (less_run l st st2 L) as C. rewrite H in C. exact C. Qed.
Lemma run_fixed l : forall st st1, run l st = Ok (Next st1) -> s_errstr st1 = s_errstr st /\ s_flags st1 = s_flags st.
Proof.
  induction l as [|i l IH]; intros st st1 H; [injection H as <-; auto|]. apply run_cons_next in H. destruct H as (st2 & S & R). apply step_inv in S.
  destruct (IH _ _ R) as [-> ->]. split; [apply (p_err _ _ _ S)|apply (p_flags _ _ _ S)].
Qed.
Lemma run_split a b st st1 : run (a ++ b) st = Ok (Next st1) <-> exists st2, run a st = Ok (Next st2) /\ run b st2 = Ok (Next st1).
Proof.
  rewrite run_app. split.
  - destruct (run a st) as [[st2|]|]; cbn [bind]; try discriminate. eauto.
  - intros (st2 & -> & H). exact H.
Qed.
(** ** in the middle of a script *)
Lemma improves_less a b st st1 : improves a b -> run a st = Ok (Next st1) -> exists st2, run b st = Ok (Next st2) /\ less st1 st2.
Proof.
  intros I H. destruct (I st st1 H) as (st2 & R & A & B & C & D). exists st2. split; [exact R|]. apply run_fixed in H, R. unfold less. destruct H, R. repeat split; congruence.
Qed.
Lemma improves_refl a : improves a a.
Proof. intros st st1 H. exists st1. repeat split; auto. lia. Qed.
Lemma improves_trans a b c : improves a b -> improves b c -> improves a c.
Proof.
  intros I J st st1 H. destruct (I st st1 H) as (st2 & R & A & B & C & D). destruct (J st st2 R) as (st3 & R' & A' & B' & C' & D'). exists st3.
  split; [exact R'|]. repeat split; try congruence. lia.
Qed.
Lemma improves_app a b a' b' : improves a a' -> improves b b' -> improves (a ++ b) (a' ++ b').
Proof.
  intros I J st st1 H. apply run_split in H. destruct H as (st2 & H1 & H2). destruct (improves_less _ _ _ _ I H1) as (st3 & R3 & L3).
  destruct (run_next b st2 st3 st1 L3 H2) as (st4 & R4 & L4). destruct (J _ _ R4) as (st5 & R5 & A & B & C & D). exists st5. split; [apply run_split; eauto|].
  destruct L4 as (A4 & B4 & C4 & D4 & _). repeat split; try congruence. lia.
Qed.
Lemma improves_inside pre a b post : improves a b -> improves (pre ++ a ++ post) (pre ++ b ++ post).
Proof. intros I. apply improves_app; [apply improves_refl|]. apply improves_app; [exact I|apply improves_refl]. Qed.
Lemma improves_script a b s f st1 : improves (s_ins a) (s_ins b) -> (exists w, script_to_bytes b = Ok w /\ blen w <= 10000) ->
  evaluate (ready a s f) = Ok (Next st1) -> exists st2, evaluate (ready b s f) = Ok (Next st2) /\ s_stack st2 = s_stack st1.
Proof.
  intros I (w & W & L) H. apply evaluate_next in H. destruct H as (w0 & _ & _ & R & IT & V). cbn [ready s_script] in R.
  assert (R2 : exists st2, run (s_ins a) (ready b s f) = Ok (Next st2) /\ less st1 st2).
  { apply (run_next _ (ready a s f)); [|exact R]. unfold less, ready. cbn. repeat split; lia. }
  destruct R2 as (st2 & R2 & L2). destruct (I _ _ R2) as (st3 & R3 & A & B & C & D). destruct L2 as (A2 & B2 & C2 & D2 & _).
  exists st3. split; [|congruence]. apply evaluate_next. exists w. cbn [ready s_script]. split; [exact W|]. split; [exact L|]. split; [exact R3|].
  split; [unfold items in *; congruence|congruence].
Qed.
Lemma improves_verify self a b a' b' f e : improves (s_ins a) (s_ins a') -> improves (s_ins b) (s_ins b') ->
  (exists w, script_to_bytes a' = Ok w /\ blen w <= 10000) -> (exists w, script_to_bytes b' = Ok w /\ blen w <= 10000) ->
  (flag f SIGPUSHONLY -> Forall (fun i => bZ (i_op i) <= 96) (s_ins a')) ->
  verify self a b f = Ok (true, e) -> verify self a' b' f = Ok (true, e).
Proof.
  intros I J W W' P. rewrite !verify_iff. intros (E & NP & _ & st1 & st2 & s & x & E1 & E2 & S & T). split; [exact E|]. split; [exact NP|]. split; [exact P|].
  destruct (improves_script a a' _ _ _ I W E1) as (st3 & E3 & S3). destruct (improves_script b b' _ _ _ J W' E2) as (st4 & E4 & S4).
  exists st3, st4, s, x. rewrite S3. split; [exact E3|]. split; [exact E4|]. rewrite S4. auto.
Qed.
