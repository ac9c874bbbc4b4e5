From Verif Require Import Base M_Hash S_Codec M_Codec M_Keys M_EC M_Script S_Script M_Interp S_Interp S_Ref S_Local.
From Verif Require Import P_Interp P_Ref P_RefBtc.
Open Scope Z_scope.

Lemma last_n_base {A} (b l : list A) k : (k <= length l)%nat -> last_n k (b ++ l) = last_n k l.
Proof. intros H. unfold last_n. rewrite app_length, skipn_app. rewrite (skipn_all2 b) by lia. cbn [app]. f_equal. lia. Qed.
Lemma drop_last_base {A} (b l : list A) k : (k <= length l)%nat -> drop_last k (b ++ l) = b ++ drop_last k l.
Proof. intros H. unfold drop_last. rewrite app_length, firstn_app. rewrite (firstn_all2 b) by lia. f_equal. f_equal. lia. Qed.
Lemma nth_base {A} (b l : list A) k : (k <= length l)%nat -> (0 < k)%nat -> nth_error (b ++ l) (length (b ++ l) - k) = nth_error l (length l - k).
Proof. intros H K. rewrite app_length, nth_error_app2 by lia. f_equal. lia. Qed.
Lemma blen_base {A} (b l : list A) : blen (b ++ l) = blen b + blen l.
Proof. unfold blen. rewrite app_length. lia. Qed.

(** What the result with more items at the bottom must be. *)
Definition framed (base : list pyb) (r r' : res outcome) : Prop :=
  match r with
  | Ok (Next st) => r' = Ok (Next (under base st))
  | Ok (Fail IE_InvalidStack) | Ok (Fail IE_Unbalanced) => True
  | _ => r' = r
  end.
Lemma framed_fail base e : framed base (Ok (Fail e)) (Ok (Fail e)).
Proof. destruct e; cbn; auto. Qed.
Lemma framed_err base e : framed base (Err e) (Err e).
Proof. reflexivity. Qed.
Lemma framed_next base st st' : st' = under base st -> framed base (Ok (Next st)) (Ok (Next st')).
Proof. intros ->. reflexivity. Qed.
Lemma framed_need base st k r r' : (k <= blen (s_stack st) -> framed base r r') -> framed base (need st k r) (need (under base st) k r').
Proof.
  intros H. unfold need. destruct (Z.ltb_spec (blen (s_stack st)) k) as [L|L]; [exact I|].
  replace (blen (s_stack (under base st)) <? k) with false; [apply H, L|]. cbn [s_stack under]. rewrite blen_base. unfold blen in *. lia.
Qed.
Ltac flat := rewrite ?last_n_base, ?drop_last_base by (unfold blen in *; lia).
Ltac frame_end := first [apply framed_fail | apply framed_err | apply framed_next; unfold under, set_stack, set_alt, set_vf, set_begin, set_nop; cbn [s_stack s_alt s_pc s_begin s_nop s_vf s_errstr s_flags s_script]; rewrite ?app_assoc; reflexivity].
Ltac frame_cases := cbn [bind]; repeat (
  match goal with
  | |- framed _ (match ?x with _ => _ end) (match ?x with _ => _ end) => destruct x
  | |- framed _ (bind ?x _) (bind ?x _) => destruct x
  end; cbn [bind]); try frame_end.
Ltac frame_op := apply framed_need; intros L; cbn [s_stack s_flags s_alt s_vf under] in *; flat; unfold go, unpack_error; frame_cases.

Lemma frame_pick base st m r : framed base (do_pick_roll st m r) (do_pick_roll (under base st) m r).
Proof.
  unfold do_pick_roll. frame_op. set (t := drop_last 1 (s_stack st)) in *. assert (T : (1 <= length t)%nat) by (unfold t, drop_last, blen in *; rewrite firstn_length; lia).
  rewrite blen_base. destruct (Z.ltb_spec a 0) as [N|N]; cbn [orb]; [exact I|]. destruct (Z.geb_spec a (blen t)) as [G|G]; [exact I|].
  replace (a >=? blen base + blen t) with false by (unfold blen in *; lia).
  replace (length (base ++ t) - Z.to_nat a - 1)%nat with (length (base ++ t) - (S (Z.to_nat a)))%nat by lia.
  rewrite nth_base by (unfold blen in *; lia). replace (length t - Z.to_nat a - 1)%nat with (length t - (S (Z.to_nat a)))%nat by lia.
  destruct (nth_error t _); [|frame_end]. apply framed_next. unfold under, set_stack. cbn [s_stack s_alt s_pc s_begin s_nop s_vf s_errstr s_flags s_script]. f_equal. destruct r; [|symmetry; apply app_assoc].
  rewrite app_assoc. f_equal. rewrite app_length. rewrite firstn_app, skipn_app.
  unfold blen in *. rewrite (firstn_all2 base) by lia. rewrite (skipn_all2 base) by lia. cbn [app].
  rewrite <- app_assoc. f_equal. f_equal; f_equal; lia.
Qed.

Lemma frame_multisig base st m v : framed base (do_checkmultisig st m v) (do_checkmultisig (under base st) m v).
Proof.
  unfold do_checkmultisig. apply framed_need. intros L. cbn [s_stack under]. flat.
  destruct (last_n 1 (s_stack st)) as [|b [|? ?]]; try frame_end. destruct (decode_script_number b m 4) as [k|]; cbn [bind]; [|frame_end]. cbv zeta.
  destruct (negb _) eqn:K; [frame_end|]. cbn [s_nop set_nop]. destruct (_ >? 201); [frame_end|].
  change (set_nop (under base st) (s_nop (under base st) + k)) with (under base (set_nop st (s_nop st + k))).
  set (st1 := set_nop st (s_nop st + k)) in *. change (s_stack st) with (s_stack st1) in *.
  apply framed_need. intros L1. change (s_stack (under base st1)) with (base ++ s_stack st1).
  replace (length (base ++ s_stack st1) - Z.to_nat k - 2)%nat with (length (base ++ s_stack st1) - (Z.to_nat k + 2))%nat by lia.
  rewrite nth_base by (unfold blen in *; lia). replace (length (s_stack st1) - Z.to_nat k - 2)%nat with (length (s_stack st1) - (Z.to_nat k + 2))%nat by lia.
  destruct (nth_error _ _) as [c|]; [|frame_end]. destruct (decode_script_number c m 4) as [g|]; cbn [bind]; [|frame_end].
  destruct (negb _) eqn:G in |- *; [frame_end|]. apply framed_need. intros L2. change (s_stack (under base st1)) with (base ++ s_stack st1).
  change (subscript (under base st1)) with (subscript st1). change (s_flags (under base st1)) with (s_flags st1).
  rewrite (drop_last_base base (s_stack st1)) by (unfold blen in *; lia).
  assert (D : (Z.to_nat g <= length (drop_last (Z.to_nat k + 2) (s_stack st1)))%nat) by (unfold drop_last; rewrite firstn_length; unfold blen in *; lia).
  rewrite last_n_base by exact D.
  rewrite (drop_last_base base (s_stack st1)) by (unfold blen in *; lia).
  assert (E : (1 <= length (drop_last (Z.to_nat (g + k + 2)) (s_stack st1)))%nat) by (unfold drop_last; rewrite firstn_length; unfold blen in *; lia).
  rewrite last_n_base, (drop_last_base base (drop_last _ _)) by exact E.
  destruct (remove_all _ _); cbn [bind]; [|frame_end]. destruct (g >? 0); [frame_end|].
  destruct (last_n 1 _) as [|d [|? ?]]; try frame_end. destruct (has_flag _ _ && _); [frame_end|].
  apply framed_next. unfold under, set_stack. cbn [s_stack s_alt s_pc s_begin s_nop s_vf s_errstr s_flags s_script]. f_equal.
  rewrite <- app_assoc. destruct v; [|reflexivity]. apply drop_last_base. rewrite app_length. cbn [length]. lia.
Qed.
Lemma frame_nop base st : framed base (do_nop_n st) (do_nop_n (under base st)).
Proof. unfold do_nop_n. cbn [s_flags under]. frame_cases. Qed.
Lemma frame_if base st f o : framed base (do_if st f o) (do_if (under base st) f o).
Proof.
  unfold do_if. destruct f; [|frame_end]. cbn [s_stack under]. destruct (Z.ltb_spec (blen (s_stack st)) 1) as [L|L]; [exact I|].
  rewrite blen_base. replace (blen base + blen (s_stack st) <? 1) with false by (unfold blen in *; lia). flat. unfold unpack_error. cbv zeta. frame_cases.
Qed.
Lemma frame_else base st : framed base (do_else st) (do_else (under base st)).
Proof. unfold do_else. cbn [s_vf under]. unfold unpack_error. frame_cases. Qed.
Lemma frame_endif base st : framed base (do_endif st) (do_endif (under base st)).
Proof. unfold do_endif. cbn [s_vf under]. frame_cases. Qed.
Lemma frame_fromalt base st : framed base (do_fromalt st) (do_fromalt (under base st)).
Proof. unfold do_fromalt. cbn [s_alt s_stack under]. frame_cases. Qed.
Lemma frame_equal base st v : framed base (do_equal st v) (do_equal (under base st) v).
Proof.
  unfold do_equal. frame_op.
  rewrite <- app_assoc, (drop_last_base base) by (rewrite app_length; cbn [length]; lia). frame_end.
Qed.
Lemma frame_binary base st m o : framed base (do_binary st m o) (do_binary (under base st) m o).
Proof.
  unfold do_binary. frame_op.
  rewrite <- app_assoc, (drop_last_base base) by (rewrite app_length; cbn [length]; lia). frame_end.
Qed.
Lemma frame_checksig base st : framed base (do_checksig st) (do_checksig (under base st)).
Proof. unfold do_checksig. frame_op. change (subscript (under base st)) with (subscript st). frame_cases. Qed.
Lemma frame_cltv base st m : framed base (do_cltv st m) (do_cltv (under base st) m).
Proof. unfold do_cltv. change (s_flags (under base st)) with (s_flags st). destruct (_ && _); [frame_end|]. frame_op. Qed.
Lemma frame_dispatch base st m f o : ~ In (bZ o) notice -> framed base (dispatch st m f o) (dispatch (under base st) m f o).
Proof.
  intros N. unfold dispatch.
  repeat match goal with |- framed _ (if ?b then _ else _) (if ?b then _ else _) => let E := fresh "B" in destruct b eqn:E end.
  all: try apply frame_pick; try apply frame_multisig; try apply frame_nop; try apply frame_if; try apply frame_else; try apply frame_endif;
    try apply frame_fromalt; try apply frame_equal; try apply frame_binary; try apply frame_checksig; try apply frame_cltv.
  all: try (unfold do_verify, do_toalt, do_2drop, do_2dup, do_3dup, do_2over, do_2rot, do_2swap, do_ifdup, do_dup, do_nip, do_over,
    do_rot, do_swap, do_tuck, do_size, do_unary, do_within, do_hash; solve [frame_op]).
  all: try (unfold go; frame_end).
  - exfalso. apply N. left. destruct o; try discriminate; reflexivity.
  - exfalso. apply N. right. left. destruct o; try discriminate; reflexivity.
Qed.
Lemma frame_push base st m i : framed base (do_push st m i) (do_push (under base st) m i).
Proof. unfold do_push. cbn [s_stack under]. unfold go. frame_cases. Qed.
Lemma frame_step base st i : ~ In (bZ (i_op i)) notice -> framed base (step st i) (step (under base st) i).
Proof.
  intros N. unfold step. cbv zeta.
  change (set_pc (under base st) (s_pc (under base st) + 1)) with (under base (set_pc st (s_pc st + 1))).
  change (s_flags (under base st)) with (s_flags st). change (s_vf (under base st)) with (s_vf st).
  set (st0 := set_pc st (s_pc st + 1)).
  destruct (match data_bytes i with Some d => _ | None => false end); [frame_end|].
  destruct (negb (op_leb (i_op i) OP_16)); cbn [andb].
  - change (set_nop (under base st0) (s_nop (under base st0) + 1)) with (under base (set_nop st0 (s_nop st0 + 1))).
    set (st1 := set_nop st0 (s_nop st0 + 1)). change (s_nop (under base st1)) with (s_nop st1).
    destruct (s_nop st1 >? 201); [frame_end|]. destruct (op_in _ _); [frame_end|]. destruct (_ && _); [apply frame_push|].
    destruct (_ || _); [apply frame_dispatch, N|frame_end].
  - destruct (op_in _ _); [frame_end|]. destruct (_ && _); [apply frame_push|].
    destruct (_ || _); [apply frame_dispatch, N|frame_end].
Qed.
Lemma frame_step_next base st i st' : ~ In (bZ (i_op i)) notice -> step st i = Ok (Next st') -> step (under base st) i = Ok (Next (under base st')).
Proof. intros N H. pose proof (frame_step base st i N) as F. rewrite H in F. exact F. Qed.
Lemma frame_step_back base st i st2 : ~ In (bZ (i_op i)) notice -> step (under base st) i = Ok (Next st2) ->
  (exists st', step st i = Ok (Next st') /\ st2 = under base st') \/ (exists o, step st i = Ok o /\ underflow o).
Proof.
  intros N H. pose proof (frame_step base st i N) as F. rewrite H in F. unfold framed, underflow in *. destruct (step st i) as [[st'|e]|e]; [| |discriminate].
  - left. exists st'. split; [reflexivity|]. injection F as ->. reflexivity.
  - right. exists (Fail e). split; [reflexivity|]. destruct e; try discriminate; auto.
Qed.
Lemma frame_step_fail base st i o : ~ In (bZ (i_op i)) notice -> step st i = Ok (Fail o) -> ~ underflow (Fail o) -> step (under base st) i = Ok (Fail o).
Proof.
  intros N H U. pose proof (frame_step base st i N) as F. rewrite H in F. unfold framed, underflow in *. destruct o; try exact F; exfalso; apply U; auto.
Qed.
Lemma frame_run base l st st' : Forall (fun i => ~ In (bZ (i_op i)) notice) l -> run l st = Ok (Next st') -> run l (under base st) = Ok (Next (under base st')).
Proof.
  intros N. revert st. induction N as [|i l N NS IH]; intros st; cbn [run].
  - intros H. injection H as ->. reflexivity.
  - destruct (step st i) as [[st1|]|] eqn:E; cbn [bind]; try discriminate. rewrite (frame_step_next base st i st1 N E). cbn [bind]. apply IH.
Qed.

Lemma drop_step st i st' base : bZ (i_op i) = 117 -> step st i = Ok (Next st') ->
  exists kept t, base = kept ++ t /\ step (under base st) i = Ok (Next (under kept st')).
Proof.
  intros Z0. unfold step. cbv zeta.
  change (set_pc (under base st) (s_pc (under base st) + 1)) with (under base (set_pc st (s_pc st + 1))).
  change (s_flags (under base st)) with (s_flags st). change (s_vf (under base st)) with (s_vf st). generalize (has_flag (s_flags st) VERIFY_MINIMALDATA). intros m.
  set (st0 := set_pc st (s_pc st + 1)).
  destruct (match data_bytes i with Some d => _ | None => false end); [discriminate|].
  assert (OP : i_op i = OP_DROP) by (revert Z0; destruct (i_op i); intros Z0; try discriminate Z0; reflexivity). rewrite OP.
  change (negb (op_leb OP_DROP OP_16)) with true. cbn [andb].
  change (set_nop (under base st0) (s_nop (under base st0) + 1)) with (under base (set_nop st0 (s_nop st0 + 1))).
  set (st1 := set_nop st0 (s_nop st0 + 1)). change (s_nop (under base st1)) with (s_nop st1).
  destruct (s_nop st1 >? 201); [discriminate|]. change (op_in OP_DROP disabled_ops) with false.
  change (op_leb OP_DROP OP_PUSHDATA4) with false. change (op_leb OP_IF OP_DROP && op_leb OP_DROP OP_ENDIF) with false. rewrite andb_false_r, orb_false_r.
  destruct (negb _).
  - change (dispatch st1 m true OP_DROP) with (do_drop st1). change (dispatch (under base st1) m true OP_DROP) with (do_drop (under base st1)).
    unfold do_drop, need, go. cbn [s_stack under]. rewrite blen_base. destruct (Z.ltb_spec (blen (s_stack st1)) 1) as [L|L]; [discriminate|].
    replace (blen base + blen (s_stack st1) <? 1) with false by (unfold blen in *; lia). intros H. assert (st' = set_stack st1 (drop_last 1 (drop_last 1 (s_stack st1)))) as -> by congruence. clear H.
    rewrite drop_last_base by (unfold blen in *; lia). destruct (Nat.le_gt_cases 1 (length (drop_last 1 (s_stack st1)))) as [K|K].
    + exists base, []. rewrite app_nil_r. split; [reflexivity|]. rewrite drop_last_base by exact K. reflexivity.
    + destruct (drop_last 1 (s_stack st1)) as [|? ?]; [|cbn in K; lia]. rewrite app_nil_r.
      exists (drop_last 1 base), (last_n 1 base). split; [unfold drop_last, last_n; symmetry; apply firstn_skipn|].
      unfold under, set_stack. cbn [s_stack s_alt s_pc s_begin s_nop s_vf s_errstr s_flags s_script]. change (drop_last 1 (@nil pyb)) with (@nil pyb). rewrite app_nil_r. reflexivity.
  - intros [= <-]. exists base, []. rewrite app_nil_r. auto.
Qed.
Lemma kept_run base l st st' : Forall (fun i => ~ In (bZ (i_op i)) [116]) l -> run l st = Ok (Next st') ->
  exists kept t, base = kept ++ t /\ run l (under base st) = Ok (Next (under kept st')).
Proof.
  intros N. revert st base. induction N as [|i l N NS IH]; intros st base; cbn [run].
  - intros H. injection H as ->. exists base, []. rewrite app_nil_r. auto.
  - destruct (step st i) as [[st1|]|] eqn:E; cbn [bind]; try discriminate. intros R.
    assert (K : exists kept t, base = kept ++ t /\ step (under base st) i = Ok (Next (under kept st1))).
    { destruct (Z.eq_dec (bZ (i_op i)) 117) as [D|D]; [apply drop_step; assumption|]. exists base, []. rewrite app_nil_r. split; [reflexivity|].
      apply frame_step_next; [|exact E]. unfold notice. cbn [In] in *. intuition. }
    destruct K as (k1 & t1 & -> & ->). cbn [bind]. destruct (IH st1 k1 R) as (k2 & t2 & -> & R2). exists k2, (t2 ++ t1). rewrite app_assoc. auto.
Qed.

(** ** Other flags, another position *)
Definition like (X : Prop) (g : Z) (st st2 : interp) : Prop :=
  s_stack st2 = s_stack st /\ s_alt st2 = s_alt st /\ s_nop st2 = s_nop st /\ s_vf st2 = s_vf st /\ s_errstr st2 = s_errstr st /\
  s_flags st2 = g /\ fewer g (s_flags st) /\ (X -> s_pc st2 = s_pc st /\ s_begin st2 = s_begin st /\ s_script st2 = s_script st).
Definition carried (X : Prop) (g : Z) (r r' : res outcome) : Prop :=
  match r with Ok (Next st) => exists st2, r' = Ok (Next st2) /\ like X g st st2 | _ => True end.
Lemma has_fewer g f k : 0 <= k -> fewer g f -> has_flag g (2 ^ k) = true -> has_flag f (2 ^ k) = true.
Proof.
  intros K F. assert (B : forall x, has_flag x (2 ^ k) = Z.testbit x k).
  { intros x. unfold has_flag. destruct (Z.testbit x k) eqn:T.
    - apply negb_true_iff, Z.eqb_neq. intros E. apply (f_equal (fun y => Z.testbit y k)) in E. rewrite Z.land_spec, T, Z.pow2_bits_true, Z.bits_0 in E by lia. discriminate.
    - apply negb_false_iff, Z.eqb_eq. apply Z.bits_inj'. intros n N. rewrite Z.land_spec, Z.pow2_bits_eqb, Z.bits_0 by lia.
      destruct (Z.eqb_spec k n) as [->|]; [rewrite T; reflexivity|apply andb_false_r]. }
  rewrite !B. apply F.
Qed.
Lemma decode_fewer p m m2 k n : (m2 = true -> m = true) -> decode_script_number p m k = Ok n -> decode_script_number p m2 k = Ok n.
Proof.
  intros M H. destruct m2; [rewrite <- (M eq_refl); exact H|]. destruct m; [|exact H]. revert H. unfold decode_script_number.
  destruct (_ >=? _); [discriminate|]. destruct p as [l|l]; cbn [pyb_bytes]; destruct l; auto. cbn [andb]. destruct (_ && _) in |- *; [discriminate|auto].
Qed.

Ltac like_end := first [exact I | eexists; split; [reflexivity|]; unfold like;
  cbn [s_stack s_alt s_pc s_begin s_nop s_vf s_errstr s_flags s_script set_stack set_alt set_vf set_begin set_nop]; 
  repeat split; solve [assumption | intros; repeat match goal with X : ?x, H : ?x -> _ |- _ => specialize (H X) end; intuition congruence]].
Ltac like_case := match goal with
  | |- carried _ _ (match ?x with _ => _ end) (match ?x with _ => _ end) => destruct x
  | |- carried _ _ (bind ?x _) (bind ?x _) => destruct x
  | M : ?m2 = true -> ?m = true |- carried _ _ (bind (decode_script_number ?p ?m ?k) _) (bind (decode_script_number ?p ?m2 ?k) _) =>
      let D := fresh "D" in destruct (decode_script_number p m k) eqn:D; [rewrite (decode_fewer p m m2 k _ M D)|exact I]
  | |- carried _ _ (Ok (Fail _)) _ => exact I
  | |- carried _ _ (Err _) _ => exact I
  end.
Ltac like_op := unfold need, go, unpack_error; cbn [s_stack s_alt s_flags s_vf s_nop]; repeat (like_case; cbn [bind]); try like_end.
Section Like.
Context (X : Prop) (g f : Z) (F : fewer g f) (m m2 : bool) (M : m2 = true -> m = true).
Context (s a : list pyb) (pc pc2 bg bg2 n : Z) (vf : list bool) (e : ierr) (sc sc2 : script) (XP : X -> pc2 = pc /\ bg2 = bg /\ sc2 = sc).
Let st := Interp s a pc bg n vf e f sc.
Let st2 := Interp s a pc2 bg2 n vf e g sc2.
Lemma like_multisig v : carried X g (do_checkmultisig st m v) (do_checkmultisig st2 m2 v).
Proof.
  unfold do_checkmultisig, st, st2. clear st st2. unfold need. cbn [s_stack s_nop set_nop s_flags].
  like_case; [exact I|]. destruct (last_n 1 s) as [|b [|? ?]]; try exact I. destruct (decode_script_number b m 4) as [k|] eqn:D1; [rewrite (decode_fewer b m m2 4 k M D1)|exact I]. cbn [bind].
  destruct (negb _) eqn:K; [exact I|]. like_case; [exact I|]. like_case; [exact I|].
  destruct (nth_error _ _) as [c|]; [|exact I]. destruct (decode_script_number c m 4) as [j|] eqn:D2; [rewrite (decode_fewer c m m2 4 j M D2)|exact I]. cbn [bind]. destruct (negb ((0 <=? j) && _)) eqn:J in |- *; [exact I|].
  like_case; [exact I|]. destruct (Z.gtb_spec j 0) as [G|G].
  - destruct (remove_all _ _) in |- *; exact I.
  - assert (j = 0) as -> by lia. change (Z.to_nat 0) with 0%nat.
    replace (last_n 0 (drop_last (Z.to_nat k + 2) s)) with (@nil pyb) by (unfold last_n; rewrite Nat.sub_0_r, skipn_all; reflexivity).
    cbn [rev remove_all bind]. destruct (last_n 1 _) as [|d [|? ?]]; try exact I.
    destruct (has_flag f _ && _) eqn:N1; [exact I|].
    replace (has_flag g VERIFY_NULLDUMMY && negb (pyb_len d =? 0)) with false; [unfold go; like_end|].
    symmetry. apply andb_false_iff. apply andb_false_iff in N1. destruct N1 as [N1|N1]; [left|right; exact N1].
    destruct (has_flag g VERIFY_NULLDUMMY) eqn:N2; [|reflexivity]. apply (has_fewer g f 4) in N2; [|lia|exact F]. change (2 ^ 4) with VERIFY_NULLDUMMY in N2. congruence.
Qed.
Lemma like_nop : carried X g (do_nop_n st) (do_nop_n st2).
Proof.
  unfold do_nop_n, st, st2. cbn [s_flags]. destruct (has_flag f _) eqn:N1; [exact I|]. destruct (has_flag g VERIFY_DISCOURAGE_NOPS) eqn:N2.
  - apply (has_fewer g f 7) in N2; [|lia|exact F]. change (2 ^ 7) with VERIFY_DISCOURAGE_NOPS in N2. congruence.
  - like_end.
Qed.
Lemma like_cltv : carried X g (do_cltv st m) (do_cltv st2 m2).
Proof.
  unfold do_cltv, st, st2, need, unpack_error. cbn [s_stack s_flags]. destruct (_ && _) in |- *; [exact I|]. destruct (blen s <? 1); [exact I|].
  destruct (last_n 1 s) as [|b [|? ?]]; try exact I. destruct (decode_script_number b m 5) as [k|]; cbn [bind]; [|exact I]. destruct (k <? 0); exact I.
Qed.
Lemma like_checksig : carried X g (do_checksig st) (do_checksig st2).
Proof.
  unfold do_checksig, st, st2, need, unpack_error. cbn [s_stack]. destruct (blen s <? 2); [exact I|]. destruct (last_n 2 s) as [|x [|y [|? ?]]]; try exact I.
  destruct (script_remove_opcode_by_data _ _) in |- *; exact I.
Qed.
Lemma like_dispatch x o : carried X g (dispatch st m x o) (dispatch st2 m2 x o).
Proof.
  unfold dispatch.
  repeat match goal with |- carried _ _ (if ?b then _ else _) (if ?b then _ else _) => destruct b end.
  all: try apply like_multisig; try apply like_nop; try apply like_cltv; try apply like_checksig.
  all: unfold do_if, do_else, do_endif, do_verify, do_toalt, do_fromalt, do_2drop, do_2dup, do_3dup, do_2over, do_2rot, do_2swap,
    do_ifdup, do_depth, do_drop, do_dup, do_nip, do_over, do_pick_roll, do_rot, do_swap, do_tuck, do_size, do_equal, do_unary, do_binary, do_within, do_hash,
    unpack_error, st, st2; cbv zeta; like_op.
Qed.
Lemma like_push i : carried X g (do_push st m i) (do_push st2 m2 i).
Proof.
  unfold do_push, st, st2. cbn [s_stack]. destruct m eqn:E1, m2 eqn:E2; try (discriminate (M eq_refl)).
  - like_op.
  - destruct (is_minimal_push i) as [[|]|]; cbn [bind negb]; try exact I. unfold go. like_end.
  - cbn [bind negb]. unfold go. like_end.
Qed.
End Like.
Lemma like_intro X g st st2 : like X g st st2 -> exists s a pc pc2 bg bg2 n vf e f sc sc2, st = Interp s a pc bg n vf e f sc /\
  st2 = Interp s a pc2 bg2 n vf e g sc2 /\ fewer g f /\ (X -> pc2 = pc /\ bg2 = bg /\ sc2 = sc).
Proof.
  destruct st as [s a pc bg n vf e f sc], st2 as [s2 a2 pc2 bg2 n2 vf2 e2 f2 sc2]. unfold like. cbn. intros (-> & -> & -> & -> & -> & -> & F & P).
  repeat eexists; try reflexivity; try assumption; apply P; assumption.
Qed.
Lemma like_step X g st st2 i : like X g st st2 -> carried X g (step st i) (step st2 i).
Proof.
  intros L. apply like_intro in L. destruct L as (s & a & pc & pc2 & bg & bg2 & n & vf & e & f & sc & sc2 & -> & -> & F & P).
  assert (M : has_flag g VERIFY_MINIMALDATA = true -> has_flag f VERIFY_MINIMALDATA = true) by (apply (has_fewer g f 6); [lia|exact F]).
  assert (P1 : X -> pc2 + 1 = pc + 1 /\ bg2 = bg /\ sc2 = sc) by (intros x; destruct (P x) as (-> & -> & ->); auto).
  unfold step. cbv zeta. cbn [s_flags s_vf s_pc set_pc set_nop s_nop s_stack s_alt s_begin s_errstr s_script].
  destruct (match data_bytes i with Some d => _ | None => false end); [exact I|].
  destruct (negb (op_leb (i_op i) OP_16)); cbn [andb].
  - destruct (_ >? 201); [exact I|]. destruct (op_in _ _); [exact I|]. destruct (_ && _); [apply like_push; assumption|].
    destruct (_ || _); [apply like_dispatch; assumption|like_end].
  - destruct (op_in _ _); [exact I|]. destruct (_ && _); [apply like_push; assumption|].
    destruct (_ || _); [apply like_dispatch; assumption|like_end].
Qed.
Lemma like_run X g l : forall st st2, like X g st st2 -> carried X g (run l st) (run l st2).
Proof.
  induction l as [|i l IH]; intros st st2 L; cbn [run].
  - exists st2. auto.
  - pose proof (like_step X g st st2 i L) as C. destruct (step st i) as [[st1|]|]; cbn [bind]; try exact I. destruct C as (st3 & -> & L3). cbn [bind]. apply IH, L3.
Qed.

(** ** flags *)
Lemma flags_step st i st' g : fewer g (s_flags st) -> step st i = Ok (Next st') -> step (flagged g st) i = Ok (Next (flagged g st')).
Proof.
  intros F H. pose proof (like_step True g st (flagged g st) i) as C. rewrite H in C.
  destruct C as (st2 & E & L). { unfold like, flagged. cbn. repeat split; auto. }
  rewrite E. do 2 f_equal. unfold like in L. destruct L as (A & B & C & D & E2 & K & _ & P). destruct (P Logic.I) as (P1 & P2 & P3).
  destruct st2. unfold flagged. cbn in *. congruence.
Qed.
Lemma evaluate_like g st st2 st' : like True g st st2 -> evaluate st = Ok (Next st') -> exists st2', evaluate st2 = Ok (Next st2') /\ like True g st' st2'.
Proof.
  intros L H. pose proof (like_run True g (s_ins (s_script st)) st st2 L) as C. unfold evaluate in *.
  assert (SC : s_script st2 = s_script st) by (apply L, I). rewrite SC. destruct (script_to_bytes (s_script st)) as [b|]; cbn [bind] in *; [|discriminate].
  destruct (blen b >? 10000); [discriminate|]. destruct (run (s_ins (s_script st)) st) as [[st1|]|]; try discriminate. destruct C as (st3 & -> & L3).
  pose proof L3 as L4. destruct L4 as (A & B & R). destruct R as (R1 & R2 & R). rewrite A, B, R2.
  destruct (_ >? 1000); [discriminate|]. destruct (blen (s_vf st1) >? 0); [discriminate|]. injection H as <-. exists st3. split; [reflexivity|]. exact L3.
Qed.
Lemma flags_verify self a b f g e : fewer g f -> verify self a b f = Ok (true, e) -> verify self a b g = Ok (true, e).
Proof.
  intros F. rewrite !verify_iff. intros (E & NP & PO & st1 & st2 & s & x & E1 & E2 & S & T). split; [exact E|]. split; [intros X; apply NP, F, X|].
  split; [intros X; apply PO, F, X|].
  assert (L0 : forall c s, like True g (ready c s f) (ready c s g)) by (intros; unfold like, ready; cbn; repeat split; auto).
  destruct (evaluate_like g _ _ _ (L0 a []) E1) as (st3 & E3 & L3). destruct L3 as (A3 & _).
  destruct (evaluate_like g _ _ _ (L0 b (s_stack st1)) E2) as (st4 & E4 & L4). destruct L4 as (A4 & _).
  exists st3, st4, s, x. rewrite A3, A4. auto.
Qed.

(** ** items under a script *)
Lemma push_step_ex st i : pushing i -> well_formed i -> typed_data i -> s_vf st = [] -> ~ flag (s_flags st) MINIMALDATA ->
  exists x st1, numeric_type x /\ step st i = Ok (Next st1) /\ like False (s_flags st) (set_stack st (s_stack st ++ [x])) st1.
Proof.
  intros P W T V M. unfold step. cbv zeta. rewrite flag_minimal. replace (Z.testbit (s_flags st) MINIMALDATA) with false by (symmetry; apply not_true_is_false; exact M).
  rewrite V. cbn [existsb negb andb orb].
  assert (C : op_leb (i_op i) OP_16 = true) by (rewrite op_leb_Z; change (bZ OP_16) with 96; unfold pushing in P; lia). rewrite C. cbn [negb andb].
  assert (D : op_in (i_op i) disabled_ops = false).
  { rewrite ref_disabled_spec. unfold ref_disabled. unfold pushing in P. lia. } rewrite D.
  assert (S : match data_bytes i with Some d => pyb_len d >? MAX_SCRIPT_ELEMENT_SIZE | None => false end = false).
  { unfold data_bytes. unfold well_formed in W. destruct (i_data i) as [d|]; [|reflexivity]. destruct (pyb_len d =? 0); [reflexivity|].
    unfold push_length in W. unfold pushing in P. unfold MAX_SCRIPT_ELEMENT_SIZE. lia. } rewrite S.
  assert (N : numeric_type (match data_bytes i with Some d => d | None => false_bytes end)).
  { unfold data_bytes. destruct (i_data i) as [d|] eqn:E; [|exact I]. destruct (pyb_len d =? 0); [exact I|apply T, E]. }
  rewrite op_leb_Z. change (bZ OP_PUSHDATA4) with 78.
  destruct (Z.leb_spec (bZ (i_op i)) 78) as [L|L].
  - unfold do_push, go. cbn [bind negb]. eexists _, _. split; [exact N|]. split; [reflexivity|]. unfold like. cbn. repeat split; auto; try contradiction. unfold fewer; auto.
  - unfold dispatch. replace (op_in _ _) with true.
    + unfold go. eexists (num _), _. split; [|split; [reflexivity|]]; [exact I|]. unfold like. cbn. repeat split; auto; try contradiction. unfold fewer; auto.
    + symmetry. revert P L. clear. unfold pushing. destruct (i_op i); try reflexivity; intros P L; exfalso; revert P L; cbn; lia.
Qed.
Definition good (i : instr) : Prop := pushing i /\ well_formed i /\ typed_data i.
Lemma pushes_run l : Forall good l -> forall st, s_vf st = [] -> ~ flag (s_flags st) MINIMALDATA ->
  exists ds st1, Forall numeric_type ds /\ length ds = length l /\ run l st = Ok (Next st1) /\ like False (s_flags st) (set_stack st (s_stack st ++ ds)) st1.
Proof.
  induction 1 as [|i l (P & W & T) GS IH]; intros st V M.
  - exists [], st. split; [constructor|]. split; [reflexivity|]. split; [reflexivity|]. unfold like. cbn. rewrite app_nil_r. repeat split; auto; try contradiction. unfold fewer; auto.
  - destruct (push_step_ex st i P W T V M) as (x & st1 & N & E & L). cbn [run]. rewrite E. cbn [bind].
    unfold like in L. cbn in L. destruct L as (L1 & L2 & L3 & L4 & L5 & L6 & _).
    destruct (IH st1) as (ds & st2 & DN & DL & R & K). { congruence. } { rewrite L6. exact M. }
    exists (x :: ds), st2. split; [constructor; assumption|]. split; [cbn; lia|]. split; [exact R|].
    unfold like in *. cbn in *. rewrite L1, L2, L3, L4, L5, L6 in K. rewrite <- app_assoc in K. cbn [app] in K. tauto.
Qed.
Lemma run_items l : Forall typed_data l -> forall st st', typed st -> run l st = Ok (Next st') -> items st' <= items st + 3 * blen l.
Proof.
  assert (SI : forall st, size (ref_state st) = items st) by (intros st; unfold size, items, ref_state; cbn [r_main r_alt]; rewrite !blen_rev, !blen_map; reflexivity).
  induction 1 as [|i l D DS IH]; intros st st' T; cbn [run].
  - intros [= <-]. unfold blen. cbn. lia.
  - destruct (step st i) as [[st1|]|] eqn:S; cbn [bind]; try discriminate. intros R. apply IH in R; [|eapply step_typed; eassumption].
    pose proof (step_ref st i T) as SR. rewrite S in SR. cbn [outcome_state] in SR. unfold ref_instr in SR. apply step_size in SR. rewrite !SI in SR. rewrite blen_cons. lia.
Qed.
Lemma like_fields g st st2 : like False g st st2 -> s_stack st2 = s_stack st /\ s_alt st2 = s_alt st /\ s_vf st2 = s_vf st.
Proof. unfold like. tauto. Qed.
Lemma extra_evaluate ds a s f st' : Forall typed_data (s_ins a) -> Forall numeric_type ds -> Forall numeric_type s -> avoids [116] a ->
  blen ds + blen s + 3 * blen (s_ins a) <= 1000 -> evaluate (ready a s f) = Ok (Next st') ->
  exists kept, evaluate (ready a (ds ++ s) f) = Ok (Next (under kept st')) /\ blen kept <= blen ds /\ Forall numeric_type kept /\
    blen (s_stack st') <= blen s + 3 * blen (s_ins a) /\ Forall numeric_type (s_stack st').
Proof.
  intros D TD TS N B H. apply evaluate_next in H. destruct H as (w & W1 & W2 & R & I & V). cbn [ready s_script] in *.
  assert (T : typed (ready a s f)) by (split; [exact TS|constructor]).
  pose proof (run_items _ D _ _ T R) as SZ. destruct (run_ref _ D _ T) as [_ RT]. specialize (RT _ R).
  change (items (ready a s f)) with (blen s + 0) in SZ. unfold items in *. assert (0 <= blen (s_alt st')) by apply blen_nonneg.
  destruct (kept_run ds _ _ _ N R) as (kept & t & -> & R2). rewrite blen_base in *. pose proof (blen_nonneg t). apply Forall_app in TD. destruct TD as [TK _].
  exists kept. split; [|split; [lia|split; [exact TK|split; [lia|apply RT]]]]. apply evaluate_next. exists w. cbn [ready s_script]. split; [exact W1|]. split; [exact W2|].
  split; [|split; [|exact V]].
  - exact R2.
  - unfold items. cbn [under s_stack s_alt]. rewrite blen_base. lia.
Qed.
Lemma extra_items self ps a b f e : readable (Script None ps) -> Forall pushing ps -> readable a -> readable b -> avoids [116] a -> avoids [116] b ->
  ~ flag f MINIMALDATA -> sized (join ps (s_ins a)) -> blen ps + 3 * (blen (s_ins a) + blen (s_ins b)) <= 1000 ->
  verify self a b f = Ok (true, e) -> verify self (join ps (s_ins a)) b f = Ok (true, e).
Proof.
  intros RP PP RA RB NA NB M SZ B. rewrite !verify_iff. intros (E & NP & PO & st1 & st2 & s & x & E1 & E2 & S & T). split; [exact E|]. split; [exact NP|].
  split. { intros X. cbn [join s_ins]. apply Forall_app. split; [|apply PO, X]. eapply Forall_impl; [|exact PP]. unfold pushing. intros; lia. }
  destruct (readable_parts _ RP) as (WP & _ & DP). destruct (readable_parts _ RA) as (_ & _ & DA). destruct (readable_parts _ RB) as (_ & _ & DB).
  cbn [s_ins] in WP, DP.
  assert (RJ : readable (join ps (s_ins a))) by (unfold readable, join; cbn [s_ins]; apply Forall_app; split; [exact RP|exact RA]).
  apply (sized_iff _ RJ) in SZ. destruct SZ as (w & W1 & W2).
  assert (GP : Forall good ps). { unfold good. rewrite Forall_forall in *. intros i I. auto. }
  destruct (pushes_run ps GP (ready (join ps (s_ins a)) [] f) eq_refl M) as (ds & st3 & TD & LD & R3 & L3). cbn [ready s_stack app] in L3.
  assert (LD' : blen ds = blen ps) by (unfold blen; lia).
  pose proof (blen_nonneg (s_ins a)). pose proof (blen_nonneg (s_ins b)).
  destruct (extra_evaluate ds a [] f st1 DA TD (Forall_nil _) NA) as (k1 & EA & LK & TK & SA & TA); [unfold blen in *; cbn [length] in *; lia|exact E1|]. rewrite app_nil_r in EA.
  destruct (extra_evaluate k1 b (s_stack st1) f st2 DB TK TA NB) as (k2 & EB & _ & _); [unfold blen in *; cbn [length] in *; lia|exact E2|].
  apply evaluate_next in EA. destruct EA as (w' & _ & _ & R4 & I4 & V4). cbn [ready s_script] in R4.
  pose proof (like_run False f (s_ins a) (ready a ds f) st3) as C. rewrite R4 in C. destruct C as (st5 & R5 & L5).
  { unfold like in *. cbn in *. tauto. }
  apply like_fields in L5. destruct L5 as (F1 & F2 & F3).
  exists st5, (under k2 st2), (k2 ++ s), x. split.
  - apply evaluate_next. exists w. cbn [ready s_script]. split; [exact W1|]. split; [exact W2|]. split.
    + cbn [join s_ins]. rewrite run_app, R3. cbn [bind]. exact R5.
    + unfold items in *. rewrite F1, F2, F3. auto.
  - rewrite F1. cbn [under s_stack]. split; [exact EB|]. rewrite S, app_assoc. auto.
Qed.

(** ** one script after the other *)
Lemma ref_run_app D l1 l2 st : ref_run D (l1 ++ l2) st = match ref_run D l1 st with Some st1 => ref_run D l2 st1 | None => None end.
Proof.
  revert st. induction l1 as [|i l IH]; intros st; cbn [app ref_run]; [reflexivity|]. destruct (ref_step D i st); [|reflexivity].
  destruct (_ || _); [apply IH|reflexivity].
Qed.
Lemma ref_push f i st t : pushing i -> r_cond st = [] -> ref_step (bitforge f) (ref_instr i) st = Some t ->
  r_alt t = r_alt st /\ r_cond t = [] /\ r_ops t = r_ops st /\ blen (r_main t) = 1 + blen (r_main st).
Proof.
  intros P C H. destruct st as [s a c n]. cbn in C. subst c. unfold ref_instr in H. unfold pushing in P.
  assert (X : 0 <= bZ (i_op i)) by apply bZ_range.
  assert (Z.ltb 96 (bZ (i_op i)) = false) as G by lia. unfold ref_step in H. rewrite G in H. cbn [andb] in H.
  destruct (520 <? _); [discriminate|]. destruct (ref_disabled _); [discriminate|]. cbn [forallb] in H.
  destruct (bZ (i_op i)) as [|z|z] eqn:Z0; [| |lia].
  - cbn [Z.leb Z.compare] in H. destruct (d_push _ _ _); [|discriminate]. injection H as <-. cbn [r_alt r_cond r_ops r_main]. rewrite blen_cons. auto.
  - destruct P as [P|[P|P]].
    + replace (Z.pos z <=? 78) with true in H by lia. do 7 (destruct z as [z|z|]; try lia; try (destruct (d_push _ _ _) in H; [|discriminate]; injection H as <-; cbn [r_alt r_cond r_ops r_main]; rewrite blen_cons; auto; fail)).
    + assert (z = 79%positive) as -> by lia. cbn [Z.leb Z.compare Pos.compare Pos.compare_cont ref_exec ref_word] in H. injection H as <-. cbn [r_alt r_cond r_ops r_main]. rewrite blen_cons. auto.
    + do 7 (destruct z as [z|z|]; try lia; try (cbn [Z.leb Z.compare Pos.compare Pos.compare_cont ref_exec ref_word] in H; injection H as <-; cbn [r_alt r_cond r_ops r_main]; rewrite blen_cons; auto; fail)).
Qed.
Lemma ref_pushes f ps : Forall pushing ps -> forall st t, r_cond st = [] -> ref_run (bitforge f) (map ref_instr ps) st = Some t ->
  r_alt t = r_alt st /\ r_cond t = [] /\ r_ops t = r_ops st /\ blen (r_main t) = blen ps + blen (r_main st).
Proof.
  induction 1 as [|i l P PS IH]; intros st t C; cbn [map ref_run].
  - intros [= <-]. auto.
  - destruct (ref_step _ _ _) as [st1|] eqn:E; [|discriminate]. cbn [d_each bitforge negb orb]. apply ref_push in E; [|exact P|exact C]. destruct E as (A1 & A2 & A3 & A4).
    intros R. apply IH in R; [|exact A2]. destruct R as (B1 & B2 & B3 & B4). rewrite blen_cons. repeat split; congruence || lia.
Qed.
Lemma wire_script_app l1 l2 w : wire_script (l1 ++ l2) w <-> exists w1 w2, w = w1 ++ w2 /\ wire_script l1 w1 /\ wire_script l2 w2.
Proof.
  split.
  - revert w. induction l1 as [|i l IH]; intros w H; cbn [app] in H.
    + exists [], w. repeat split; [constructor|exact H].
    + inversion H as [|? u ? r W1 W2]; subst. apply IH in W2. destruct W2 as (w1 & w2 & -> & A & B). exists (u ++ w1), w2. split; [apply app_assoc|]. split; [constructor; assumption|exact B].
  - intros (w1 & w2 & -> & A & B). induction A as [|i u l r W A IH]; [exact B|]. rewrite <- app_assoc. cbn [app]. constructor; assumption.
Qed.
Lemma sized_join a b : sized (join a b) -> sized (Script None a) /\ sized (Script None b).
Proof.
  unfold sized, join. cbn [s_ins]. rewrite map_app. intros (w & W & L). apply wire_script_app in W. destruct W as (w1 & w2 & -> & A & B).
  rewrite blen_base in L. pose proof (blen_nonneg w1). pose proof (blen_nonneg w2). split; [exists w1|exists w2]; split; try assumption; lia.
Qed.
Lemma join_verify self ps b f e : readable (Script None ps) -> readable b -> Forall pushing ps -> blen ps <= 1000 -> sized (join ps (s_ins b)) ->
  verify self (Script None ps) b f = Ok (true, e) <-> verify self (Script None []) (join ps (s_ins b)) f = Ok (true, e).
Proof.
  intros RP RB PP LP SZ.
  assert (RJ : readable (join ps (s_ins b))) by (unfold readable, join; cbn [s_ins]; apply Forall_app; split; [exact RP|exact RB]).
  assert (RE : readable (Script None [])) by constructor.
  destruct (sized_join _ _ SZ) as [S1 S2].
  assert (K : verify self (Script None ps) b f = Ok (true, IE_None) <-> verify self (Script None []) (join ps (s_ins b)) f = Ok (true, IE_None)).
  { rewrite (verify_ref self _ _ f RP RB), (verify_ref self _ _ f RE RJ).
    assert (AC : ref_accepts (bitforge f) (ref_script (Script None ps)) (ref_script b) <-> ref_accepts (bitforge f) (ref_script (Script None [])) (ref_script (join ps (s_ins b)))).
    { unfold ref_accepts, ref_script, join. cbn [s_ins]. rewrite map_app. unfold ref_eval. cbn [map ref_run r_cond]. change (in_limit (RState [] [] [] 0)) with true. cbn [r_main].
      pose proof (ref_pushes f ps PP (RState [] [] [] 0)) as Q. 
      destruct (ref_run (bitforge f) (map ref_instr ps) (RState [] [] [] 0)) as [t|] eqn:R.
      2: { split; [intros (s & x & u & A & _); discriminate|]. intros (s & x & u & [= <-] & B & _). rewrite ref_run_app, R in B. discriminate. }
      destruct (Q t eq_refl eq_refl) as (Q1 & Q2 & Q3 & Q4). destruct t as [m al c n]. cbn in Q1, Q2, Q3, Q4. subst al c n. cbn [r_cond r_main].
      assert (LIM : in_limit (RState m [] [] 0) = true) by (unfold in_limit; cbn [r_main r_alt]; change (@blen bytes []) with 0; change (@blen (list byte) []) with 0 in Q4; lia). rewrite LIM.
      split.
      - intros (s & x & u & [= <-] & B & T). exists [], x, u. split; [reflexivity|]. split; [|exact T]. rewrite ref_run_app, R. exact B.
      - intros (s & x & u & [= <-] & B & T). exists m, x, u. split; [reflexivity|]. split; [|exact T]. rewrite ref_run_app, R in B. exact B. }
    rewrite AC. split.
    - intros (A & B & C & D & E). split; [exact A|]. split; [intros _; constructor|]. split; [exists []; split; [constructor|unfold blen; cbn; lia]|]. split; [exact SZ|exact E].
    - intros (A & B & C & D & E). split; [exact A|]. split; [intros _; cbn [s_ins]; eapply Forall_impl; [|exact PP]; unfold pushing; intros; lia|]. split; [exact S1|]. split; [|exact E].
      destruct b. exact S2. }
  split; intros H; pose proof H as H0; apply verify_iff in H0; destruct H0 as [-> _]; apply K; exact H.
Qed.

(** ** examples and counterexamples *)
Lemma depth_needed : exists ps a b, readable (Script None ps) /\ Forall pushing ps /\ readable a /\ readable b /\ sized (join ps (s_ins a)) /\
  blen ps + 3 * (blen (s_ins a) + blen (s_ins b)) <= 1000 /\
  forall self, verify self a b 0 = Ok (true, IE_None) /\ verify self (join ps (s_ins a)) b 0 <> Ok (true, IE_None).
Proof.
  exists [op 81], (code []), (code [op 116; op 145]). split; [apply readable_code; reflexivity|]. split; [repeat constructor; unfold pushing; cbn; lia|].
  split; [apply readable_code; reflexivity|]. split; [apply readable_code; reflexivity|].
  split. { exists [x51]. split; [|cbn; lia]. apply (ops_wire [op 81]). repeat constructor. unfold pushes. cbn. lia. }
  split; [cbn; lia|]. intros self. split; [reflexivity|]. vm_compute. discriminate.
Qed.
Lemma drop_notices : exists st i base st', bZ (i_op i) = 117 /\ step st i = Ok (Next st') /\ step (under base st) i <> Ok (Next (under base st')).
Proof.
  exists (ready (code []) [BA [x01]] 0), (op 117), [BA [x02]]. eexists. split; [reflexivity|]. split; [reflexivity|]. vm_compute. discriminate.
Qed.
(** the alternative stack does not survive the first script *)
Lemma join_alt_needed : exists a b, readable a /\ readable b /\ blen (s_ins a) <= 1000 /\ sized (join (s_ins a) (s_ins b)) /\
  forall self, verify self a b 0 <> Ok (true, IE_None) /\ verify self (Script None []) (join (s_ins a) (s_ins b)) 0 = Ok (true, IE_None).
Proof.
  exists (code [op 81; op 107]), (code [op 108]). split; [apply readable_code; reflexivity|]. split; [apply readable_code; reflexivity|]. split; [cbn; lia|].
  split. { eexists. split; [|instantiate (1 := [x51; x6b; x6c]); cbn; lia]. apply (ops_wire [op 81; op 107; op 108]). repeat constructor; unfold pushes; cbn; lia. }
  intros self. split; [vm_compute; discriminate|reflexivity].
Qed.
(** each script may use 201 operations *)
Lemma nops_plain k : Forall (fun i => i_data i = None /\ ~ pushes (i_op i)) (repeat (op 97) k).
Proof. apply Forall_forall. intros i H. apply repeat_spec in H. subst i. split; [reflexivity|]. unfold pushes. cbn. lia. Qed.
Lemma join_count_needed : exists a b, readable a /\ readable b /\ blen (s_ins a) <= 1000 /\ sized (join (s_ins a) (s_ins b)) /\
  forall self, verify self a b 0 = Ok (true, IE_None) /\ verify self (Script None []) (join (s_ins a) (s_ins b)) 0 <> Ok (true, IE_None).
Proof.
  exists (code (op 81 :: repeat (op 97) 101)), (code (repeat (op 97) 101)). split; [apply readable_code; reflexivity|]. split; [apply readable_code; reflexivity|].
  split; [apply Z.leb_le; reflexivity|].
  split. { exists (map i_op ((op 81 :: repeat (op 97) 101) ++ repeat (op 97) 101)). split; [|apply Z.leb_le; reflexivity]. apply (ops_wire ((op 81 :: repeat (op 97) 101) ++ repeat (op 97) 101)).
    rewrite <- app_comm_cons, <- repeat_app. constructor; [|apply nops_plain]. split; [reflexivity|]. unfold pushes. cbn. lia. }
  intros self. split; [reflexivity|]. intros H. discriminate (eq_trans (eq_sym (eq_refl : verify self (Script None []) (join (op 81 :: repeat (op 97) 101) (repeat (op 97) 101)) 0 = Ok (false, IE_OpCount))) H).
Qed.
Definition low : list instr := [op 82; op 0].
Definition shown : instr := Instr x03 (Some (BA [x61; x62; x63])).
Definition lock : script := code [op 118; op 117; op 81].
Lemma extra_ex : readable (Script None low) /\ Forall pushing low /\ readable (code [shown]) /\ readable lock /\ avoids [116] (code [shown]) /\ avoids [116] lock /\
  ~ flag 32 MINIMALDATA /\ sized (join low [shown]) /\ sized (join [shown] (s_ins lock)) /\ blen low + 3 * (blen [shown] + blen (s_ins lock)) <= 1000 /\ Forall pushing [shown] /\
  forall self, verify self (code [shown]) lock 32 = Ok (true, IE_None) /\ verify self (join low [shown]) lock 32 = Ok (true, IE_None) /\
    verify self (Script None []) (join [shown] (s_ins lock)) 32 = Ok (true, IE_None).
Proof.
  split; [apply readable_code; reflexivity|]. split; [repeat constructor; unfold pushing; cbn; lia|]. split; [apply readable_code; reflexivity|].
  split; [apply readable_code; reflexivity|]. split; [apply avoids_code; reflexivity|]. split; [apply avoids_code; reflexivity|]. split; [discriminate|].
  assert (WS : wire (content shown) [x03; x61; x62; x63]) by (apply (wire_const x03 [x61; x62; x63]); [cbn; lia|reflexivity]).
  split. { exists [x52; x00; x03; x61; x62; x63]. split; [|cbn; lia].
    apply (ws_cons _ [x52]); [constructor; unfold pushes; cbn; lia|]. apply (ws_cons _ [x00]); [constructor; unfold pushes; cbn; lia|]. apply (ws_cons _ [x03; x61; x62; x63] _ []); [exact WS|constructor]. }
  split. { exists [x03; x61; x62; x63; x76; x75; x51]. split; [|cbn; lia]. apply (ws_cons _ [x03; x61; x62; x63]); [exact WS|].
    apply (ops_wire [op 118; op 117; op 81]). repeat constructor; unfold pushes; cbn; lia. }
  split; [cbn; lia|]. split; [repeat constructor; unfold pushing; cbn; lia|]. intros self. split; [reflexivity|]. split; reflexivity.
Qed.
