(** Depths of the stacks. *)
From Verif Require Import Base M_Hash M_Codec M_Keys M_EC M_Script M_Interp S_Interp P_Interp S_Depth.
Open Scope Z_scope.

Definition executing (st : interp) : Prop := existsb negb (s_vf st) = false.

(** the two stacks, one item more or fewer by [dx], [dy], and the conditions as they were *)
Definition moved (st st' : interp) (dx dy : Z) : Prop :=
  blen (s_stack st') = blen (s_stack st) + dx /\ blen (s_alt st') = blen (s_alt st) + dy /\ s_vf st' = s_vf st.
Definition counts (st : interp) (o : opcode) (x y dx dy : Z) (r : res outcome) : Prop :=
  match r with
  | Ok (Next st') => x <= blen (s_stack st) /\ y <= blen (s_alt st) /\ moved st st' dx dy
  | Ok (Fail e) => x <= blen (s_stack st) -> y <= blen (s_alt st) -> bZ o <> 121 /\ bZ o <> 122 -> ~ wants e
  | Err _ => True
  end.

Lemma blen_drop {A} (l : list A) k : Z.of_nat k <= blen l -> blen (drop_last k l) = blen l - Z.of_nat k.
Proof. unfold blen, drop_last. rewrite firstn_length. lia. Qed.
Lemma blen_last {A} (l : list A) k : Z.of_nat k <= blen l -> blen (last_n k l) = Z.of_nat k.
Proof. unfold blen, last_n. rewrite skipn_length. lia. Qed.
Lemma blen_app' {A} (l m : list A) : blen (l ++ m) = blen l + blen m.
Proof. unfold blen. rewrite app_length. lia. Qed.
Lemma not_wants e : match e with IE_InvalidStack | IE_InvalidAltStack | IE_Unbalanced | IE_EvalFalseNoResult => False | _ => True end -> ~ wants e.
Proof. intros H [<-|[<-|[<-|[<-|[]]]]]; exact H. Qed.

Ltac lens := rewrite ?blen_app', ?blen_drop, ?blen_last by (rewrite ?blen_app', ?blen_drop by lia; cbn [blen length] in *; unfold blen in *; cbn [length] in *; lia).
Ltac count_end :=
  first [ exact I
        | intros _ _ _; apply not_wants; exact I
        | cbn [counts]; unfold moved, set_stack, set_alt, set_vf, set_begin, set_nop; cbn [s_stack s_alt s_vf];
          repeat split; try reflexivity; lens; unfold blen in *; cbn [length] in *; lia ].
Ltac count_need := unfold need; match goal with |- counts _ _ _ _ _ _ (if blen ?s <? ?n then _ else _) =>
  let L := fresh "L" in destruct (Z.ltb_spec (blen s) n) as [L|L]; [cbn [counts]; intros ? ? ?; exfalso; lia|] end.
Ltac count_cases := unfold go, unpack_error; cbv zeta; repeat (cbn [bind];
  match goal with
  | |- counts _ _ _ _ _ _ (match ?x with _ => _ end) => destruct x
  | |- counts _ _ _ _ _ _ (bind ?x _) => destruct x
  end); cbn [bind]; try count_end.


Lemma count_pick st m (roll : bool) o : bZ o = 121 \/ bZ o = 122 -> counts st o 2 0 (if roll then -1 else 0) 0 (do_pick_roll st m roll).
Proof.
  intros O. unfold do_pick_roll. count_need. destruct (last_n 1 (s_stack st)) as [|b [|? ?]]; try exact I. cbv zeta.
  destruct (decode_script_number b m 4) as [n|]; cbn [bind]; [|exact I].
  destruct (_ || _) eqn:B; [cbn [counts]; intros _ _ [? ?]; lia|].
  set (s := drop_last 1 (s_stack st)) in *. assert (LS : blen s = blen (s_stack st) - 1) by (unfold s; rewrite blen_drop; lia).
  destruct (nth_error s _) as [x|] eqn:E; [|exact I]. unfold go. cbn [counts]. unfold moved, set_stack. cbn [s_stack s_alt s_vf].
  assert (K : (length s - Z.to_nat n - 1 < length s)%nat) by (apply nth_error_Some; congruence).
  split; [lia|]. split; [unfold blen; lia|]. split; [|split; [lia|reflexivity]].
  rewrite blen_app'. destruct roll; [|unfold blen in *; cbn [length]; lia].
  rewrite blen_app'. unfold blen in *. rewrite firstn_length, skipn_length. cbn [length]. lia.
Qed.

Lemma count_fromalt st o : counts st o 0 1 1 (-1) (do_fromalt st).
Proof.
  unfold do_fromalt. destruct (Z.ltb_spec (blen (s_alt st)) 1) as [L|L]; [cbn [counts]; intros; lia|].
  cbn [counts]. unfold moved, set_stack, set_alt. cbn [s_stack s_alt s_vf]. rewrite blen_app', blen_last, blen_drop by lia. unfold blen in *. repeat split; lia.
Qed.
Lemma blen_pop {A} (l : list A) k x : Z.of_nat k <= blen l -> blen (drop_last 1 (drop_last k l ++ [x])) = blen l - Z.of_nat k.
Proof. intros H. rewrite blen_drop; rewrite blen_app', blen_drop by exact H; unfold blen in *; cbn [length]; lia. Qed.
Lemma blen_put {A} (l : list A) k x : Z.of_nat k <= blen l -> blen (drop_last k l ++ [x]) = blen l - Z.of_nat k + 1.
Proof. intros H. rewrite blen_app', blen_drop by exact H. unfold blen. cbn [length]. lia. Qed.
Lemma count_equal st (v : bool) o : counts st o 2 0 (if v then -2 else -1) 0 (do_equal st v).
Proof.
  unfold do_equal. count_need. destruct (last_n 2 (s_stack st)) as [|a [|b [|? ?]]]; try exact I. cbv zeta.
  unfold go. destruct v; [destruct (pyb_eqb a b)|]; cbn [counts]; unfold moved, set_stack; cbn [s_stack s_alt s_vf].
  - rewrite blen_pop by lia. unfold blen in *. repeat split; lia.
  - intros _ _ _. apply not_wants. exact I.
  - rewrite blen_put by lia. unfold blen in *. repeat split; lia.
Qed.
Lemma count_binary st m o : counts st o 2 0 (if op_eqb o OP_NUMEQUALVERIFY then -2 else -1) 0 (do_binary st m o).
Proof.
  unfold do_binary. count_need. destruct (last_n 2 (s_stack st)) as [|a [|b [|? ?]]]; try exact I.
  destruct (decode_script_number a m 4) as [x|]; cbn [bind]; [|exact I]. destruct (decode_script_number b m 4) as [y|]; cbn [bind]; [|exact I]. cbv zeta.
  unfold go. destruct (op_eqb o OP_NUMEQUALVERIFY); [destruct (cast_to_bool _)|]; cbn [counts]; unfold moved, set_stack; cbn [s_stack s_alt s_vf].
  - rewrite blen_pop by lia. unfold blen in *. repeat split; lia.
  - intros _ _ _. apply not_wants. exact I.
  - rewrite blen_put by lia. unfold blen in *. repeat split; lia.
Qed.
Lemma count_cltv st m o : counts st o 1 0 0 0 (do_cltv st m).
Proof.
  unfold do_cltv. destruct (_ && _); [intros _ _ _; apply not_wants; exact I|]. count_need. count_cases.
Qed.

Ltac pick_branch := unfold dispatch; repeat match goal with |- counts _ _ _ _ _ _ (if ?b then _ else _) =>
  let v := eval vm_compute in b in change b with v; cbv iota end.
Lemma dispatch_counts st m o x y dx dy : effect (bZ o) = Some (x, y, dx, dy) -> 78 < bZ o -> counts st o x y dx dy (dispatch st m true o).
Proof.
  intros E G. destruct o; try discriminate E; try discriminate G; clear G; vm_compute in E; injection E as <- <- <- <-; pick_branch.
  all: try (first [apply (count_pick st m true); auto | apply (count_pick st m false); auto]).
  all: try (unfold do_nop_n, do_cltv, do_verify, do_toalt, do_2drop, do_2dup, do_3dup, do_2over, do_2rot, do_2swap, do_depth, do_dup, do_nip, do_over,
    do_rot, do_swap, do_tuck, do_size, do_equal, do_unary, do_binary, do_within, do_hash, do_checksig; try count_need; solve [count_cases]).
  all: first [apply count_fromalt | apply (count_equal st true) | apply (count_equal st false) | apply count_binary | apply count_cltv].
Qed.

Lemma step_counts st i x y dx dy : executing st -> effect (bZ (i_op i)) = Some (x, y, dx, dy) -> counts st (i_op i) x y dx dy (step st i).
Proof.
  intros X E. unfold step. cbv zeta. unfold executing in X. rewrite X. cbn [negb andb orb].
  destruct (match data_bytes i with Some d => _ | None => false end); [intros _ _ _; apply not_wants; exact I|].
  set (st0 := if negb (op_leb (i_op i) OP_16) then _ else _).
  assert (C : forall r, counts st0 (i_op i) x y dx dy r -> counts st (i_op i) x y dx dy r) by (intros r; unfold st0; destruct (negb _); exact (fun h => h)).
  destruct (_ && _); [intros _ _ _; apply not_wants; exact I|]. destruct (op_in _ _); [intros _ _ _; apply not_wants; exact I|].
  apply C. destruct (op_leb (i_op i) OP_PUSHDATA4) eqn:L.
  - assert (x = 0 /\ y = 0 /\ dx = 1 /\ dy = 0) as (-> & -> & -> & ->).
    { revert E L. generalize (i_op i). intros o. clear. destruct o; intros E L; try discriminate L; vm_compute in E; injection E as <- <- <- <-; auto. }
    unfold do_push. destruct (if has_flag _ _ then _ else _) as [b|]; cbn [bind]; [|exact I]. destruct (negb b); [intros _ _ _; apply not_wants; exact I|].
    unfold go. generalize (match data_bytes i with Some d => d | None => false_bytes end). intros d. cbn [counts]. unfold moved, set_stack. cbn [s_stack s_alt s_vf].
    rewrite blen_app'. unfold blen. cbn [length]. repeat split; lia.
  - apply dispatch_counts; [exact E|]. revert L. unfold op_leb. change (bZ OP_PUSHDATA4) with 78. lia.
Qed.

(** ** Runs *)
Definition sound (P : interp -> Prop) (N : Prop) (r : res outcome) : Prop :=
  match r with Ok (Next s) => P s | Ok (Fail e) => N -> ~ wants e | Err _ => True end.
Lemma sound_weak (P Q : interp -> Prop) (N M : Prop) r : sound P N r -> (forall s, P s -> Q s) -> (M -> N) -> sound Q M r.
Proof. destruct r as [[s|e]|e]; cbn [sound]; auto. Qed.
Lemma sound_cons (P Q : interp -> Prop) (N : Prop) i l st : sound P N (step st i) -> (forall s, P s -> sound Q N (run l s)) -> sound Q N (run (i :: l) st).
Proof. cbn [run]. destruct (step st i) as [[s|e]|e]; cbn [bind sound]; auto. Qed.
Lemma sound_app (P Q : interp -> Prop) (N : Prop) l m st : sound P N (run l st) -> (forall s, P s -> sound Q N (run m s)) -> sound Q N (run (l ++ m) st).
Proof.
  revert st. induction l as [|i l IH]; intros st; cbn [app run].
  - intros H K. apply K. exact H.
  - destruct (step st i) as [[s|e]|e]; cbn [bind]; auto.
Qed.

Lemma never_op z : never z -> z <> 99 /\ z <> 100 /\ z <> 103 /\ z <> 104.
Proof. unfold never. cbn [In]. intros H. lia. Qed.
Lemma effect_op z x : effect z = Some x -> z <> 99 /\ z <> 100 /\ z <> 103 /\ z <> 104.
Proof. intros H. repeat split; intros ->; discriminate H. Qed.

Lemma never_fails st m o : never (bZ o) ->
  bZ o > 78 /\ (op_in o disabled_ops = true \/ dispatch st m true o = Ok (Fail IE_BadOpcode) \/ dispatch st m true o = Ok (Fail IE_OpReturn)).
Proof.
  intros E. destruct o; try (exfalso; revert E; unfold never; cbn [In]; vm_compute bZ; lia); (split; [reflexivity|]);
    first [left; reflexivity | right; left; reflexivity | right; right; reflexivity].
Qed.
Lemma never_step st i P N : executing st -> never (bZ (i_op i)) -> sound P N (step st i).
Proof.
  intros X E. unfold step. cbv zeta. unfold executing in X. rewrite X. cbn [negb andb orb].
  destruct (match data_bytes i with Some d => _ | None => false end); [intros _; apply not_wants; exact I|].
  set (st0 := if negb (op_leb (i_op i) OP_16) then _ else _). clearbody st0.
  destruct (_ && _); [intros _; apply not_wants; exact I|].
  generalize (has_flag (s_flags st) VERIFY_MINIMALDATA). intros m.
  destruct (never_fails st0 m (i_op i) E) as [G D].
  replace (op_leb (i_op i) OP_PUSHDATA4) with false by (unfold op_leb; change (bZ OP_PUSHDATA4) with 78; lia).
  destruct (op_in (i_op i) disabled_ops); [intros _; apply not_wants; exact I|]. destruct D as [D|[-> | ->]]; [discriminate| |]; intros _; apply not_wants; exact I.
Qed.
Lemma skip_step st i N : ~ executing st -> (bZ (i_op i) <> 99 /\ bZ (i_op i) <> 100 /\ bZ (i_op i) <> 103 /\ bZ (i_op i) <> 104) ->
  sound (fun s => moved st s 0 0) N (step st i).
Proof.
  intros X E. unfold step. cbv zeta. unfold executing in X. apply not_false_iff_true in X. rewrite X. cbn [negb andb orb].
  destruct (match data_bytes i with Some d => _ | None => false end); [intros _; apply not_wants; exact I|].
  set (st0 := if negb (op_leb (i_op i) OP_16) then _ else _).
  assert (C : forall r, sound (fun s => moved st0 s 0 0) N r -> sound (fun s => moved st s 0 0) N r) by (intros r; unfold st0; destruct (negb _); exact (fun h => h)).
  destruct (_ && _); [intros _; apply not_wants; exact I|]. destruct (op_in _ _); [intros _; apply not_wants; exact I|].
  apply C. clearbody st0. clear C. destruct (_ && _) eqn:B.
  - assert (D : forall m, dispatch st0 m false (i_op i) = Ok (Fail IE_BadOpcode)).
    { intros m. assert (bZ (i_op i) = 101 \/ bZ (i_op i) = 102) as K.
      { apply andb_true_iff in B. unfold op_leb in B. change (bZ OP_IF) with 99 in B. change (bZ OP_ENDIF) with 104 in B. lia. }
      revert K. generalize (i_op i). clear. intros o K. destruct o; try (exfalso; revert K; vm_compute bZ; lia); reflexivity. }
    rewrite D. intros _. apply not_wants. exact I.
  - cbn [sound]. unfold moved. repeat split; lia.
Qed.

Lemma last_end {A} (V : list A) v : last_n 1 (V ++ [v]) = [v].
Proof. unfold last_n. rewrite app_length. cbn [length]. replace (length V + 1 - 1)%nat with (length V + 0)%nat by lia. rewrite skipn_app, Nat.add_0_r, skipn_all, Nat.sub_diag. reflexivity. Qed.
Lemma drop_end {A} (V : list A) v : drop_last 1 (V ++ [v]) = V.
Proof. unfold drop_last. rewrite app_length. cbn [length]. replace (length V + 1 - 1)%nat with (length V + 0)%nat by lia. rewrite firstn_app_2. cbn [firstn]. apply app_nil_r. Qed.

(** the beginning of a step on IF, NOTIF, ELSE and ENDIF *)
Lemma cond_step st i P N : 99 <= bZ (i_op i) <= 104 ->
  (forall st0, s_stack st0 = s_stack st -> s_alt st0 = s_alt st -> s_vf st0 = s_vf st ->
    sound P N (dispatch st0 (has_flag (s_flags st) VERIFY_MINIMALDATA) (negb (existsb negb (s_vf st))) (i_op i))) ->
  sound P N (step st i).
Proof.
  intros Z0 H. unfold step. cbv zeta.
  destruct (match data_bytes i with Some d => _ | None => false end); [intros _; apply not_wants; exact I|].
  set (st0 := if negb (op_leb (i_op i) OP_16) then _ else _).
  destruct (_ && _); [intros _; apply not_wants; exact I|]. destruct (op_in _ _); [intros _; apply not_wants; exact I|].
  replace (op_leb (i_op i) OP_PUSHDATA4) with false by (unfold op_leb; change (bZ OP_PUSHDATA4) with 78; lia). rewrite andb_false_r.
  replace (op_leb OP_IF (i_op i) && op_leb (i_op i) OP_ENDIF) with true by (unfold op_leb; change (bZ OP_IF) with 99; change (bZ OP_ENDIF) with 104; lia).
  rewrite orb_true_r. apply H; unfold st0; destruct (negb (op_leb (i_op i) OP_16)); reflexivity.
Qed.
Lemma op_is o z : bZ o = z -> forall p, bZ p = z -> o = p.
Proof. intros A p B. apply bZ_inj. congruence. Qed.
Lemma if_step st i N : bZ (i_op i) = 99 \/ bZ (i_op i) = 100 -> executing st -> 1 <= blen (s_stack st) ->
  sound (fun s => exists v, s_vf s = s_vf st ++ [v] /\ blen (s_stack s) = blen (s_stack st) - 1 /\ blen (s_alt s) = blen (s_alt st)) N (step st i).
Proof.
  intros O X L. apply cond_step; [lia|]. intros st0 S0 A0 V0. unfold executing in X. rewrite X. cbn [negb]. generalize (has_flag (s_flags st) VERIFY_MINIMALDATA). intros m.
  assert (D : dispatch st0 m true (i_op i) = do_if st0 true (i_op i)).
  { destruct O as [O|O]; [rewrite (op_is _ _ O OP_IF eq_refl)|rewrite (op_is _ _ O OP_NOTIF eq_refl)]; reflexivity. }
  rewrite D. unfold do_if. rewrite S0. destruct (Z.ltb_spec (blen (s_stack st)) 1); [lia|].
  destruct (last_n 1 (s_stack st)) as [|x [|? ?]]; try exact I. cbv zeta. cbn [sound].
  eexists. unfold set_vf, set_stack. cbn [s_stack s_alt s_vf]. rewrite V0, A0, blen_drop by lia. split; [reflexivity|]. lia.
Qed.
Lemma if_skip st i N : bZ (i_op i) = 99 \/ bZ (i_op i) = 100 -> ~ executing st ->
  sound (fun s => s_vf s = s_vf st ++ [false] /\ blen (s_stack s) = blen (s_stack st) /\ blen (s_alt s) = blen (s_alt st)) N (step st i).
Proof.
  intros O X. apply cond_step; [lia|]. intros st0 S0 A0 V0. unfold executing in X. apply not_false_iff_true in X. rewrite X. cbn [negb]. generalize (has_flag (s_flags st) VERIFY_MINIMALDATA). intros m.
  assert (D : dispatch st0 m false (i_op i) = do_if st0 false (i_op i)).
  { destruct O as [O|O]; [rewrite (op_is _ _ O OP_IF eq_refl)|rewrite (op_is _ _ O OP_NOTIF eq_refl)]; reflexivity. }
  rewrite D. cbn [do_if sound]. unfold set_vf. cbn [s_stack s_alt s_vf]. rewrite V0, A0, S0. auto.
Qed.
Lemma else_step st i V v N : bZ (i_op i) = 103 -> s_vf st = V ++ [v] ->
  sound (fun s => s_vf s = V ++ [negb v] /\ blen (s_stack s) = blen (s_stack st) /\ blen (s_alt s) = blen (s_alt st)) N (step st i).
Proof.
  intros O E. apply cond_step; [lia|]. intros st0 S0 A0 V0. generalize (has_flag (s_flags st) VERIFY_MINIMALDATA) (negb (existsb negb (s_vf st))). intros m f.
  rewrite (op_is _ _ O OP_ELSE eq_refl). change (dispatch st0 m f OP_ELSE) with (do_else st0). unfold do_else. rewrite V0, E.
  replace (blen (V ++ [v]) =? 0) with false by (rewrite blen_app'; unfold blen; cbn [length]; lia). rewrite last_end, drop_end.
  cbn [sound]. unfold set_vf. cbn [s_stack s_alt s_vf]. rewrite A0, S0. auto.
Qed.
Lemma endif_step st i V v N : bZ (i_op i) = 104 -> s_vf st = V ++ [v] ->
  sound (fun s => s_vf s = V /\ blen (s_stack s) = blen (s_stack st) /\ blen (s_alt s) = blen (s_alt st)) N (step st i).
Proof.
  intros O E. apply cond_step; [lia|]. intros st0 S0 A0 V0. generalize (has_flag (s_flags st) VERIFY_MINIMALDATA) (negb (existsb negb (s_vf st))). intros m f.
  rewrite (op_is _ _ O OP_ENDIF eq_refl). change (dispatch st0 m f OP_ENDIF) with (do_endif st0). unfold do_endif. rewrite V0, E.
  replace (blen (V ++ [v]) =? 0) with false by (rewrite blen_app'; unfold blen; cbn [length]; lia). rewrite drop_end.
  cbn [sound]. unfold set_vf. cbn [s_stack s_alt s_vf]. rewrite A0, S0. auto.
Qed.

Lemma exec_end st V v : s_vf st = V ++ [v] -> executing st <-> existsb negb V = false /\ v = true.
Proof. unfold executing. intros ->. rewrite existsb_app. cbn [existsb]. destruct (existsb negb V), v; cbn; intuition discriminate. Qed.

Definition at_depth (V : list bool) (m b : Z) (s : interp) : Prop := s_vf s = V /\ blen (s_stack s) = m /\ blen (s_alt s) = b.

Lemma skip_sized l n a m b : sized l n a m b -> forall st N, ~ executing st ->
  sound (at_depth (s_vf st) (blen (s_stack st)) (blen (s_alt st))) N (run l st).
Proof.
  assert (one : forall i l st N, (forall st N, ~ executing st -> sound (at_depth (s_vf st) (blen (s_stack st)) (blen (s_alt st))) N (run l st)) ->
    (bZ (i_op i) <> 99 /\ bZ (i_op i) <> 100 /\ bZ (i_op i) <> 103 /\ bZ (i_op i) <> 104) -> ~ executing st ->
    sound (at_depth (s_vf st) (blen (s_stack st)) (blen (s_alt st))) N (run (i :: l) st)).
  { intros i r st N IH O X. apply (sound_cons _ _ _ _ _ _ (skip_step st i N X O)). intros s (A & B & C).
    apply (sound_weak _ _ _ _ _ (IH s N ltac:(unfold executing in *; rewrite C; exact X))); [|auto].
    intros s' (D & E & F). unfold at_depth. rewrite D, E, F, A, B, C. repeat split; lia. }
  induction 1 as [n a|i l n a m b x y dx dy E Lx Ly _ IH|i l n a n' a' m b E _ IH|i p e l n a m b O Oe L _ IHp _ IHl|i p o q e l n a k c m b O Oo Oe L _ IHp _ IHq _ IHl]; intros st N X.
  - cbn [run sound]. unfold at_depth. auto.
  - apply one; [exact IH| |exact X]. eapply effect_op, E.
  - apply one; [exact IH| |exact X]. apply never_op, E.
  - apply (sound_cons _ _ _ _ _ _ (if_skip st i N O X)). intros s1 (V1 & A1 & B1).
    assert (X1 : ~ executing s1) by (rewrite (exec_end _ _ _ V1); intros [_ ?]; discriminate).
    apply (sound_app _ _ _ _ _ _ (IHp s1 N X1)). intros s2 (V2 & A2 & B2). rewrite V1 in V2.
    apply (sound_cons _ _ _ _ _ _ (endif_step s2 e _ _ N Oe V2)). intros s3 (V3 & A3 & B3).
    assert (X3 : ~ executing s3) by (unfold executing in *; rewrite V3; exact X).
    apply (sound_weak _ _ _ _ _ (IHl s3 N X3)); [|auto]. intros s (V4 & A4 & B4). unfold at_depth. repeat split; congruence.
  - apply (sound_cons _ _ _ _ _ _ (if_skip st i N O X)). intros s1 (V1 & A1 & B1).
    assert (X1 : ~ executing s1) by (rewrite (exec_end _ _ _ V1); intros [_ ?]; discriminate).
    apply (sound_app _ _ _ _ _ _ (IHp s1 N X1)). intros s2 (V2 & A2 & B2). rewrite V1 in V2.
    apply (sound_cons _ _ _ _ _ _ (else_step s2 o _ _ N Oo V2)). intros s3 (V3 & A3 & B3).
    assert (X3 : ~ executing s3) by (rewrite (exec_end _ _ _ V3); intros [? _]; apply X; assumption).
    apply (sound_app _ _ _ _ _ _ (IHq s3 N X3)). intros s4 (V4 & A4 & B4). rewrite V3 in V4.
    apply (sound_cons _ _ _ _ _ _ (endif_step s4 e _ _ N Oe V4)). intros s5 (V5 & A5 & B5).
    assert (X5 : ~ executing s5) by (unfold executing in *; rewrite V5; exact X).
    apply (sound_weak _ _ _ _ _ (IHl s5 N X5)); [|auto]. intros s (V6 & A6 & B6). unfold at_depth. repeat split; congruence.
Qed.

Lemma run_sized l n a m b : sized l n a m b -> forall st, executing st -> blen (s_stack st) = n -> blen (s_alt st) = a ->
  sound (at_depth (s_vf st) m b) (Forall no_pick l) (run l st).
Proof.
  induction 1 as [n a|i l n a m b x y dx dy E Lx Ly _ IH|i l n a n' a' m b E _ IH|i p e l n a m b O Oe L Hp IHp _ IHl|i p o q e l n a k c m b O Oo Oe L Hp IHp Hq IHq _ IHl]; intros st X S A.
  - cbn [run sound]. unfold at_depth. auto.
  - apply (sound_cons (fun s => moved st s dx dy)).
    + pose proof (step_counts st i x y dx dy X E) as C. destruct (step st i) as [[s|er]|er]; cbn [counts sound] in *; [tauto| |exact I].
      intros F. inversion F as [|? ? K ?]; subst. apply C; [lia|lia|exact K].
    + intros s (A1 & B1 & V1). assert (X1 : executing s) by (unfold executing in *; rewrite V1; exact X).
      apply (sound_weak _ _ _ _ _ (IH s X1 ltac:(lia) ltac:(lia))); [rewrite V1; auto|]. intros F. inversion F; assumption.
  - apply (sound_cons (fun _ => False)); [apply never_step; assumption|]. intros s [].
  - apply (sound_cons _ _ _ _ _ _ (if_step st i _ O X ltac:(lia))). intros s1 (v & V1 & A1 & B1).
    apply (sound_app (fun s => s_vf s = s_vf st ++ [v] /\ blen (s_stack s) = n - 1 /\ blen (s_alt s) = a)).
    + destruct v.
      * assert (X1 : executing s1) by (rewrite (exec_end _ _ _ V1); auto).
        apply (sound_weak _ _ _ _ _ (IHp s1 X1 ltac:(lia) ltac:(lia))).
        -- intros s (V2 & A2 & B2). rewrite V2, V1. auto.
        -- intros F. inversion F as [|? ? _ G]; subst. apply Forall_app in G. apply G.
      * assert (X1 : ~ executing s1) by (rewrite (exec_end _ _ _ V1); intros [_ ?]; discriminate).
        apply (sound_weak _ _ _ _ _ (skip_sized _ _ _ _ _ Hp s1 True X1)); [|auto].
        intros s (V2 & A2 & B2). rewrite V2, V1. repeat split; lia.
    + intros s2 (V2 & A2 & B2). apply (sound_cons _ _ _ _ _ _ (endif_step s2 e _ _ _ Oe V2)). intros s3 (V3 & A3 & B3).
      assert (X3 : executing s3) by (unfold executing in *; rewrite V3; exact X).
      apply (sound_weak _ _ _ _ _ (IHl s3 X3 ltac:(lia) ltac:(lia))); [rewrite V3; auto|].
      intros F. inversion F as [|? ? _ G]; subst. apply Forall_app in G. destruct G as [_ G]. inversion G; assumption.
  - apply (sound_cons _ _ _ _ _ _ (if_step st i _ O X ltac:(lia))). intros s1 (v & V1 & A1 & B1).
    apply (sound_app (fun s => s_vf s = s_vf st ++ [v] /\ blen (s_stack s) = (if v then k else n - 1) /\ blen (s_alt s) = (if v then c else a))).
    + destruct v.
      * assert (X1 : executing s1) by (rewrite (exec_end _ _ _ V1); auto).
        apply (sound_weak _ _ _ _ _ (IHp s1 X1 ltac:(lia) ltac:(lia))).
        -- intros s (V2 & A2 & B2). rewrite V2, V1. auto.
        -- intros F. inversion F as [|? ? _ G]; subst. apply Forall_app in G. apply G.
      * assert (X1 : ~ executing s1) by (rewrite (exec_end _ _ _ V1); intros [_ ?]; discriminate).
        apply (sound_weak _ _ _ _ _ (skip_sized _ _ _ _ _ Hp s1 True X1)); [|auto].
        intros s (V2 & A2 & B2). rewrite V2, V1. repeat split; lia.
    + intros s2 (V2 & A2 & B2). apply (sound_cons _ _ _ _ _ _ (else_step s2 o _ _ _ Oo V2)). intros s3 (V3 & A3 & B3).
      apply (sound_app (fun s => s_vf s = s_vf st ++ [negb v] /\ blen (s_stack s) = k /\ blen (s_alt s) = c)).
      * destruct v; cbn [negb] in V3 |- *.
        -- assert (X3 : ~ executing s3) by (rewrite (exec_end _ _ _ V3); intros [_ ?]; discriminate).
           apply (sound_weak _ _ _ _ _ (skip_sized _ _ _ _ _ Hq s3 True X3)); [|auto].
           intros s (V4 & A4 & B4). rewrite V4, V3. repeat split; lia.
        -- assert (X3 : executing s3) by (rewrite (exec_end _ _ _ V3); auto).
           apply (sound_weak _ _ _ _ _ (IHq s3 X3 ltac:(lia) ltac:(lia))).
           ++ intros s (V4 & A4 & B4). rewrite V4, V3. auto.
           ++ intros F. inversion F as [|? ? _ G]; subst. apply Forall_app in G. destruct G as [_ G]. inversion G as [|? ? _ G']; subst. apply Forall_app in G'. apply G'.
      * intros s4 (V4 & A4 & B4). apply (sound_cons _ _ _ _ _ _ (endif_step s4 e _ _ _ Oe V4)). intros s5 (V5 & A5 & B5).
        assert (X5 : executing s5) by (unfold executing in *; rewrite V5; exact X).
        apply (sound_weak _ _ _ _ _ (IHl s5 X5 ltac:(lia) ltac:(lia))); [rewrite V5; auto|].
        intros F. inversion F as [|? ? _ G]; subst. apply Forall_app in G. destruct G as [_ G]. inversion G as [|? ? _ G']; subst.
        apply Forall_app in G'. destruct G' as [_ G']. inversion G'; assumption.
Qed.

(** ** The statements *)
Lemma executed_is st : executed st <-> executing st.
Proof.
  unfold executed, executing. induction (s_vf st) as [|v V IH]; cbn [existsb]; [split; auto|].
  split.
  - intros H. inversion H; subst. cbn. apply IH. assumption.
  - intros H. apply orb_false_iff in H. destruct H as [A B]. constructor; [destruct v; [reflexivity|discriminate]|apply IH, B].
Qed.

Lemma depth_step st i st' x y dx dy : effect (bZ (i_op i)) = Some (x, y, dx, dy) -> executed st -> step st i = Ok (Next st') ->
  x <= blen (s_stack st) /\ y <= blen (s_alt st) /\ blen (s_stack st') = blen (s_stack st) + dx /\ blen (s_alt st') = blen (s_alt st) + dy /\ s_vf st' = s_vf st.
Proof. intros E X H. apply executed_is in X. pose proof (step_counts st i x y dx dy X E) as C. rewrite H in C. exact C. Qed.
Lemma depth_step_enough st i e x y dx dy : effect (bZ (i_op i)) = Some (x, y, dx, dy) -> no_pick i -> executed st ->
  x <= blen (s_stack st) -> y <= blen (s_alt st) -> step st i = Ok (Fail e) -> ~ wants e.
Proof. intros E P X A B H. apply executed_is in X. pose proof (step_counts st i x y dx dy X E) as C. rewrite H in C. cbn [counts] in C. exact (C A B P). Qed.
Lemma depth_run l n a m b st st' : sized l n a m b -> executed st -> blen (s_stack st) = n -> blen (s_alt st) = a -> run l st = Ok (Next st') ->
  blen (s_stack st') = m /\ blen (s_alt st') = b /\ s_vf st' = s_vf st.
Proof.
  intros H X A B R. apply executed_is in X. pose proof (run_sized l n a m b H st X A B) as C. rewrite R in C. cbn [sound] in C. unfold at_depth in C. tauto.
Qed.
Lemma depth_run_enough l n a m b st e : sized l n a m b -> Forall no_pick l -> executed st -> blen (s_stack st) = n -> blen (s_alt st) = a ->
  run l st = Ok (Fail e) -> ~ wants e.
Proof.
  intros H P X A B R. apply executed_is in X. pose proof (run_sized l n a m b H st X A B) as C. rewrite R in C. exact (C P).
Qed.
Lemma depth_skipped l n a m b st st' : sized l n a m b -> ~ executed st -> run l st = Ok (Next st') ->
  blen (s_stack st') = blen (s_stack st) /\ blen (s_alt st') = blen (s_alt st) /\ s_vf st' = s_vf st.
Proof.
  intros H X R. rewrite executed_is in X. pose proof (skip_sized l n a m b H st True X) as C. rewrite R in C. cbn [sound] in C. unfold at_depth in C. tauto.
Qed.

Lemma depth_required l r st o : straight l -> executed st -> run (l ++ r) st = Ok (Next o) ->
  required main_of (ops_of l) <= blen (s_stack st) /\ required alt_of (ops_of l) <= blen (s_alt st).
Proof.
  intros H. revert st. induction H as [|i l E _ IH]; intros st X; cbn [app run ops_of map required].
  - intros _. unfold blen. lia.
  - destruct (effect (bZ (i_op i))) as [[[[x y] dx] dy]|] eqn:F; [|congruence]. destruct (step st i) as [[s|e]|e] eqn:S; cbn [bind]; try discriminate. intros R.
    destruct (depth_step st i s x y dx dy F X S) as (A & B & C & D & V). cbn [main_of alt_of fst snd].
    destruct (IH s ltac:(unfold executed in *; rewrite V; exact X) R) as [K1 K2]. fold (ops_of l). lia.
Qed.
Lemma depth_straight l n a : straight l -> required main_of (ops_of l) <= n -> required alt_of (ops_of l) <= a -> exists m b, sized l n a m b.
Proof.
  intros H. revert n a. induction H as [|i l E _ IH]; intros n a; cbn [ops_of map required].
  - intros _ _. exists n, a. constructor.
  - destruct (effect (bZ (i_op i))) as [[[[x y] dx] dy]|] eqn:F; [|congruence]. cbn [main_of alt_of fst snd]. fold (ops_of l). intros A B.
    destruct (IH (n + dx) (a + dy) ltac:(lia) ltac:(lia)) as (m & b & K). exists m, b. apply (Sized_op i l n a m b x y dx dy); [exact F|lia|lia|exact K].
Qed.

Lemma pushes_sized l n a : pushes l -> 0 <= n -> 0 <= a -> sized l n a (n + blen l) a.
Proof.
  intros H. revert n. induction H as [|i l [E _] _ IH]; intros n N A.
  - change (blen (@nil instr)) with 0. rewrite Z.add_0_r. constructor.
  - replace (n + blen (i :: l)) with (n + 1 + blen l) by (unfold blen; cbn [length]; lia).
    apply (Sized_op i l n a _ a 0 0 1 0); [exact E|lia|lia|]. rewrite Z.add_0_r. apply IH; lia.
Qed.

Lemma eval_sized st n a m b o : sized (s_ins (s_script st)) n a m b -> s_vf st = [] -> blen (s_stack st) = n -> blen (s_alt st) = a ->
  evaluate st = Ok o -> match o with Next st' => blen (s_stack st') = m | Fail e => Forall no_pick (s_ins (s_script st)) -> ~ wants e end.
Proof.
  intros H V A B. unfold evaluate. destruct (script_to_bytes (s_script st)) as [bs|]; cbn [bind]; [|discriminate].
  destruct (blen bs >? 10000); [intros [= <-]; intros _; apply not_wants; exact I|].
  pose proof (run_sized _ _ _ _ _ H st ltac:(unfold executing; rewrite V; reflexivity) A B) as C.
  destruct (run (s_ins (s_script st)) st) as [[s|e]|e]; cbn [sound] in C.
  - destruct C as (V1 & A1 & B1). rewrite V in V1.
    destruct (_ >? 1000); [intros [= <-]; intros _; apply not_wants; exact I|]. rewrite V1. change (blen (@nil bool) >? 0) with false. cbv iota. intros K. assert (o = Next s) as -> by congruence. exact A1.
  - intros K. assert (o = Fail e) as -> by congruence. exact C.
  - intros K. assert (o = Fail (IE_Unknown e)) as -> by congruence. intros _. apply not_wants. exact I.
Qed.
Lemma depth_verify self a b f n c m d e : sized (s_ins a) 0 0 n c -> sized (s_ins b) n 0 m d -> 1 <= m ->
  Forall no_pick (s_ins a ++ s_ins b) -> verify self a b f = Ok (false, e) -> ~ wants e.
Proof.
  intros SA SB M F. apply Forall_app in F. destruct F as [FA FB]. unfold verify. cbv zeta.
  destruct (_ && _); [intros [= <-]; apply not_wants; exact I|].
  set (st := set_flags (set_script (initialize self) a) f).
  destruct (evaluate st) as [o|] eqn:E; cbn [bind]; [|discriminate].
  pose proof (eval_sized st _ _ _ _ o SA eq_refl eq_refl eq_refl E) as C. destruct o as [s|er].
  2:{ intros K. assert (er = e) as <- by congruence. exact (C FA). }
  set (st2 := set_flags (set_stack (set_script (initialize s) b) (s_stack s)) f).
  destruct (evaluate st2) as [o|] eqn:E2; cbn [bind]; [|discriminate].
  pose proof (eval_sized st2 _ _ _ _ o SB eq_refl C eq_refl E2) as C2. destruct o as [s2|er].
  2:{ intros K. assert (er = e) as <- by congruence. exact (C2 FB). }
  pose proof (blen_last (s_stack s2) 1 ltac:(lia)) as L. destruct (last_n 1 (s_stack s2)) as [|x [|? ?]]; try (exfalso; unfold blen in L; cbn [length] in L; lia).
  destruct (negb _); [intros [= <-]; apply not_wants; exact I|]. destruct (has_flag _ _); discriminate.
Qed.

Lemma eval_run st st' : evaluate st = Ok (Next st') -> exists st1, run (s_ins (s_script st)) st = Ok (Next st1).
Proof.
  unfold evaluate. destruct (script_to_bytes (s_script st)) as [bs|]; cbn [bind]; [|discriminate].
  destruct (blen bs >? 10000); [discriminate|]. destruct (run _ st) as [[s|e]|e]; try discriminate. eauto.
Qed.
Lemma depth_spend self a b f e n c l r : sized (s_ins a) 0 0 n c -> s_ins b = l ++ r -> straight l ->
  verify self a b f = Ok (true, e) -> required main_of (ops_of l) <= n /\ required alt_of (ops_of l) <= 0.
Proof.
  intros SA B SL V. apply verify_needs in V. destruct V as (st1 & st2 & E1 & E2).
  pose proof (eval_sized (ready a [] f) _ _ _ _ _ SA eq_refl eq_refl eq_refl E1) as C. cbn in C.
  destruct (eval_run _ _ E2) as (s & R). cbn [ready s_script] in R. rewrite B in R.
  destruct (depth_required l r (ready b (s_stack st1) f) s SL (Forall_nil _) R) as [K1 K2].
  change (s_stack (ready b (s_stack st1) f)) with (s_stack st1) in K1. change (s_alt (ready b (s_stack st1) f)) with (@nil pyb) in K2.
  change (blen (@nil pyb)) with 0 in K2. split; [congruence|exact K2].
Qed.
Lemma depth_spend_pushes self a b f e l r : pushes (s_ins a) -> s_ins b = l ++ r -> straight l ->
  verify self a b f = Ok (true, e) -> required main_of (ops_of l) <= blen (s_ins a).
Proof.
  intros P B SL V. pose proof (pushes_sized _ 0 0 P ltac:(lia) ltac:(lia)) as SA. apply (depth_spend self a b f e _ _ l r SA B SL V).
Qed.

(** IFDUP and DROP change the depth as the items are. *)
Definition two (x y : pyb) : interp := ready (Script None []) [x; y] 0.
Definition changes (o : opcode) (st : interp) (d : Z) : Prop :=
  exists st', step st (Instr o None) = Ok (Next st') /\ blen (s_stack st') = blen (s_stack st) + d.
Lemma ifdup_varies : changes x73 (two (Str []) (Str [x01])) 1 /\ changes x73 (two (Str []) (Str [])) 0.
Proof. split; eexists; (split; [reflexivity|reflexivity]). Qed.
Lemma drop_varies : changes x75 (two (Str []) (Str [x01])) (-2) /\ changes x75 (ready (Script None []) [Str []] 0) (-1).
Proof. split; eexists; (split; [reflexivity|reflexivity]). Qed.
Lemma depth_unfixed i : bZ (i_op i) = 115 \/ bZ (i_op i) = 117 -> i_data i = None ->
  ~ (exists d, forall st st', executed st -> step st i = Ok (Next st') -> blen (s_stack st') = blen (s_stack st) + d).
Proof.
  intros O D [d K]. destruct i as [o dt]. cbn [i_op i_data] in *. subst dt. destruct O as [O|O].
  - rewrite (op_is _ _ O x73 eq_refl) in K. destruct ifdup_varies as [(s1 & E1 & L1) (s2 & E2 & L2)].
    assert (D1 := fun X => K _ _ X E1). specialize (D1 (Forall_nil _)). assert (D2 := fun X => K _ _ X E2). specialize (D2 (Forall_nil _)). lia.
  - rewrite (op_is _ _ O x75 eq_refl) in K. destruct drop_varies as [(s1 & E1 & L1) (s2 & E2 & L2)].
    assert (D1 := fun X => K _ _ X E1). specialize (D1 (Forall_nil _)). assert (D2 := fun X => K _ _ X E2). specialize (D2 (Forall_nil _)). lia.
Qed.
