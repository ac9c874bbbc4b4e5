(** Proofs relating the script interpreter to the reference semantics. *)
From Verif Require Import Base M_Hash M_Codec S_Codec P_Codec P_ScriptNum M_Keys S_Keys M_EC M_Script S_Script P_Script M_Interp S_Interp P_Interp S_Ref.
Open Scope Z_scope.

(** ** numbers *)
Lemma le_digits m k : 0 <= m -> le_val (map (fun i => Zb (m / 256 ^ Z.of_nat i mod 256)) (seq 0 k)) = m mod 256 ^ Z.of_nat k.
Proof.
  intros H. induction k as [|k IH]; [cbn; rewrite Z.mod_1_r; reflexivity|].
  rewrite seq_S, map_app, le_val_app, IH, map_length, seq_length. cbn [Nat.add map le_val].
  rewrite bZ_Zb by (apply Z.mod_pos_bound; lia).
  rewrite Nat2Z.inj_succ, Z.pow_succ_r by lia. assert (P : 0 < 256 ^ Z.of_nat k) by (apply Z.pow_pos_nonneg; lia).
  rewrite (Z.mul_comm 256 (256 ^ _)), Z.rem_mul_r by lia. ring.
Qed.
Lemma magnitude_top n : n <> 0 -> exists d top, magnitude n = d ++ [top] /\ 0 < bZ top /\ le_val d + 256 ^ blen d * bZ top = Z.abs n.
Proof.
  intros N. unfold magnitude. replace (n =? 0) with false by lia.
  assert (P : 0 < Z.abs n) by lia. pose proof (Z.log2_spec _ P) as L. pose proof (Z.log2_nonneg (Z.abs n)) as L0.
  remember (Z.log2 (Z.abs n)) as g eqn:G. clear G. remember (Z.abs n) as m eqn:M. clear M.
  replace (Z.to_nat (g / 8 + 1)) with (S (Z.to_nat (g / 8))) by (pose proof (Z.div_pos g 8); lia).
  rewrite seq_S, map_app. cbn [Nat.add map].
  remember (Z.to_nat (g / 8)) as k eqn:K. assert (KZ : Z.of_nat k = g / 8) by (pose proof (Z.div_pos g 8); lia).
  exists (map (fun i => Zb (m / 256 ^ Z.of_nat i mod 256)) (seq 0 k)), (Zb (m / 256 ^ Z.of_nat k mod 256)). split; [reflexivity|].
  rewrite bZ_Zb by (apply Z.mod_pos_bound; lia). unfold blen. rewrite le_digits, map_length, seq_length by lia.
  assert (W : 256 ^ Z.of_nat k = 2 ^ (8 * (g / 8))) by (rewrite KZ, Z.pow_mul_r by (try apply Z.div_pos; lia); reflexivity).
  assert (B1 : 2 ^ (8 * (g / 8)) <= m) by (etransitivity; [apply Z.pow_le_mono_r with (c := g); lia|lia]).
  assert (B2 : m < 256 * 2 ^ (8 * (g / 8))).
  { replace (256 * 2 ^ (8 * (g / 8))) with (2 ^ (8 * (g / 8) + 8)) by (rewrite Z.pow_add_r by lia; change (2 ^ 8) with 256; ring).
    eapply Z.lt_le_trans; [apply L|]. apply Z.pow_le_mono_r; lia. }
  rewrite <- W in B1, B2. assert (Q : 0 < 256 ^ Z.of_nat k) by (apply Z.pow_pos_nonneg; lia).
  revert Q B1 B2. generalize (256 ^ Z.of_nat k). intros w Q B1 B2.
  assert (1 <= m / w) by (apply Z.div_le_lower_bound; lia).
  assert (m / w < 256) by (apply Z.div_lt_upper_bound; lia).
  rewrite (Z.mod_small (m / w)) by lia. split; [lia|]. pose proof (Z.div_mod m w). lia.
Qed.
Lemma script_num_spec n : sm_val (script_num n) = n /\ sm_canon (script_num n).
Proof.
  destruct (Z.eq_dec n 0) as [->|N]; [split; [reflexivity|exact I]|].
  destruct (magnitude_top n N) as (d & top & E & T & V). unfold script_num. rewrite E, rev_app_distr. cbn [rev app]. cbv zeta.
  pose proof (bZ_range top) as R. rewrite rev_involutive.
  destruct (bZ top <? 128) eqn:C.
  - rewrite sm_val_snoc. unfold sm_canon. rewrite rev_app_distr. cbn [rev app].
    assert (BZ : bZ (Zb (bZ top + (if n <? 0 then 128 else 0))) = bZ top + (if n <? 0 then 128 else 0)) by (apply bZ_Zb; destruct (n <? 0); lia).
    unfold sm_mag. rewrite BZ. assert (MM : (bZ top + (if n <? 0 then 128 else 0)) mod 128 = bZ top) by (destruct (n <? 0); lia).
    rewrite MM, V. split.
    + destruct (n <? 0) eqn:S; [replace (bZ top + 128 <? 128) with false by lia|replace (bZ top + 0 <? 128) with true by lia]; lia.
    + destruct (rev d); [lia|left; lia].
  - rewrite sm_val_snoc. unfold sm_canon. rewrite !rev_app_distr. cbn [rev app].
    assert (BZ : bZ (Zb (if n <? 0 then 128 else 0)) = if n <? 0 then 128 else 0) by (apply bZ_Zb; destruct (n <? 0); lia).
    unfold sm_mag. rewrite BZ. assert (MM : (if n <? 0 then 128 else 0) mod 128 = 0) by (destruct (n <? 0); reflexivity).
    rewrite MM. split; [|right; lia]. rewrite le_val_app. cbn [le_val]. fold (blen d).
    destruct (n <? 0) eqn:S; cbn [Z.ltb Z.compare Pos.compare Pos.compare_cont]; lia.
Qed.
Lemma script_num_correct n : sm_val (script_num n) = n /\ sm_shortest (script_num n).
Proof. destruct (script_num_spec n) as [V C]. split; [exact V|]. apply sm_shortest_iff, C. Qed.
Lemma script_num_encode n : encode_script_number n = script_num n.
Proof. destruct (script_num_correct n) as [V C]. rewrite <- V at 1. apply encode_sm_val, C. Qed.

(** ** truth *)
Lemma bitcoin_bool_spec l : bitcoin_bool l = true <-> bitcoin_true l.
Proof.
  unfold bitcoin_true. induction l as [|c l IH]; [split; [discriminate|intros (a & c & r & E & _); destruct a; discriminate]|].
  destruct l as [|d l].
  - cbn [bitcoin_bool]. split.
    + intros H. exists [], c, []. split; [reflexivity|]. split; [lia|]. intros [K _]. lia.
    + intros (a & c' & r & E & N & K). destruct a as [|x a]; [|destruct a; discriminate]. injection E as <- <-.
      assert (bZ c <> 128) by (intros Q; apply K; auto). lia.
  - replace (bitcoin_bool (c :: d :: l)) with (negb (bZ c =? 0) || bitcoin_bool (d :: l)) by reflexivity.
    rewrite orb_true_iff, IH. split.
    + intros [H|(a & c' & r & E & N & K)].
      * exists [], c, (d :: l). split; [reflexivity|]. split; [lia|]. intros [_ K]. discriminate.
      * exists (c :: a), c', r. rewrite E. auto.
    + intros (a & c' & r & E & N & K). destruct a as [|x a].
      * injection E as <- <-. left. lia.
      * injection E as <- E. right. exists a, c', r. auto.
Qed.
Lemma first_bool_spec p : first_bool (pyb_bytes p) = true <-> true_item p.
Proof.
  unfold true_item. destruct (pyb_bytes p) as [|c [|d r]]; cbn [first_bool].
  - split; [discriminate|intros (c & r & E & _); discriminate].
  - split.
    + intros H. exists c, []. split; [reflexivity|]. split; [lia|]. intros [K _]. lia.
    + intros (c' & r & E & N & K). injection E as <- <-. assert (bZ c <> 128) by (intros Q; apply K; auto). lia.
  - split.
    + intros H. exists c, (d :: r). split; [reflexivity|]. split; [lia|]. intros [_ K]. discriminate.
    + intros (c' & r' & E & N & K). injection E as <- <-. lia.
Qed.
Lemma cast_first p : cast_to_bool p = first_bool (pyb_bytes p).
Proof.
  pose proof (cast_iff p) as A. pose proof (first_bool_spec p) as B. destruct (cast_to_bool p), (first_bool (pyb_bytes p)); try reflexivity.
  - symmetry. apply B, A. reflexivity.
  - apply A, B. reflexivity.
Qed.
Lemma first_bitcoin l : first_bool l = true -> bitcoin_bool l = true.
Proof. intros H. apply bitcoin_bool_spec. apply (first_bool_spec (BA l)) in H. destruct H as (c & r & E & K). exists [], c, r. cbn in E. auto. Qed.
Lemma clean_bool l : clean l -> first_bool l = bitcoin_bool l.
Proof.
  intros C. pose proof (bitcoin_agree (BA l)) as [_ A]. cbn [pyb_bytes] in A. specialize (A C).
  rewrite <- bitcoin_bool_spec, <- first_bool_spec in A. cbn [pyb_bytes] in A.
  destruct (first_bool l), (bitcoin_bool l); try reflexivity; [symmetry; apply A; reflexivity|apply A; reflexivity].
Qed.

(** ** one instruction *)
Lemma last_n_rev {A} k (l : list A) : last_n k (rev l) = rev (firstn k l).
Proof. unfold last_n. rewrite rev_length. rewrite skipn_rev. f_equal. destruct (Nat.le_gt_cases k (length l)).
  - f_equal. lia.
  - rewrite !firstn_all2 by lia. reflexivity.
Qed.
Lemma drop_last_rev {A} k (l : list A) : drop_last k (rev l) = rev (skipn k l).
Proof. unfold drop_last. rewrite rev_length. rewrite firstn_rev. f_equal. destruct (Nat.le_gt_cases k (length l)).
  - f_equal. lia.
  - rewrite !skipn_all2 by lia. reflexivity.
Qed.
Lemma blen_rev {A} (l : list A) : blen (rev l) = blen l.
Proof. unfold blen. rewrite rev_length. reflexivity. Qed.
Lemma blen_map {A B} (f : A -> B) l : blen (map f l) = blen l.
Proof. unfold blen. rewrite map_length. reflexivity. Qed.
Lemma blen_cons {A} (x : A) l : blen (x :: l) = 1 + blen l.
Proof. unfold blen. cbn [length]. lia. Qed.
Lemma blen_nil {A} : blen (@nil A) = 0.
Proof. reflexivity. Qed.
Lemma blen_nonneg {A} (l : list A) : 0 <= blen l.
Proof. unfold blen. lia. Qed.
Lemma pyb_eqb_bytes x y : pyb_eqb x y = bytes_eqb (pyb_bytes x) (pyb_bytes y).
Proof.
  pose proof (bytes_eq x y) as H. pose proof (bytes_eqb_eq (pyb_bytes x) (pyb_bytes y)) as K.
  destruct (pyb_eqb x y), (bytes_eqb _ _); try reflexivity; [symmetry; apply K, H|apply H, K]; reflexivity.
Qed.


Lemma is_shortest_iff l : is_shortest l = true <-> sm_shortest l.
Proof.
  unfold is_shortest. rewrite bytes_eqb_eq. destruct (script_num_correct (sm_val l)) as [V C]. split; [intros ->; exact C|].
  intros S. apply sm_shortest_unique; [exact S|exact C|symmetry; exact V].
Qed.
Lemma decode_with fl m p : numeric_type p ->
  (exists n, decode_script_number p m 4 = Ok n /\ operand_with (bitforge fl) m (pyb_bytes p) = Some n) \/
  (exists e, decode_script_number p m 4 = Err e /\ operand_with (bitforge fl) m (pyb_bytes p) = None).
Proof.
  intros T. unfold operand_with. cbn [d_limit bitforge]. destruct (blen (pyb_bytes p) <=? 3) eqn:L; cbn [andb].
  - destruct p as [l|l]; cbn [numeric_type pyb_bytes] in *; [lia|]. destruct m; cbn [negb orb].
    + destruct (decode_script_number_minimal l 4) as [D1 D2]; [lia|]. destruct (is_shortest l) eqn:S.
      * left. exists (sm_val l). split; [apply D1, is_shortest_iff, S|reflexivity].
      * right. eexists. split; [apply D2; intros X; apply is_shortest_iff in X; congruence|reflexivity].
    + left. exists (sm_val l). split; [apply decode_script_number_plain; lia|reflexivity].
  - right. eexists. split; [|reflexivity]. apply decode_script_number_long. unfold pyb_len, blen in *. lia.
Qed.
Lemma decode_operand fl p : numeric_type p ->
  (exists n, decode_script_number p (Z.testbit fl MINIMALDATA) 4 = Ok n /\ operand_of (bitforge fl) (pyb_bytes p) = Some n) \/
  (exists e, decode_script_number p (Z.testbit fl MINIMALDATA) 4 = Err e /\ operand_of (bitforge fl) (pyb_bytes p) = None).
Proof. exact (decode_with fl _ p). Qed.

(** A state given by its stacks with the top first. *)
Definition mk (p q : list pyb) pc bg n c e fl sc : interp := Interp (rev p) (rev q) pc bg n (rev c) e fl sc.
Lemma mk_state p q pc bg n c e fl sc : ref_state (mk p q pc bg n c e fl sc) = RState (map pyb_bytes p) (map pyb_bytes q) c n.
Proof. unfold ref_state, mk. cbn. rewrite <- !map_rev, !rev_involutive. reflexivity. Qed.
Lemma mk_intro st : exists p q c, st = mk p q (s_pc st) (s_begin st) (s_nop st) c (s_errstr st) (s_flags st) (s_script st).
Proof. exists (rev (s_stack st)), (rev (s_alt st)), (rev (s_vf st)). unfold mk. rewrite !rev_involutive. destruct st; reflexivity. Qed.
Lemma snoc_rev {A} (l : list A) x : rev l ++ [x] = rev (x :: l).
Proof. reflexivity. Qed.
Lemma outcome_go p q pc bg n c e fl sc l :
  outcome_state (go (mk p q pc bg n c e fl sc) l) = Some (RState (rev (map pyb_bytes l)) (map pyb_bytes q) c n).
Proof. unfold go, outcome_state, ref_state, mk, set_stack. cbn. rewrite <- !map_rev, !rev_involutive. reflexivity. Qed.
Lemma need_rev p q pc bg n c e fl sc k r :
  need (mk p q pc bg n c e fl sc) (Z.of_nat k) r = if (length p <? k)%nat then Ok (Fail IE_InvalidStack) else r.
Proof.
  unfold need, mk. cbn [s_stack]. rewrite blen_rev. unfold blen.
  destruct (Nat.ltb_spec (length p) k); [replace (_ <? _) with true by lia|replace (_ <? _) with false by lia]; reflexivity.
Qed.

Ltac use_need k := match goal with |- context[need (mk ?p ?q ?pc ?bg ?n ?c ?e ?fl ?sc) ?z ?r] =>
  change (need (mk p q pc bg n c e fl sc) z r) with (need (mk p q pc bg n c e fl sc) (Z.of_nat k) r); rewrite need_rev end.
Ltac view := cbn [s_stack s_alt mk]; rewrite ?last_n_rev, ?drop_last_rev.
Ltac word k := intros p q pc bg n c e fl sc TP TQ; cbv beta; use_need k; view;
  repeat (match goal with |- context[Nat.leb _ _] => idtac | |- context[Nat.ltb _ _] => idtac end;
    match goal with |- context[length ?p] => destruct p as [|? p] end; cbn [length Nat.ltb Nat.leb firstn skipn rev app map]);
  try reflexivity.
Ltac done := rewrite outcome_go; cbn [rev]; rewrite ?map_app, ?rev_app_distr, ?map_rev, ?rev_involutive; cbn [map rev app]; rewrite ?map_rev, ?rev_involutive; reflexivity.

Definition agrees (z : Z) (f : bool -> interp -> res outcome) : Prop :=
  forall p q pc bg n c e fl sc, Forall numeric_type p -> Forall numeric_type q ->
  ref_exec (bitforge fl) z (RState (map pyb_bytes p) (map pyb_bytes q) c n) = outcome_state (f (Z.testbit fl MINIMALDATA) (mk p q pc bg n c e fl sc)).

Lemma ref_2drop : agrees 109 (fun _ => do_2drop).
Proof. unfold do_2drop. word 2%nat. done. Qed.
Lemma ref_2dup : agrees 110 (fun _ => do_2dup).
Proof. unfold do_2dup. word 2%nat. done. Qed.
Lemma ref_3dup : agrees 111 (fun _ => do_3dup).
Proof. unfold do_3dup. word 3%nat. done. Qed.
Lemma ref_2over : agrees 112 (fun _ => do_2over).
Proof. unfold do_2over. word 4%nat. done. Qed.
Lemma ref_2rot : agrees 113 (fun _ => do_2rot).
Proof. unfold do_2rot. word 6%nat. done. Qed.
Lemma ref_2swap : agrees 114 (fun _ => do_2swap).
Proof. unfold do_2swap. word 4%nat. done. Qed.
Lemma ref_drop : agrees 117 (fun _ => do_drop).
Proof. unfold do_drop. word 1%nat. destruct p; done. Qed.
Lemma ref_dup : agrees 118 (fun _ => do_dup).
Proof. unfold do_dup. word 1%nat. done. Qed.
Lemma ref_nip : agrees 119 (fun _ => do_nip).
Proof. unfold do_nip. word 2%nat. done. Qed.
Lemma ref_over : agrees 120 (fun _ => do_over).
Proof. unfold do_over. word 2%nat. done. Qed.
Lemma ref_rot : agrees 123 (fun _ => do_rot).
Proof. unfold do_rot. word 3%nat. done. Qed.
Lemma ref_swap : agrees 124 (fun _ => do_swap).
Proof. unfold do_swap. word 2%nat. done. Qed.
Lemma ref_tuck : agrees 125 (fun _ => do_tuck).
Proof. unfold do_tuck. word 2%nat. done. Qed.
Lemma ref_verify : agrees 105 (fun _ => do_verify).
Proof. unfold do_verify. word 1%nat. rewrite cast_first. cbn [ref_exec ref_word need1 d_true bitforge]. destruct (first_bool _); [done|reflexivity]. Qed.
Lemma ref_ifdup : agrees 115 (fun _ => do_ifdup).
Proof.
  unfold do_ifdup. word 1%nat. rewrite cast_first. cbn [ref_exec ref_word need1 d_true bitforge]. destruct (first_bool _); [done|].
  cbn [outcome_state]. rewrite mk_state. reflexivity.
Qed.
Lemma num_bytes n : pyb_bytes (num n) = script_num n.
Proof. apply script_num_encode. Qed.
Lemma bool_num b : pyb_bytes (bool_bytes b) = script_num (truth b).
Proof. rewrite <- num_bytes. destruct b; reflexivity. Qed.
Ltac value := rewrite outcome_go; cbn [rev]; rewrite ?map_app, ?rev_app_distr, ?map_rev, ?rev_involutive; cbn [map rev app]; rewrite ?map_rev, ?rev_involutive, ?num_bytes, ?bool_num.
Lemma ref_depth : agrees 116 (fun _ => do_depth).
Proof. intros p q pc bg n c e fl sc TP TQ. unfold do_depth. value. cbn [s_stack mk ref_exec ref_word]. rewrite blen_rev, map_rev, rev_involutive, blen_map. reflexivity. Qed.
Lemma ref_size : agrees 130 (fun _ => do_size).
Proof. unfold do_size. word 1%nat. value. reflexivity. Qed.
Lemma ref_equal : agrees 135 (fun m st => do_equal st false).
Proof. unfold do_equal. word 2%nat. rewrite pyb_eqb_bytes. value. reflexivity. Qed.
Lemma ref_equalverify : agrees 136 (fun m st => do_equal st true).
Proof. 
  unfold do_equal. word 2%nat. rewrite pyb_eqb_bytes. cbn [ref_exec ref_word need2].
  destruct (bytes_eqb _ _); [|reflexivity]. rewrite snoc_rev, drop_last_rev. done.
Qed.
Lemma ref_toalt : agrees 107 (fun _ => do_toalt).
Proof. unfold do_toalt. word 1%nat. cbn [outcome_state]. change (set_stack _ _) with (mk p (p0 :: q) pc bg n c e fl sc). rewrite mk_state. reflexivity. Qed.
Lemma ref_fromalt : agrees 108 (fun _ => do_fromalt).
Proof.
  intros p q pc bg n c e fl sc TP TQ. unfold do_fromalt. view. rewrite blen_rev. destruct q as [|x q]; [reflexivity|].
  replace (blen (x :: q) <? 1) with false by (rewrite blen_cons; pose proof (blen_nonneg q); lia). cbn [outcome_state].
  change (set_alt _ _) with (mk (x :: p) q pc bg n c e fl sc). rewrite mk_state. reflexivity.
Qed.
Ltac dec H x := let m := fresh "m" in let E1 := fresh "E" in let E2 := fresh "E" in
  destruct (decode_operand x H) as [[m [E1 E2]]|[m [E1 E2]]]; rewrite E1, ?E2; cbn [bind].
Lemma rev_nth {A} (l : list A) k x : nth_error (rev l) (length l - k - 1) = Some x -> (k < length l)%nat -> nth_error l k = Some x.
Proof.
  revert k. induction l as [|y l IH]; intros k H L; cbn [length] in *; [lia|]. cbn [rev] in H. destruct k as [|k].
  - rewrite nth_error_app2 in H by (rewrite rev_length; lia). rewrite rev_length in H. replace (S (length l) - 0 - 1 - length l)%nat with 0%nat in H by lia. exact H.
  - rewrite nth_error_app1 in H by (rewrite rev_length; lia). apply IH; [exact H|lia].
Qed.
Lemma ref_pick_roll z (roll : bool) : z = (if roll then 122 else 121) -> agrees z (fun m st => do_pick_roll st m roll).
Proof.
  intros ->. unfold do_pick_roll. word 2%nat; try (destruct roll; reflexivity).
  inversion TP as [|? ? T1 T2]; subst. 
  destruct (decode_operand fl _ T1) as [[m [E1 E2]]|[m [E1 E2]]]; rewrite E1; cbn [bind]; [|destruct roll; cbn [ref_exec ref_word need2]; rewrite E2; reflexivity].
  change (rev p ++ [p1]) with (rev (p1 :: p)). remember (p1 :: p) as t eqn:ET. rewrite blen_rev.
  assert (R : ref_exec (bitforge fl) (if roll then 122 else 121) (RState (pyb_bytes p0 :: pyb_bytes p1 :: map pyb_bytes p) (map pyb_bytes q) c n) =
    match (if m <? 0 then None else match nth_error (map pyb_bytes t) (Z.to_nat m) with
       Some x => Some (x :: (if roll then firstn (Z.to_nat m) (map pyb_bytes t) ++ skipn (S (Z.to_nat m)) (map pyb_bytes t) else map pyb_bytes t))
       | None => None end) with Some s => Some (RState s (map pyb_bytes q) c n) | None => None end).
  { subst t. destruct roll; cbn [ref_exec ref_word need2]; rewrite E2; reflexivity. }
  rewrite R. clear R E1 E2. destruct (m <? 0) eqn:M; cbn [orb]; [reflexivity|].
  destruct (Z.geb_spec m (blen t)) as [G|G].
  - replace (nth_error (map pyb_bytes t) (Z.to_nat m)) with (@None bytes); [reflexivity|]. symmetry. apply nth_error_None. rewrite map_length. unfold blen in G. lia.
  - cbv zeta. rewrite rev_length. unfold blen in G. destruct (nth_error (rev t) _) as [x|] eqn:X.
    2: { apply nth_error_None in X. rewrite rev_length in X. lia. }
    apply rev_nth in X; [|lia]. rewrite (map_nth_error pyb_bytes _ _ X). destruct roll.
    + match goal with |- context[match rev t with [] => [] | _ :: l => skipn ?i l end] =>
        change (match rev t with [] => [] | _ :: l => skipn i l end) with (skipn (S i) (rev t)) end.
      rewrite outcome_go. rewrite firstn_rev, skipn_rev, <- rev_app_distr, snoc_rev, map_rev, rev_involutive.
      replace (length t - (length t - Z.to_nat m - 1))%nat with (S (Z.to_nat m)) by lia.
      replace (length t - S (length t - Z.to_nat m - 1))%nat with (Z.to_nat m) by lia.
      cbn [map]. rewrite map_app, firstn_map, skipn_map. reflexivity.
    + rewrite outcome_go, snoc_rev, map_rev, rev_involutive. reflexivity.
Qed.
Lemma ref_num1 z o f : (forall fl s, ref_word (bitforge fl) z s = num1 (bitforge fl) s f) -> (forall fl s a c n, ref_exec (bitforge fl) z (RState s a c n) =
    match ref_word (bitforge fl) z s with Some s => Some (RState s a c n) | None => None end) -> (forall n, unary o n = f n) ->
  agrees z (fun m st => do_unary st m o).
Proof.
  intros W X U. unfold do_unary. word 1%nat; rewrite X, W; [reflexivity|]. inversion TP as [|? ? T1 T2]; subst. unfold num1. cbn [need1].
  destruct (decode_operand fl _ T1) as [[m [E1 E2]]|[m [E1 E2]]]; rewrite E1, E2; cbn [bind]; [|reflexivity].
  value. rewrite U. reflexivity.
Qed.
Lemma ref_num2 z o f : (forall fl s, ref_word (bitforge fl) z s = num2 (bitforge fl) s f) -> (forall fl s a c n, ref_exec (bitforge fl) z (RState s a c n) =
    match ref_word (bitforge fl) z s with Some s => Some (RState s a c n) | None => None end) -> (forall a b, binary o a b = f a b) ->
  op_eqb o OP_NUMEQUALVERIFY = false -> agrees z (fun m st => do_binary st m o).
Proof.
  intros W X U V. unfold do_binary. rewrite V. word 2%nat; rewrite X, W; [reflexivity|reflexivity|].
  inversion TP as [|? ? T1 TP1]; subst. inversion TP1 as [|? ? T2 TP2]; subst. unfold num2. cbn [need2].
  destruct (decode_operand fl _ T2) as [[m [E1 E2]]|[m [E1 E2]]]; rewrite E1, E2; cbn [bind]; [|reflexivity].
  destruct (decode_operand fl _ T1) as [[k [F1 F2]]|[k [F1 F2]]]; rewrite F1, F2; cbn [bind]; [|reflexivity].
  value. rewrite U. reflexivity.
Qed.
Lemma ref_numequalverify : agrees 157 (fun m st => do_binary st m OP_NUMEQUALVERIFY).
Proof.
  unfold do_binary. change (op_eqb OP_NUMEQUALVERIFY OP_NUMEQUALVERIFY) with true. cbv iota. word 2%nat. cbn [ref_exec ref_word need2].
  inversion TP as [|? ? T1 TP1]; subst. inversion TP1 as [|? ? T2 TP2]; subst.
  destruct (decode_operand fl _ T2) as [[m [E1 E2]]|[m [E1 E2]]]; rewrite E1, E2; cbn [bind]; [|reflexivity].
  destruct (decode_operand fl _ T1) as [[k [F1 F2]]|[k [F1 F2]]]; rewrite F1, F2; cbn [bind]; [|reflexivity].
  change (binary OP_NUMEQUALVERIFY m k) with (b2z (m =? k)). destruct (m =? k); [|reflexivity]. change (cast_to_bool (num (b2z true))) with true. cbv iota.
  rewrite snoc_rev, drop_last_rev. done.
Qed.
Lemma ref_within : agrees 165 (fun _ => do_within).
Proof.
  unfold do_within. word 3%nat. cbn [ref_exec ref_word need3]. cbn [d_minimal d_within bitforge]. rewrite andb_false_r. cbv zeta.
  inversion TP as [|? ? T1 TP1]; subst. inversion TP1 as [|? ? T2 TP2]; subst. inversion TP2 as [|? ? T3 TP3]; subst.
  destruct (decode_with fl false _ T3) as [[m [E1 E2]]|[m [E1 E2]]]; rewrite E1, E2; cbn [bind]; [|reflexivity].
  destruct (decode_with fl false _ T2) as [[k [F1 F2]]|[k [F1 F2]]]; rewrite F1, F2; cbn [bind]; [|reflexivity].
  destruct (decode_with fl false _ T1) as [[j [G1 G2]]|[j [G1 G2]]]; rewrite G1, G2; cbn [bind]; [|reflexivity].
  value. reflexivity.
Qed.
Lemma ref_hash z o f : (forall fl s, ref_word (bitforge fl) z s = hashed s f) -> (forall fl s a c n, ref_exec (bitforge fl) z (RState s a c n) =
    match ref_word (bitforge fl) z s with Some s => Some (RState s a c n) | None => None end) ->
  (forall b, (if op_eqb o OP_RIPEMD160 then Ok (ripemd160 b) else if op_eqb o OP_SHA1 then Ok (sha1 b) else if op_eqb o OP_SHA256 then Ok (sha256 b)
                 else if op_eqb o OP_HASH160 then Err E_AttributeError else Ok (sha256 (sha256 b))) = Ok (f b)) ->
  agrees z (fun m st => do_hash st o).
Proof.
  intros W X U. unfold do_hash. word 1%nat; rewrite X, W; [reflexivity|]. cbv zeta. rewrite U. cbn [bind]. unfold hashed. cbn [need1].
  value. reflexivity.
Qed.
Lemma ref_hash160 : agrees 169 (fun m st => do_hash st OP_HASH160).
Proof. unfold do_hash. word 1%nat. Qed.
Lemma ref_checksig z : z = 172 \/ z = 173 -> agrees z (fun _ => do_checksig).
Proof.
  intros H. assert (N : forall fl s, ref_exec (bitforge fl) z s = None) by (intros fl []; destruct H as [->| ->]; reflexivity).
  unfold do_checksig. word 2%nat; rewrite N; try reflexivity. destruct (script_remove_opcode_by_data _ _); reflexivity.
Qed.
Lemma outcome_mk p q pc bg n c e fl sc : outcome_state (Ok (Next (mk p q pc bg n c e fl sc))) = Some (RState (map pyb_bytes p) (map pyb_bytes q) c n).
Proof. cbn [outcome_state]. rewrite mk_state. reflexivity. Qed.
Lemma flag_nops fl : has_flag fl VERIFY_DISCOURAGE_NOPS = Z.testbit fl DISCOURAGE.
Proof. apply (has_flag_bit fl 7). lia. Qed.
Lemma flag_dummy fl : has_flag fl VERIFY_NULLDUMMY = Z.testbit fl NULLDUMMY.
Proof. apply (has_flag_bit fl 4). lia. Qed.
Lemma flag_minimal fl : has_flag fl VERIFY_MINIMALDATA = Z.testbit fl MINIMALDATA.
Proof. apply (has_flag_bit fl 6). lia. Qed.
Lemma ref_nop z : (forall fl s, ref_word (bitforge fl) z s = if Z.testbit fl DISCOURAGE then None else Some s) -> (forall fl s a c n, ref_exec (bitforge fl) z (RState s a c n) =
    match ref_word (bitforge fl) z s with Some s => Some (RState s a c n) | None => None end) -> agrees z (fun _ => do_nop_n).
Proof.
  intros W X p q pc bg n c e fl sc TP TQ. unfold do_nop_n. cbn [s_flags mk]. rewrite X, W, flag_nops.
  destruct (Z.testbit fl DISCOURAGE); [reflexivity|rewrite outcome_mk; reflexivity].
Qed.
Lemma ref_nop0 z : (forall fl s, ref_word (bitforge fl) z s = Some s) -> (forall fl s a c n, ref_exec (bitforge fl) z (RState s a c n) =
    match ref_word (bitforge fl) z s with Some s => Some (RState s a c n) | None => None end) -> agrees z (fun m st => Ok (Next st)).
Proof. intros W X p q pc bg n c e fl sc TP TQ. rewrite outcome_mk, X, W. reflexivity. Qed.
Lemma ref_separator : agrees 171 (fun m st => Ok (Next (set_begin st (s_pc st)))).
Proof. intros p q pc bg n c e fl sc TP TQ. change (set_begin _ _) with (mk p q pc pc n c e fl sc). rewrite outcome_mk. reflexivity. Qed.
Lemma ref_cltv : agrees 177 (fun m st => do_cltv st m).
Proof.
  intros p q pc bg n c e fl sc TP TQ. unfold do_cltv. destruct (_ && _); [reflexivity|].
  use_need 1%nat. destruct p as [|x p]; cbn [length Nat.ltb Nat.leb]; [reflexivity|]. view. cbn [firstn rev app].
  destruct (decode_script_number x _ 5) as [k|]; cbn [bind]; [destruct (k <? 0)|]; reflexivity.
Qed.
Lemma ref_const z o k : (forall fl s, ref_word (bitforge fl) z s = Some (script_num k :: s)) -> (forall fl s a c n, ref_exec (bitforge fl) z (RState s a c n) =
    match ref_word (bitforge fl) z s with Some s => Some (RState s a c n) | None => None end) -> k = bZ o - (bZ OP_1 - 1) ->
  agrees z (fun m st => go st (s_stack st ++ [num (bZ o - (bZ OP_1 - 1))])).
Proof. intros W X U p q pc bg n c e fl sc TP TQ. rewrite <- U. value. rewrite X, W. cbn [s_stack mk]. rewrite map_rev, rev_involutive. reflexivity. Qed.
Lemma skipn_view {A} k (l : list A) : match skipn k l with [] => (length l <= k)%nat | x :: t => nth_error l k = Some x /\ t = skipn (S k) l /\ (k < length l)%nat end.
Proof.
  revert l. induction k as [|k IH]; intros [|y l]; cbn [skipn length nth_error]; try lia; try (split; [reflexivity|split; [reflexivity|lia]]).
  specialize (IH l). destruct (skipn k l) as [|x t]; [lia|]. destruct IH as (H1 & H2 & H3). split; [exact H1|]. split; [exact H2|lia].
Qed.
Lemma nth_rev {A} (l : list A) k x : (k < length l)%nat -> nth_error l k = Some x -> nth_error (rev l) (length l - k - 1) = Some x.
Proof.
  intros L H. destruct (nth_error (rev l) (length l - k - 1)) as [y|] eqn:E; [apply rev_nth in E; [congruence|exact L]|].
  apply nth_error_None in E. rewrite rev_length in E. lia.
Qed.
Lemma need_if p q pc bg n c e fl sc z r :
  need (mk p q pc bg n c e fl sc) z r = if blen p <? z then Ok (Fail IE_InvalidStack) else r.
Proof. unfold need, mk. cbn [s_stack]. rewrite blen_rev. reflexivity. Qed.
Lemma ref_multisig z (v : bool) : z = (if v then 175 else 174) -> agrees z (fun m st => do_checkmultisig st m v).
Proof.
  intros Z0 p q pc bg n c e fl sc TP TQ.
  assert (R : ref_exec (bitforge fl) z (RState (map pyb_bytes p) (map pyb_bytes q) c n) =
    match no_signatures (bitforge fl) (map pyb_bytes p) with
    | Some (t, k) => if n + k <=? 201 then Some (RState (if v then t else script_num 1 :: t) (map pyb_bytes q) c (n + k)) else None
    | None => None end) by (subst z; destruct v; reflexivity).
  rewrite R. clear R Z0. unfold do_checkmultisig. use_need 1%nat. destruct p as [|x p]; [reflexivity|]. cbn [length Nat.ltb Nat.leb].
  view. cbn [firstn rev app]. change (rev p ++ [x]) with (rev (x :: p)). inversion TP as [|? ? T1 TP1]; subst.
  unfold no_signatures. cbn [map need1].
  destruct (decode_operand fl _ T1) as [[k [E1 E2]]|[k [E1 E2]]]; rewrite E1, E2; cbn [bind]; [|reflexivity]. clear E1 E2.
  destruct ((0 <=? k) && (k <=? 20)) eqn:K; cbn [negb andb]; [|reflexivity].
  cbv zeta. change (set_nop (mk (x :: p) q pc bg n c e fl sc) (s_nop (mk (x :: p) q pc bg n c e fl sc) + k)) with (mk (x :: p) q pc bg (n + k) c e fl sc).
  cbn [s_nop mk]. change (Interp (rev (x :: p)) (rev q) pc bg (n + k) (rev c) e fl sc) with (mk (x :: p) q pc bg (n + k) c e fl sc).
  rewrite blen_map, skipn_map.
  destruct (Z.gtb_spec (n + k) 201) as [G|G].
  { destruct (k <=? blen p); [|reflexivity]. destruct (map pyb_bytes (skipn (Z.to_nat k) p)) as [|m [|d t]]; cbn [need2]; [reflexivity|reflexivity|].
    destruct (operand_of (bitforge fl) m) as [[| |]|]; try reflexivity. destruct (d_dummy _ && _); [reflexivity|]. replace (n + k <=? 201) with false by lia. reflexivity. }
  rewrite need_if, blen_cons.
  pose proof (skipn_view (Z.to_nat k) p) as V. destruct (skipn (Z.to_nat k) p) as [|m t'] eqn:SK.
  { replace (1 + blen p <? k + 2) with true by (unfold blen; lia). cbn [map need2]. destruct (k <=? blen p); reflexivity. }
  destruct V as (V1 & V2 & V3). replace (1 + blen p <? k + 2) with false by (unfold blen; lia). replace (k <=? blen p) with true by (unfold blen; lia).
  cbn [s_stack mk]. change (nth_error (x :: p) (S (Z.to_nat k)) = Some m) in V1. apply nth_rev in V1; [|cbn [length]; lia].
  rewrite rev_length. replace (length (x :: p) - Z.to_nat k - 2)%nat with (length (x :: p) - S (Z.to_nat k) - 1)%nat by lia. rewrite V1. clear V1.
  change (Interp (rev (x :: p)) (rev q) pc bg (n + k) (rev c) e fl sc) with (mk (x :: p) q pc bg (n + k) c e fl sc).
  assert (TM : numeric_type m).
  { rewrite Forall_forall in TP1. apply TP1. rewrite <- (firstn_skipn (Z.to_nat k) p), SK. apply in_or_app. right. left. reflexivity. }
  cbn [map].
  destruct (decode_operand fl _ TM) as [[g [E1 E2]]|[g [E1 E2]]]; rewrite E1; cbn [bind].
  2: { destruct (map pyb_bytes t'); cbn [need2]; rewrite ?E2; reflexivity. }
  assert (NZ : g <> 0 -> match need2 (pyb_bytes m :: map pyb_bytes t') (fun m0 (extra : bytes) (t : list bytes) => match operand_of (bitforge fl) m0 with Some 0 => if d_dummy (bitforge fl) && negb (blen extra =? 0) then None else Some (t, k) | _ => None end) with
       Some (t, k0) => if n + k0 <=? 201 then Some (RState (if v then t else script_num 1 :: t) (map pyb_bytes q) c (n + k0)) else None | None => None end = None).
  { intros H. destruct (map pyb_bytes t'); cbn [need2]; [reflexivity|]. rewrite E2. destruct g; [contradiction|reflexivity|reflexivity]. }
  destruct (Z.eq_dec g 0) as [->|GZ].
  2: { rewrite NZ by exact GZ. destruct (negb _) eqn:C1; [reflexivity|]. rewrite need_if. destruct (blen _ <? _); [reflexivity|].
       destruct (remove_all _ _); cbn [bind]; [|reflexivity]. replace (g >? 0) with true by lia. reflexivity. }
  clear NZ. replace (negb ((0 <=? 0) && (0 <=? k))) with false by lia. rewrite need_if, blen_cons. change (Z.to_nat 0) with 0%nat.
  rewrite drop_last_rev, last_n_rev. cbn [firstn]. change (rev (rev (@nil pyb))) with (@nil pyb). cbn [remove_all bind Z.gtb Z.compare].
  change (s_stack (mk (x :: p) q pc bg (n + k) c e fl sc)) with (rev (x :: p)).
  replace (Z.to_nat (0 + k + 2)) with (S (S (Z.to_nat k))) by lia. 
  rewrite drop_last_rev. replace (skipn (S (S (Z.to_nat k))) (x :: p)) with t' by exact V2.
  destruct t' as [|d t].
  { pose proof (skipn_view (S (Z.to_nat k)) p) as V. rewrite <- V2 in V. replace (1 + blen p <? k + 0 + 3) with true by (unfold blen; lia). reflexivity. }
  pose proof (skipn_view (S (Z.to_nat k)) p) as V. rewrite <- V2 in V. destruct V as (_ & _ & V).
  replace (1 + blen p <? k + 0 + 3) with false by (unfold blen; lia).
  rewrite last_n_rev, drop_last_rev. cbn [firstn rev app s_flags mk skipn map need2]. rewrite flag_dummy, E2. cbn [d_dummy bitforge].
  change (pyb_len d =? 0) with (blen (pyb_bytes d) =? 0). destruct (Z.testbit fl NULLDUMMY && negb (blen (pyb_bytes d) =? 0)); [reflexivity|].
  replace (n + k <=? 201) with true by lia.
  change (Interp (rev p ++ [x]) (rev q) pc bg (n + k) (rev c) e fl sc) with (mk (x :: p) q pc bg (n + k) c e fl sc).
  destruct v.
  - rewrite snoc_rev, drop_last_rev. done.
  - value. reflexivity.
Qed.
Lemma ref_bad z e : (forall fl s a c n, ref_exec (bitforge fl) z (RState s a c n) = None) -> agrees z (fun _ _ => Ok (Fail e)).
Proof. intros H p q pc bg n c e' fl sc TP TQ. rewrite H. reflexivity. Qed.

Ltac disp := match goal with |- agrees ?z (fun m st => dispatch st m true ?b) =>
    let z' := eval vm_compute in z in
    let e := eval cbv beta iota zeta delta [dispatch op_in op_eqb existsb Z.eqb Pos.eqb bZ Z.of_N Byte.to_N orb
      OP_1NEGATE OP_1 OP_2 OP_3 OP_4 OP_5 OP_6 OP_7 OP_8 OP_9 OP_10 OP_11 OP_12 OP_13 OP_14 OP_15 OP_16 OP_NOP
      OP_CHECKLOCKTIMEVERIFY OP_NOP1 OP_NOP3 OP_NOP4 OP_NOP5 OP_NOP6 OP_NOP7 OP_NOP8 OP_NOP9 OP_NOP10 OP_IF OP_NOTIF
      OP_ELSE OP_ENDIF OP_VERIFY OP_RETURN OP_TOALTSTACK OP_FROMALTSTACK OP_2DROP OP_2DUP OP_3DUP OP_2OVER OP_2ROT
      OP_2SWAP OP_IFDUP OP_DEPTH OP_DROP OP_DUP OP_NIP OP_OVER OP_PICK OP_ROLL OP_ROT OP_SWAP OP_TUCK OP_SIZE
      OP_EQUAL OP_EQUALVERIFY OP_1ADD OP_1SUB OP_NEGATE OP_ABS OP_NOT OP_0NOTEQUAL OP_ADD OP_SUB OP_BOOLAND
      OP_BOOLOR OP_NUMEQUAL OP_NUMEQUALVERIFY OP_NUMNOTEQUAL OP_LESSTHAN OP_GREATERTHAN OP_LESSTHANOREQUAL
      OP_GREATERTHANOREQUAL OP_MIN OP_MAX OP_WITHIN OP_RIPEMD160 OP_SHA1 OP_SHA256 OP_HASH160 OP_HASH256
      OP_CODESEPARATOR OP_CHECKSIG OP_CHECKSIGVERIFY OP_CHECKMULTISIG OP_CHECKMULTISIGVERIFY] in (fun m st => dispatch st m true b) in
    change (agrees z' e) end.
Lemma bool_lt a b : (a <? b) = negb (b <=? a). Proof. lia. Qed.
Lemma dispatch_ref o : 79 <= bZ o -> ~ 99 <= bZ o <= 104 -> op_in o disabled_ops = false ->
  agrees (bZ o) (fun m st => dispatch st m true o).
Proof.
  destruct o; intros L C D; try (exfalso; apply L; reflexivity); try discriminate D; try (exfalso; apply C; split; discriminate); clear L C D; disp;
    match goal with
    | |- agrees _ (fun m st => go st (s_stack st ++ [num ?k])) => 
        match goal with |- agrees ?z _ => apply (ref_const z (Zb z) (z - 80)); [intros; reflexivity|intros; reflexivity|vm_compute; reflexivity] end
    | |- agrees _ (fun m st => Ok (Next st)) => apply ref_nop0; reflexivity
    | |- agrees _ (fun m st => do_nop_n st) => apply ref_nop; reflexivity
    | |- agrees _ (fun m st => do_cltv st m) => exact ref_cltv
    | |- agrees _ (fun m st => do_verify st) => exact ref_verify
    | |- agrees _ (fun m st => do_toalt st) => exact ref_toalt
    | |- agrees _ (fun m st => do_fromalt st) => exact ref_fromalt
    | |- agrees _ (fun m st => do_2drop st) => exact ref_2drop
    | |- agrees _ (fun m st => do_2dup st) => exact ref_2dup
    | |- agrees _ (fun m st => do_3dup st) => exact ref_3dup
    | |- agrees _ (fun m st => do_2over st) => exact ref_2over
    | |- agrees _ (fun m st => do_2rot st) => exact ref_2rot
    | |- agrees _ (fun m st => do_2swap st) => exact ref_2swap
    | |- agrees _ (fun m st => do_ifdup st) => exact ref_ifdup
    | |- agrees _ (fun m st => do_depth st) => exact ref_depth
    | |- agrees _ (fun m st => do_drop st) => exact ref_drop
    | |- agrees _ (fun m st => do_dup st) => exact ref_dup
    | |- agrees _ (fun m st => do_nip st) => exact ref_nip
    | |- agrees _ (fun m st => do_over st) => exact ref_over
    | |- agrees _ (fun m st => do_pick_roll st _ _) => apply ref_pick_roll; reflexivity
    | |- agrees _ (fun m st => do_rot st) => exact ref_rot
    | |- agrees _ (fun m st => do_swap st) => exact ref_swap
    | |- agrees _ (fun m st => do_tuck st) => exact ref_tuck
    | |- agrees _ (fun m st => do_size st) => exact ref_size
    | |- agrees _ (fun m st => do_equal st false) => exact ref_equal
    | |- agrees _ (fun m st => do_equal st true) => exact ref_equalverify
    | |- agrees 144 (fun m st => do_unary st _ _) => apply (ref_num1 144 _ (fun _ => 1)); reflexivity
    | |- agrees _ (fun m st => do_unary st _ _) => eapply ref_num1; [intros; reflexivity|intros; reflexivity|]; intros; reflexivity
    | |- agrees 157 (fun m st => do_binary st _ _) => exact ref_numequalverify
    | |- agrees 160 (fun m st => do_binary st _ _) => eapply ref_num2; [intros; reflexivity|intros; reflexivity| |reflexivity]; intros; cbv -[Z.add Z.sub Z.leb Z.ltb Z.gtb truth b2z]; rewrite Z.gtb_ltb; reflexivity
    | |- agrees 162 (fun m st => do_binary st _ _) => eapply ref_num2; [intros; reflexivity|intros; reflexivity| |reflexivity]; intros; cbv -[Z.add Z.sub Z.leb Z.ltb Z.geb truth b2z]; rewrite Z.geb_leb; reflexivity
    | |- agrees 163 (fun m st => do_binary st _ _) => eapply ref_num2; [intros; reflexivity|intros; reflexivity| |reflexivity]; intros a b; cbv -[Z.min Z.ltb]; destruct (Z.ltb_spec a b); lia
    | |- agrees 164 (fun m st => do_binary st _ _) => eapply ref_num2; [intros; reflexivity|intros; reflexivity| |reflexivity]; intros a b; cbv -[Z.max Z.ltb]; destruct (Z.ltb_spec a b); lia
    | |- agrees _ (fun m st => do_binary st _ _) => eapply ref_num2; [intros; reflexivity|intros; reflexivity| |reflexivity]; intros; reflexivity
    | |- agrees _ (fun m st => do_within st) => exact ref_within
    | |- agrees 169 (fun m st => do_hash st _) => exact ref_hash160
    | |- agrees _ (fun m st => do_hash st _) => eapply ref_hash; [intros; reflexivity|intros; reflexivity|]; intros; reflexivity
    | |- agrees _ (fun m st => Ok (Next (set_begin st _))) => exact ref_separator
    | |- agrees _ (fun m st => do_checksig st) => apply ref_checksig; (left; reflexivity) || (right; reflexivity)
    | |- agrees _ (fun m st => do_checkmultisig st _ _) => apply ref_multisig; reflexivity
    | |- agrees _ (fun m st => Ok (Fail _)) => apply ref_bad; reflexivity
    end.
Qed.

Lemma executing_ref c : negb (existsb negb (rev c)) = forallb (fun b => b) c.
Proof.
  assert (H : forall l, existsb negb (rev l) = existsb negb l).
  { intros l. apply eq_true_iff_eq. rewrite !existsb_exists. split; intros (x & I & N); exists x; (split; [|exact N]); [apply in_rev, I|apply in_rev in I; exact I]. }
  rewrite H. clear H. induction c as [|[] c IH]; [reflexivity|exact IH|reflexivity].
Qed.
Lemma ref_disabled_spec o : op_in o disabled_ops = ref_disabled (bZ o).
Proof. destruct o; reflexivity. Qed.
Lemma data_ref i : match option_map pyb_bytes (i_data i) with Some d => d | None => [] end = pyb_bytes (match data_bytes i with Some d => d | None => false_bytes end).
Proof. unfold data_bytes. destruct (i_data i) as [d|]; [|reflexivity]. cbn [option_map]. destruct (pyb_len d =? 0) eqn:E; [|reflexivity]. unfold pyb_len in E. destruct (pyb_bytes d); [reflexivity|cbn [length] in E; lia]. Qed.
Lemma step_cond p q pc bg n c e fl sc mi (on : bool) o : 99 <= bZ o <= 104 ->
  outcome_state (dispatch (mk p q pc bg n c e fl sc) mi on o) =
  let s := map pyb_bytes p in let a := map pyb_bytes q in
  match bZ o with
    | 99 => if on then need1 s (fun x r => Some (RState r a (first_bool x :: c) n)) else Some (RState s a (false :: c) n)
    | 100 => if on then need1 s (fun x r => Some (RState r a (negb (first_bool x) :: c) n)) else Some (RState s a (false :: c) n)
    | 103 => match c with b :: r => Some (RState s a (negb b :: r) n) | [] => None end
    | 104 => match c with _ :: r => Some (RState s a r n) | [] => None end
    | _ => None end.
Proof.
  destruct o; intros L; try (exfalso; apply (proj1 L); reflexivity); try (exfalso; apply (proj2 L); reflexivity); clear L.
  - change (dispatch _ mi on x63) with (do_if (mk p q pc bg n c e fl sc) on x63). unfold do_if. destruct on.
    + view. rewrite blen_rev. destruct p as [|x p]; [reflexivity|]. replace (blen (x :: p) <? 1) with false by (rewrite blen_cons; pose proof (blen_nonneg p); lia).
      cbn [firstn rev app skipn]. change (op_eqb x63 OP_NOTIF) with false. cbv iota zeta.
      change (set_vf _ _) with (mk p q pc bg n (cast_to_bool x :: c) e fl sc). rewrite outcome_mk, cast_first. reflexivity.
    + change (set_vf _ _) with (mk p q pc bg n (false :: c) e fl sc). rewrite outcome_mk. reflexivity.
  - change (dispatch _ mi on x64) with (do_if (mk p q pc bg n c e fl sc) on x64). unfold do_if. destruct on.
    + view. rewrite blen_rev. destruct p as [|x p]; [reflexivity|]. replace (blen (x :: p) <? 1) with false by (rewrite blen_cons; pose proof (blen_nonneg p); lia).
      cbn [firstn rev app skipn]. change (op_eqb x64 OP_NOTIF) with true. cbv iota zeta.
      change (set_vf _ _) with (mk p q pc bg n (negb (cast_to_bool x) :: c) e fl sc). rewrite outcome_mk, cast_first. reflexivity.
    + change (set_vf _ _) with (mk p q pc bg n (false :: c) e fl sc). rewrite outcome_mk. reflexivity.
  - reflexivity.
  - reflexivity.
  - change (dispatch _ mi on x67) with (do_else (mk p q pc bg n c e fl sc)). unfold do_else. cbn [s_vf mk]. rewrite blen_rev, last_n_rev, drop_last_rev.
    destruct c as [|b c]; [reflexivity|]. replace (blen (b :: c) =? 0) with false by (rewrite blen_cons; pose proof (blen_nonneg c); lia).
    cbn [firstn rev app skipn]. change (set_vf _ _) with (mk p q pc bg n (negb b :: c) e fl sc). rewrite outcome_mk. reflexivity.
  - change (dispatch _ mi on x68) with (do_endif (mk p q pc bg n c e fl sc)). unfold do_endif. cbn [s_vf mk]. rewrite blen_rev, drop_last_rev.
    destruct c as [|b c]; [reflexivity|]. replace (blen (b :: c) =? 0) with false by (rewrite blen_cons; pose proof (blen_nonneg c); lia).
    cbn [skipn]. change (set_vf _ _) with (mk p q pc bg n c e fl sc). rewrite outcome_mk. reflexivity.
Qed.
Lemma op_leb_Z a b : op_leb a b = (bZ a <=? bZ b).
Proof. unfold op_leb. lia. Qed.
Lemma push_minimal i : bZ (i_op i) <= 78 -> match is_minimal_push i with Ok m => m | Err _ => false end =
  empty_or_long_push (bZ (i_op i)) (match option_map pyb_bytes (i_data i) with Some d => d | None => [] end).
Proof.
  intros L. unfold is_minimal_push, empty_or_long_push. destruct (i_data i) as [d|]; [|reflexivity]. cbn [option_map]. change (pyb_len d) with (blen (pyb_bytes d)).
  generalize (blen (pyb_bytes d)). intros n. destruct (n =? 0) eqn:N0; [reflexivity|]. 
  destruct ((n =? 1) && ((1 <=? first_int d) && (first_int d <=? 16))) eqn:C1.
  { replace (n <=? 75) with true by lia. change (bZ OP_1) with 81. lia. }
  destruct ((n =? 1) && (first_int d =? 129)) eqn:C2.
  { replace (n <=? 75) with true by lia. unfold op_eqb. change (bZ OP_1NEGATE) with 79. lia. }
  destruct (n <=? 75); [reflexivity|]. destruct (n <=? 255); [reflexivity|]. destruct (n <=? 65535); reflexivity.
Qed.
Lemma step_ref st i : typed st -> ref_step (bitforge (s_flags st)) (ref_instr i) (ref_state st) = outcome_state (step st i).
Proof.
  intros [T1 T2]. destruct (mk_intro st) as (p & q & c & E). 
  revert E. generalize (s_pc st) (s_begin st) (s_nop st) (s_errstr st) (s_flags st) (s_script st). intros pc bg n e fl sc E.
  subst st. cbn [s_stack s_alt mk] in T1, T2. rewrite mk_state.
  assert (TP : Forall numeric_type p) by (rewrite <- (rev_involutive p); apply Forall_rev; exact T1).
  assert (TQ : Forall numeric_type q) by (rewrite <- (rev_involutive q); apply Forall_rev; exact T2). clear T1 T2.
  unfold step. cbv zeta. cbn [s_flags s_vf s_pc mk]. rewrite flag_minimal, executing_ref.
  change (Interp (rev p) (rev q) pc bg n (rev c) e fl sc) with (mk p q pc bg n c e fl sc).
  change (set_pc (mk p q pc bg n c e fl sc) (pc + 1)) with (mk p q (pc + 1) bg n c e fl sc).
  unfold ref_step, ref_instr. rewrite data_ref.
  assert (X1 : (520 <? blen (pyb_bytes match data_bytes i with Some d => d | None => false_bytes end)) =
          match data_bytes i with Some d => pyb_len d >? MAX_SCRIPT_ELEMENT_SIZE | None => false end).
  { destruct (data_bytes i) as [d|]; [|reflexivity]. unfold pyb_len, MAX_SCRIPT_ELEMENT_SIZE. unfold blen. lia. }
  rewrite X1. destruct (match data_bytes i with Some d => _ | None => false end); [reflexivity|]. clear X1.
  assert (X2 : negb (op_leb (i_op i) OP_16) = (96 <? bZ (i_op i))) by (unfold op_leb; change (bZ OP_16) with 96; lia).
  rewrite X2. clear X2.
  assert (X3 : (if 96 <? bZ (i_op i) then set_nop (mk p q (pc + 1) bg n c e fl sc) (s_nop (mk p q (pc + 1) bg n c e fl sc) + 1) else mk p q (pc + 1) bg n c e fl sc)
     = mk p q (pc + 1) bg (if 96 <? bZ (i_op i) then n + 1 else n) c e fl sc) by (destruct (96 <? bZ (i_op i)); reflexivity).
  rewrite X3. clear X3. generalize (if 96 <? bZ (i_op i) then n + 1 else n). clear n. intros n. cbn [s_nop mk].
  change (Interp (rev p) (rev q) (pc + 1) bg n (rev c) e fl sc) with (mk p q (pc + 1) bg n c e fl sc).
  rewrite Z.gtb_ltb. destruct ((96 <? bZ (i_op i)) && (201 <? n)); [reflexivity|].
  rewrite <- ref_disabled_spec. destruct (op_in (i_op i) disabled_ops) eqn:DIS; [reflexivity|].
  generalize (forallb (fun b => b) c) as on. intros on. remember (i_op i) as o eqn:O.
  rewrite !op_leb_Z. change (bZ OP_PUSHDATA4) with 78. change (bZ OP_IF) with 99. change (bZ OP_ENDIF) with 104.
  destruct ((99 <=? bZ o) && (bZ o <=? 104)) eqn:CC.
  - assert (R : 99 <= bZ o <= 104) by lia. replace (bZ o <=? 78) with false by lia. rewrite andb_false_r, orb_true_r.
    rewrite step_cond by exact R. cbv zeta. clear -R. destruct (bZ o) eqn:B; try lia.
    assert (H : In (bZ o) [99; 100; 101; 102; 103; 104]) by (cbn; lia). rewrite B in H. clear -H.
    repeat (destruct H as [H|H]; [injection H as <-; reflexivity|]). destruct H.
  - assert (R : ~ 99 <= bZ o <= 104) by lia. rewrite orb_false_r.
    match goal with |- match bZ o with _ => _ end = ?r => assert (G : forall z x99 x100 x103 x104 (w : option rstate), ~ 99 <= z <= 104 ->
       match z with 99 => x99 | 100 => x100 | 101 | 102 => None | 103 => x103 | 104 => x104 | _ => w end = w) end.
    { clear. intros z x99 x100 x103 x104 w H. destruct z as [|z|z]; try reflexivity.
      do 7 (destruct z as [z|z|]; try reflexivity; try (exfalso; apply H; split; discriminate)). }
    rewrite G by exact R. clear G. destruct on; cbn [andb].
    + destruct (bZ o <=? 78) eqn:L.
      * unfold do_push. cbn [d_push bitforge]. rewrite <- data_ref.
        assert (PM : match (if Z.testbit fl MINIMALDATA then is_minimal_push i else Ok true) with Ok m => m | Err _ => false end =
          (if Z.testbit fl MINIMALDATA then empty_or_long_push else fun _ _ => true) (bZ o) (match option_map pyb_bytes (i_data i) with Some d => d | None => [] end)).
        { destruct (Z.testbit fl MINIMALDATA); [|reflexivity]. rewrite O. apply push_minimal. rewrite <- O. lia. }
        rewrite <- PM. clear PM. destruct (if Z.testbit fl MINIMALDATA then is_minimal_push i else Ok true) as [m|]; cbn [bind]; [|reflexivity].
        destruct m; cbn [negb]; [|reflexivity]. value. cbn [s_stack mk]. rewrite map_rev, rev_involutive, data_ref. reflexivity.
      * change (Interp (rev p) (rev q) (pc + 1) bg n (rev c) e fl sc) with (mk p q (pc + 1) bg n c e fl sc). apply (dispatch_ref o); auto. lia.
    + rewrite outcome_mk. reflexivity.
Qed.

Lemma Forall_firstn {A} (P : A -> Prop) k l : Forall P l -> Forall P (firstn k l).
Proof. intros H. revert k. induction H; intros [|k]; cbn; constructor; auto. Qed.
Lemma Forall_skipn {A} (P : A -> Prop) k l : Forall P l -> Forall P (skipn k l).
Proof. intros H. revert k. induction H; intros [|k]; cbn; try constructor; auto. Qed.
Ltac type_parts := repeat match goal with
  | Q : last_n ?k ?l = _, F : Forall numeric_type ?l |- _ =>
      let N := fresh in pose proof (last_n_Forall numeric_type k l F) as N; rewrite Q in N; clear Q
  | Q : Forall numeric_type (_ :: _) |- _ => inversion Q; clear Q; subst
  end.
Ltac type_done := repeat match goal with
  | |- Forall numeric_type (if _ then _ else _) => match goal with |- Forall _ (if ?b then _ else _) => destruct b end
  | |- Forall numeric_type (_ ++ _) => apply Forall_app; split
  | |- Forall numeric_type (drop_last _ _) => apply drop_last_Forall
  | |- Forall numeric_type (last_n _ _) => apply last_n_Forall
  | |- Forall numeric_type (firstn _ _) => apply Forall_firstn
  | |- Forall numeric_type (skipn _ _) => apply Forall_skipn
  | |- Forall numeric_type (_ :: _) => constructor
  | |- Forall numeric_type [] => constructor
  | |- Forall numeric_type _ => assumption
  | |- numeric_type (num _) => exact I
  | |- numeric_type (bool_bytes _) => exact I
  end; try assumption.
Lemma long_hash f b : f = ripemd160 \/ f = sha1 \/ f = sha256 -> numeric_type (Str (f b)).
Proof. intros [->|[->| ->]]; unfold numeric_type, blen; rewrite ?ripemd160_length, ?sha1_length, ?sha256_length; reflexivity. Qed.
Lemma Forall_nth {A} (P : A -> Prop) l k x : Forall P l -> nth_error l k = Some x -> P x.
Proof. rewrite Forall_forall. intros H E. apply H. eapply nth_error_In, E. Qed.

Ltac typed_go := match goal with H : _ = Ok (Next ?st') |- _ => unfold go in H; crunch H; try discriminate end;
  try (split; cbn [s_stack s_alt set_stack set_alt set_nop set_begin set_vf] in *; type_parts; type_done).
Lemma dispatch_typed st m f o st' : typed st -> dispatch st m f o = Ok (Next st') -> typed st'.
Proof.
  intros [T1 T2] H. unfold dispatch in H.
  repeat match type of H with (if ?b then _ else _) = _ => destruct b; [| ] end.
  all: try discriminate H.
  all: unfold do_cltv, do_nop_n, do_if, do_else, do_endif, do_verify, do_toalt, do_fromalt, do_2drop, do_2dup, do_3dup, do_2over, do_2rot, do_2swap,
    do_ifdup, do_depth, do_drop, do_dup, do_nip, do_over, do_pick_roll, do_rot, do_swap, do_tuck, do_size, do_equal, do_unary, do_binary, do_within, do_hash,
    do_checksig, do_checkmultisig, need, unpack_error in H; cbv zeta in H; typed_go.
  - match goal with |- Forall _ (match ?l with [] => [] | _ :: l' => skipn ?k l' end) => apply (Forall_skipn numeric_type (S k) l) end. apply drop_last_Forall. assumption.
  - match goal with H : nth_error (drop_last 1 (s_stack st)) _ = Some _ |- _ => refine (Forall_nth numeric_type _ _ _ _ H) end. apply drop_last_Forall. assumption.
  - apply long_hash. auto.
  - apply long_hash. auto.
  - apply long_hash. auto.
  - apply long_hash. auto.
Qed.
Lemma step_typed st i st' : (forall d, i_data i = Some d -> numeric_type d) -> typed st -> step st i = Ok (Next st') -> typed st'.
Proof.
  intros D T H. unfold step in H. cbv zeta in H.
  destruct (match data_bytes i with Some d => _ | None => false end); [discriminate|].
  destruct (_ && _); [discriminate|]. destruct (op_in _ _); [discriminate|].
  match type of H with context[do_push ?s _ _] => remember s as st1 eqn:E1 end.
  assert (T1 : typed st1) by (subst st1; destruct (negb (op_leb (i_op i) OP_16)); exact T). clear E1.
  destruct (_ && _).
  - unfold do_push in H. destruct (bind _ _) as [[st2|]|] eqn:B in H; try discriminate. injection H as <-.
    revert B. destruct (if has_flag _ _ then _ else _) as [m|]; cbn [bind]; [|discriminate]. destruct (negb m); [discriminate|]. intros B. injection B as <-.
    destruct T1 as [A1 A2]. split; [|exact A2]. cbn [s_stack set_stack]. apply Forall_app. split; [exact A1|]. constructor; [|constructor].
    unfold data_bytes. destruct (i_data i) as [d|]; [|exact I]. destruct (pyb_len d =? 0); [exact I|]. exact (D d eq_refl).
  - destruct (_ || _); [eapply dispatch_typed; eassumption|]. injection H as <-. exact T1.
Qed.

(** ** scripts *)
Definition typed_data (i : instr) : Prop := forall d, i_data i = Some d -> numeric_type d.
Lemma run_ref l : Forall typed_data l -> forall st, typed st ->
  ref_run (bitforge (s_flags st)) (map ref_instr l) (ref_state st) = outcome_state (run l st) /\ (forall st', run l st = Ok (Next st') -> typed st').
Proof.
  induction 1 as [|i l D DS IH]; intros st T; cbn [run map ref_run].
  - split; [reflexivity|]. intros st' [= <-]. exact T.
  - rewrite (step_ref st i T). destruct (step st i) as [[st1|]|] eqn:S; cbn [outcome_state bind]; [|split; [reflexivity|discriminate]|split; [reflexivity|discriminate]].
    cbn [d_each bitforge negb orb]. pose proof (step_inv _ _ _ S) as SI. rewrite <- (p_flags _ _ _ SI). apply IH. eapply step_typed; eassumption.
Qed.
Lemma wire_length i w w' : ~ pushdata (i_op i) -> wire (content i) w -> wire (content i) w' -> w = w'.
Proof.
  intros N A B. unfold content in *. inversion A as [o P E1|o d R L E1|o k lb d W L V E1]; subst; inversion B as [o' P' E2|o' d' R' L' E2|o' k' lb' d' W' L' V' E2]; subst; try congruence; try reflexivity.
  all: exfalso; unfold pushdata in N; unfold length_width in *; lia.
Qed.
Lemma wire_script_det l w : Forall (fun i => ~ pushdata (i_op i)) l -> wire_script (map content l) w -> forall w', wire_script (map content l) w' -> w = w'.
Proof.
  intros N. revert w. induction N as [|i l P N IH]; intros w A w' B; cbn [map] in *.
  - inversion A; subst; inversion B; subst. reflexivity.
  - inversion A as [|? w1 ? r1 A1 A2]; subst. inversion B as [|? w2 ? r2 B1 B2]; subst. rewrite (wire_length i w1 w2 P A1 B1), (IH r1 A2 r2 B2). reflexivity.
Qed.
Lemma readable_parts s : readable s -> Forall well_formed (s_ins s) /\ Forall (fun i => ~ pushdata (i_op i)) (s_ins s) /\ Forall typed_data (s_ins s).
Proof. unfold readable. intros H. repeat split; eapply Forall_impl; try exact H; cbn; tauto. Qed.
Lemma sized_iff s : readable s -> sized s <-> exists b, script_to_bytes s = Ok b /\ blen b <= 10000.
Proof.
  intros R. destruct (readable_parts s R) as (W & N & _). destruct (to_bytes_ok _ W N) as (b & E & WB). split.
  - intros (w & Ww & L). exists b. split; [exact E|]. rewrite (wire_script_det _ _ N WB _ Ww). exact L.
  - intros (b' & E' & L). exists b. unfold script_to_bytes in E'. rewrite E in E'. injection E' as <-. auto.
Qed.
Lemma evaluate_ref s stack fl : readable s -> Forall numeric_type stack ->
  (forall st', evaluate (ready s stack fl) = Ok (Next st') -> Forall numeric_type (s_stack st')) /\
  (forall t, (exists st', evaluate (ready s stack fl) = Ok (Next st') /\ rev (map pyb_bytes (s_stack st')) = t) <->
     sized s /\ ref_eval (bitforge fl) (ref_script s) (rev (map pyb_bytes stack)) = Some t).
Proof.
  intros R T. setoid_rewrite (sized_iff s R). destruct (readable_parts s R) as (W & N & D).
  destruct (run_ref _ D (ready s stack fl) (conj T (Forall_nil _))) as [RR RT].
  change (ref_state (ready s stack fl)) with (RState (rev (map pyb_bytes stack)) [] [] 0) in RR. change (s_flags (ready s stack fl)) with fl in RR.
  unfold ref_eval, ref_script. rewrite RR. clear RR. unfold evaluate. change (s_script (ready s stack fl)) with s. change (s_ins (s_script (ready s stack fl))) with (s_ins s).
  destruct (to_bytes_ok _ W N) as (b & E & _). change (ins_list_to_bytes (s_ins s)) with (script_to_bytes s) in E. rewrite E. cbn [bind].
  destruct (Z.gtb_spec (blen b) 10000) as [G|G].
  { split; [discriminate|]. intros t. split; [intros (st' & X & _); discriminate|]. intros ((b' & X & L) & _). injection X as <-. lia. }
  destruct (run (s_ins s) (ready s stack fl)) as [[st1|e1]|e1] eqn:RUN; cbn [outcome_state].
  2: { split; [discriminate|]. intros t. split; [intros (st' & X & _); discriminate|intros [_ X]; discriminate]. }
  2: { split; [discriminate|]. intros t. split; [intros (st' & X & _); discriminate|intros [_ X]; discriminate]. }
  specialize (RT st1 eq_refl). destruct RT as [RT _]. unfold ref_state. cbn [r_cond r_main]. unfold in_limit. cbn [r_main r_alt].
  rewrite !blen_rev, !blen_map. destruct (Z.gtb_spec (blen (s_stack st1) + blen (s_alt st1)) 1000) as [G2|G2].
  { split; [discriminate|]. intros t. split; [intros (st' & X & _); discriminate|]. intros [_ X]. replace (_ <=? 1000) with false in X by lia. destruct (rev (s_vf st1)); discriminate. }
  replace (_ <=? 1000) with true by lia.
  destruct (Z.gtb_spec (blen (s_vf st1)) 0) as [G3|G3].
  { split; [discriminate|]. intros t. split; [intros (st' & X & _); discriminate|]. intros [_ X]. destruct (rev (s_vf st1)) eqn:RV; [|discriminate].
    rewrite <- (blen_rev (s_vf st1)), RV in G3. cbn in G3. lia. }
  assert (V : s_vf st1 = []) by (destruct (s_vf st1); [reflexivity|rewrite blen_cons in G3; pose proof (blen_nonneg l); lia]). rewrite V. cbn [rev].
  split; [intros st' [= <-]; exact RT|]. intros t. split.
  - intros (st' & [= <-] & X). split; [exists b; auto|]. rewrite X. reflexivity.
  - intros [_ [= X]]. exists st1. auto.
Qed.
Lemma verify_ref self a b f : readable a -> readable b ->
  verify self a b f = Ok (true, IE_None) <->
  ~ flag f P2SH /\ push_only f a /\ sized a /\ sized b /\ ref_accepts (bitforge f) (ref_script a) (ref_script b).
Proof.
  intros RA RB. rewrite verify_iff. unfold ref_accepts.
  destruct (evaluate_ref a [] f RA (Forall_nil _)) as [TA EA]. change (rev (map pyb_bytes [])) with (@nil bytes) in EA. split.
  - intros (_ & NP & PO & st1 & st2 & s & x & E1 & E2 & S & TR).
    destruct (proj1 (EA _) (ex_intro _ st1 (conj E1 eq_refl))) as [SA A].
    destruct (evaluate_ref b (s_stack st1) f RB (TA _ E1)) as [TB EB].
    destruct (proj1 (EB _) (ex_intro _ st2 (conj E2 eq_refl))) as [SB B]. split; [exact NP|]. split; [exact PO|]. split; [exact SA|]. split; [exact SB|].
    rewrite S, map_app, rev_app_distr in B. cbn [map rev app] in B. eexists _, _, _. split; [exact A|]. split; [exact B|]. apply first_bool_spec, TR.
  - intros (NP & PO & SA & SB & s & x & t & A & B & TR). destruct (proj2 (EA _) (conj SA A)) as (st1 & E1 & S1).
    destruct (evaluate_ref b (s_stack st1) f RB (TA _ E1)) as [TB EB]. rewrite S1 in EB.
    destruct (proj2 (EB _) (conj SB B)) as (st2 & E2 & S2). split; [reflexivity|].
    split; [exact NP|]. split; [exact PO|].
    rewrite <- map_rev in S2. destruct (rev (s_stack st2)) as [|y r] eqn:RV; [discriminate|]. cbn [map] in S2. injection S2 as <- <-.
    exists st1, st2, (rev r), y. split; [exact E1|]. split; [exact E2|]. split; [|apply first_bool_spec, TR].
    rewrite <- (rev_involutive (s_stack st2)), RV. reflexivity.
Qed.
