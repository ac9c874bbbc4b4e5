(** Proofs of the replacements. *)
From Coq Require Import ZArith List Lia Bool.
From Verif Require Import Base M_Codec S_Codec P_Codec P_ScriptNum M_Hash M_Keys M_Script S_Script P_Script M_Interp S_Interp P_Interp P_Obj S_Peep P_Peep P_PeepW.
Import ListNotations.
Open Scope Z_scope.

(** what one opcode does to the two stacks *)
Inductive eff (m : bool) : Z -> list pyb -> list pyb -> list pyb -> list pyb -> Prop :=
  | e_nop s t : eff m 97 s t s t
  | e_verify s x t : cast_to_bool x = true -> eff m 105 (s ++ [x]) t s t
  | e_toalt s x t : eff m 107 (s ++ [x]) t s (t ++ [x])
  | e_fromalt s x t : eff m 108 s (t ++ [x]) (s ++ [x]) t
  | e_dup s x t : eff m 118 (s ++ [x]) t (s ++ [x; x]) t
  | e_over s x y t : eff m 120 (s ++ [x; y]) t (s ++ [x; y; x]) t
  | e_rot s x y z t : eff m 123 (s ++ [x; y; z]) t (s ++ [y; z; x]) t
  | e_swap s x y t : eff m 124 (s ++ [x; y]) t (s ++ [y; x]) t
  | e_pick s x b p t : decode_script_number p m 4 = Ok (blen b) -> eff m 121 (s ++ x :: b ++ [p]) t (s ++ x :: b ++ [x]) t
  | e_roll s x b p t : decode_script_number p m 4 = Ok (blen b) -> eff m 122 (s ++ x :: b ++ [p]) t (s ++ b ++ [x]) t
  | e_equal s x y t : eff m 135 (s ++ [x; y]) t (s ++ [bool_bytes (pyb_eqb x y)]) t
  | e_equalverify s x y t : pyb_eqb x y = true -> eff m 136 (s ++ [x; y]) t s t
  | e_unary z s p n t : In z unaries -> decode_script_number p m 4 = Ok n -> eff m z (s ++ [p]) t (s ++ [num (unary (Zb z) n)]) t
  | e_binary z s p q a b t : In z binaries -> z <> 157 -> decode_script_number p m 4 = Ok a -> decode_script_number q m 4 = Ok b ->
      eff m z (s ++ [p; q]) t (s ++ [num (binary (Zb z) a b)]) t
  | e_numequalverify s p q a t : decode_script_number p m 4 = Ok a -> decode_script_number q m 4 = Ok a -> eff m 157 (s ++ [p; q]) t s t
  | e_zero s t : eff m 0 s t (s ++ [num 0]) t
  | e_small z s t : 81 <= z <= 96 -> eff m z s t (s ++ [num (z - 80)]) t.
Definition simple : list Z := [0; 81; 82; 97; 105; 107; 108; 118; 120; 121; 122; 123; 124; 135; 136] ++ unaries ++ binaries.
Definition cost (z : Z) : Z := if z <=? 96 then 0 else 1.
Definition after (st : interp) (z : Z) (s t : list pyb) : interp :=
  Interp s t (s_pc st + 1) (s_begin st) (s_nop st + cost z) (s_vf st) (s_errstr st) (s_flags st) (s_script st).

Lemma uneq157 o : In (bZ o) binaries -> bZ o <> 157 -> op_eqb o OP_NUMEQUALVERIFY = false.
Proof. intros _ H. unfold op_eqb. change (bZ OP_NUMEQUALVERIFY) with 157. lia. Qed.
Lemma cast_b2z b : cast_to_bool (num (b2z b)) = b.
Proof. destruct b; reflexivity. Qed.
Lemma two_items {A} (l : list A) : 2 <= blen l -> exists s x y, l = s ++ [x; y].
Proof. intros H. destruct (split_at_end 2 l) as (s & a & -> & L); [unfold blen in H; lia|]. list_of_length L. eauto. Qed.
Lemma one_item {A} (l : list A) : 1 <= blen l -> exists s x, l = s ++ [x].
Proof. intros H. destruct (split_at_end 1 l) as (s & a & -> & L); [unfold blen in H; lia|]. list_of_length L. eauto. Qed.
Lemma three_items {A} (l : list A) : 3 <= blen l -> exists s x y z, l = s ++ [x; y; z].
Proof. intros H. destruct (split_at_end 3 l) as (s & a & -> & L); [unfold blen in H; lia|]. list_of_length L. eauto. Qed.
Lemma need_inv st n k st' : need st n k = Ok (Next st') -> n <= blen (s_stack st) /\ k = Ok (Next st').
Proof. unfold need. destruct (Z.ltb_spec (blen (s_stack st)) n); [discriminate|auto]. Qed.


Lemma core z F st st' : executing st -> 97 <= z <= 255 -> ~ disabled z -> dispatch (counted st (s_stack st) (s_alt st)) (minimal_of st) true (Zb z) = F ->
  step st (word z) = Ok (Next st') <-> room st /\ F = Ok (Next st').
Proof.
  intros X R D DI. assert (B : bZ (Zb z) = z) by (apply bZ_Zb; lia). split.
  - intros H. pose proof (p_count _ _ _ (step_inv _ _ _ H)) as N. cbn [word i_op] in N. rewrite B in N. split; [unfold room; lia|].
    rewrite (step_op_next st (word z) st' X) in H; [|cbn [word i_op]; lia|exact H]. cbn [word i_op] in H. congruence.
  - intros (RM & E). rewrite step_op; [|exact X|exact RM|exact I|cbn [word i_op]; lia|cbn [word i_op]; rewrite B; exact D]. cbn [word i_op]. congruence.
Qed.
Definition steps_so (z : Z) : Prop := forall st st', executing st -> step st (word z) = Ok (Next st') <->
  (z <= 96 \/ room st) /\ exists s t, eff (minimal_of st) z (s_stack st) (s_alt st) s t /\ st' = after st z s t.
Lemma so z F : 97 <= z <= 255 -> ~ disabled z -> (forall st, dispatch (counted st (s_stack st) (s_alt st)) (minimal_of st) true (Zb z) = F (minimal_of st) (counted st (s_stack st) (s_alt st))) ->
  (forall st st', F (minimal_of st) (counted st (s_stack st) (s_alt st)) = Ok (Next st') <-> exists s t, eff (minimal_of st) z (s_stack st) (s_alt st) s t /\ st' = after st z s t) -> steps_so z.
Proof.
  intros R D DI E st st' X. rewrite (core z _ st st' X R D (DI st)), E. intuition lia.
Qed.
Lemma after_counted st z s t : 97 <= z -> after st z s t = counted st s t.
Proof. intros H. unfold after, cost. destruct (Z.leb_spec z 96); [lia|reflexivity]. Qed.
Ltac bad_in := unfold unaries, binaries in *; cbn [In] in *; lia.
Ltac eff_inv E S T := remember S as S0 eqn:ES; remember T as T0 eqn:ET; destruct E; try bad_in.

Lemma so_unary z : In z unaries -> steps_so z.
Proof.
  intros Z. assert (R : 97 <= z <= 255 /\ ~ disabled z) by (unfold disabled; bad_in). destruct R as (R & D).
  apply (so z (fun m st => do_unary st m (Zb z)) R D).
  { intros s; unfold unaries in Z; cbn [In] in Z; repeat (destruct Z as [<-|Z]; [reflexivity|]); destruct Z. }
  intros st st'. split.
  - intros H. unfold do_unary in H. apply need_inv in H. destruct H as [L H]. cbn [s_stack counted] in *.
    destruct (one_item _ L) as (s & x & E). rewrite E in H. rewrite last_n_app, drop_last_app in H by reflexivity. destruct (decode_script_number x _ 4) as [n|] eqn:DE; [|discriminate]. cbn [bind] in H. injection H as <-.
    rewrite E. eexists _, _. split; [apply e_unary; eassumption|]. rewrite after_counted by lia. reflexivity.
  - intros (s & t & E & ->). rewrite after_counted by lia. remember (s_stack st) as S0. remember (s_alt st) as T0. destruct E; try bad_in.
    unfold do_unary. need_ok. slices. rewrite H0. reflexivity.
Qed.
Lemma so_binary z : In z binaries -> z <> 157 -> steps_so z.
Proof.
  intros Z NZ. assert (R : 97 <= z <= 255 /\ ~ disabled z) by (unfold disabled; bad_in). destruct R as (R & D).
  assert (B : bZ (Zb z) = z) by (apply bZ_Zb; lia). assert (NV : op_eqb (Zb z) OP_NUMEQUALVERIFY = false) by (unfold op_eqb; rewrite B; change (bZ OP_NUMEQUALVERIFY) with 157; lia).
  apply (so z (fun m st => do_binary st m (Zb z)) R D).
  { intros s; unfold binaries in Z; cbn [In] in Z; repeat (destruct Z as [<-|Z]; [reflexivity|]); destruct Z. }
  intros st st'. unfold do_binary. rewrite NV. split.
  - intros H. apply need_inv in H. destruct H as [L H]. cbn [s_stack counted] in *.
    destruct (two_items _ L) as (s & x & y & E). rewrite E in H. rewrite last_n_app, drop_last_app in H by reflexivity. destruct (decode_script_number x _ 4) as [n|] eqn:DE; [|discriminate]. cbn [bind] in H.
    destruct (decode_script_number y _ 4) as [k|] eqn:DE2; [|discriminate]. cbn [bind] in H. injection H as <-.
    rewrite E. eexists _, _. split; [apply e_binary; eassumption|]. rewrite after_counted by lia. reflexivity.
  - intros (s & t & E & ->). rewrite after_counted by lia. remember (s_stack st) as S0. remember (s_alt st) as T0. destruct E; try bad_in.
    need_ok. slices. rewrite H1. cbn [bind]. rewrite H2. reflexivity.
Qed.
Lemma so_numequalverify : steps_so 157.
Proof.
  apply (so 157 (fun m st => do_binary st m (Zb 157))); [lia|unfold disabled; lia|reflexivity|].
  intros st st'. unfold do_binary. change (op_eqb (Zb 157) OP_NUMEQUALVERIFY) with true. cbn match. split.
  - intros H. apply need_inv in H. destruct H as [L H]. cbn [s_stack counted] in *.
    destruct (two_items _ L) as (s & x & y & E). rewrite E in H. rewrite last_n_app, drop_last_app in H by reflexivity. destruct (decode_script_number x _ 4) as [n|] eqn:DE; [|discriminate]. cbn [bind] in H.
    destruct (decode_script_number y _ 4) as [k|] eqn:DE2; [|discriminate]. cbn [bind] in H. change (binary (Zb 157) n k) with (b2z (n =? k)) in H. rewrite cast_b2z in H. destruct (Z.eqb_spec n k) as [->|]; [|discriminate].
    rewrite drop_last_app in H by reflexivity. injection H as <-. rewrite E. eexists _, _. split; [eapply e_numequalverify; eassumption|]. rewrite after_counted by lia. reflexivity.
  - intros (s & t & E & ->). rewrite after_counted by lia. remember (s_stack st) as S0. remember (s_alt st) as T0. remember 157 as z eqn:EZ. destruct E; try bad_in.
    need_ok. slices. rewrite H. cbn [bind]. rewrite H0. cbn [bind]. change (binary (Zb 157) a a) with (b2z (a =? a)). rewrite cast_b2z, Z.eqb_refl. rewrite drop_last_app by reflexivity. reflexivity.
Qed.
Ltac shape st H n := unfold need in H; cbn [s_stack s_alt counted] in H.
Lemma so_nop : steps_so 97.
Proof.
  apply (so 97 (fun m st => Ok (Next st))); [lia|unfold disabled; lia|reflexivity|]. intros st st'. split.
  - intros [= <-]. eexists _, _. split; [apply e_nop|]. rewrite after_counted by lia. reflexivity.
  - intros (s & t & E & ->). rewrite after_counted by lia. remember 97 as z eqn:EZ. destruct E; try bad_in. reflexivity.
Qed.
Lemma so_verify : steps_so 105.
Proof.
  apply (so 105 (fun m st => do_verify st)); [lia|unfold disabled; lia|reflexivity|]. intros st st'. split.
  - intros H. apply need_inv in H. destruct H as [L H]. cbn [s_stack counted] in *. destruct (one_item _ L) as (s & x & E). rewrite E in H. rewrite last_n_app, drop_last_app in H by reflexivity.
    destruct (cast_to_bool x) eqn:C; [|discriminate]. injection H as <-. rewrite E. eexists _, _. split; [apply e_verify; exact C|]. rewrite after_counted by lia. reflexivity.
  - intros (s & t & E & ->). rewrite after_counted by lia. remember (s_stack st) as S0. remember (s_alt st) as T0. remember 105 as z eqn:EZ. destruct E; try bad_in. unfold do_verify. need_ok. slices. rewrite H. reflexivity.
Qed.
Lemma so_toalt : steps_so 107.
Proof.
  apply (so 107 (fun m st => do_toalt st)); [lia|unfold disabled; lia|reflexivity|]. intros st st'. split.
  - intros H. apply need_inv in H. destruct H as [L H]. cbn [s_stack s_alt set_alt set_stack counted] in *. destruct (one_item _ L) as (s & x & E). rewrite E in H. rewrite last_n_app, drop_last_app in H by reflexivity.
    injection H as <-. rewrite E. eexists _, _. split; [apply e_toalt|]. rewrite after_counted by lia. reflexivity.
  - intros (s & t & E & ->). rewrite after_counted by lia. remember (s_stack st) as S0. remember (s_alt st) as T0. remember 107 as z eqn:EZ. destruct E; try bad_in. unfold do_toalt. need_ok. slices. reflexivity.
Qed.
Lemma so_fromalt : steps_so 108.
Proof.
  apply (so 108 (fun m st => do_fromalt st)); [lia|unfold disabled; lia|reflexivity|]. intros st st'. unfold do_fromalt. cbn [s_stack s_alt counted set_stack set_alt]. split.
  - intros H. destruct (Z.ltb_spec (blen (s_alt st)) 1) as [|L]; [discriminate|]. destruct (one_item _ L) as (s & x & E). rewrite E in H. rewrite last_n_app, drop_last_app in H by reflexivity.
    injection H as <-. rewrite E. eexists _, _. split; [apply e_fromalt|]. rewrite after_counted by lia. reflexivity.
  - intros (s & t & E & ->). rewrite after_counted by lia. remember (s_stack st) as S0. remember (s_alt st) as T0. remember 108 as z eqn:EZ. destruct E; try bad_in.
    replace (blen (t ++ [x]) <? 1) with false by (rewrite blen_app; change (blen [x]) with 1; pose proof (blen_nonneg t); lia). rewrite last_n_app, drop_last_app by reflexivity. reflexivity.
Qed.
Lemma so_equal : steps_so 135.
Proof.
  apply (so 135 (fun m st => do_equal st false)); [lia|unfold disabled; lia|reflexivity|]. intros st st'. split.
  - intros H. apply need_inv in H. destruct H as [L H]. cbn [s_stack counted] in *. destruct (two_items _ L) as (s & x & y & E). rewrite E in H. rewrite last_n_app, drop_last_app in H by reflexivity.
    injection H as <-. rewrite E. eexists _, _. split; [apply e_equal|]. rewrite after_counted by lia. reflexivity.
  - intros (s & t & E & ->). rewrite after_counted by lia. remember (s_stack st) as S0. remember (s_alt st) as T0. remember 135 as z eqn:EZ. destruct E; try bad_in. unfold do_equal. need_ok. slices. reflexivity.
Qed.
Lemma so_equalverify : steps_so 136.
Proof.
  apply (so 136 (fun m st => do_equal st true)); [lia|unfold disabled; lia|reflexivity|]. intros st st'. split.
  - intros H. apply need_inv in H. destruct H as [L H]. cbn [s_stack counted] in *. destruct (two_items _ L) as (s & x & y & E). rewrite E in H. rewrite last_n_app, drop_last_app in H by reflexivity.
    destruct (pyb_eqb x y) eqn:C; [|discriminate]. rewrite drop_last_app in H by reflexivity. injection H as <-. rewrite E. eexists _, _. split; [apply e_equalverify; exact C|]. rewrite after_counted by lia. reflexivity.
  - intros (s & t & E & ->). rewrite after_counted by lia. remember (s_stack st) as S0. remember (s_alt st) as T0. remember 136 as z eqn:EZ. destruct E; try bad_in. unfold do_equal. need_ok. slices. rewrite H. try rewrite drop_last_app by reflexivity. reflexivity.
Qed.
Lemma so_dup : steps_so 118.
Proof.
  apply (so 118 (fun m st => do_dup st)); [lia|unfold disabled; lia|reflexivity|]. intros st st'. split.
  - intros H. apply need_inv in H. destruct H as [L H]. cbn [s_stack counted] in *. destruct (one_item _ L) as (s & x & E). rewrite E in H. rewrite last_n_app in H by reflexivity.
    injection H as <-. rewrite E. eexists _, _. split; [apply e_dup|]. rewrite after_counted by lia. rewrite <- app_assoc. reflexivity.
  - intros (s & t & E & ->). rewrite after_counted by lia. remember (s_stack st) as S0. remember (s_alt st) as T0. remember 118 as z eqn:EZ. destruct E; try bad_in. unfold do_dup. need_ok. slices. rewrite <- app_assoc. reflexivity.
Qed.
Lemma so_over : steps_so 120.
Proof.
  apply (so 120 (fun m st => do_over st)); [lia|unfold disabled; lia|reflexivity|]. intros st st'. split.
  - intros H. apply need_inv in H. destruct H as [L H]. cbn [s_stack counted] in *. destruct (two_items _ L) as (s & x & y & E). rewrite E in H. rewrite last_n_app in H by reflexivity.
    injection H as <-. rewrite E. eexists _, _. split; [apply e_over|]. rewrite after_counted by lia. rewrite <- app_assoc. reflexivity.
  - intros (s & t & E & ->). rewrite after_counted by lia. remember (s_stack st) as S0. remember (s_alt st) as T0. remember 120 as z eqn:EZ. destruct E; try bad_in. unfold do_over. need_ok. slices. rewrite <- app_assoc. reflexivity.
Qed.
Lemma so_swap : steps_so 124.
Proof.
  apply (so 124 (fun m st => do_swap st)); [lia|unfold disabled; lia|reflexivity|]. intros st st'. split.
  - intros H. apply need_inv in H. destruct H as [L H]. cbn [s_stack counted] in *. destruct (two_items _ L) as (s & x & y & E). rewrite E in H. rewrite last_n_app, drop_last_app in H by reflexivity.
    injection H as <-. rewrite E. eexists _, _. split; [apply e_swap|]. rewrite after_counted by lia. reflexivity.
  - intros (s & t & E & ->). rewrite after_counted by lia. remember (s_stack st) as S0. remember (s_alt st) as T0. remember 124 as z eqn:EZ. destruct E; try bad_in. unfold do_swap. need_ok. slices. reflexivity.
Qed.
Lemma so_rot : steps_so 123.
Proof.
  apply (so 123 (fun m st => do_rot st)); [lia|unfold disabled; lia|reflexivity|]. intros st st'. split.
  - intros H. apply need_inv in H. destruct H as [L H]. cbn [s_stack counted] in *. destruct (three_items _ L) as (s & x & y & z & E). rewrite E in H. rewrite last_n_app, drop_last_app in H by reflexivity.
    injection H as <-. rewrite E. eexists _, _. split; [apply e_rot|]. rewrite after_counted by lia. reflexivity.
  - intros (s & t & E & ->). rewrite after_counted by lia. remember (s_stack st) as S0. remember (s_alt st) as T0. remember 123 as k eqn:EZ. destruct E; try bad_in. unfold do_rot. need_ok. slices. reflexivity.
Qed.
(** PICK and ROLL *)
Lemma pick_roll_inv st m r st' : do_pick_roll st m r = Ok (Next st') -> exists s x b p, s_stack st = s ++ x :: b ++ [p] /\ decode_script_number p m 4 = Ok (blen b).
Proof.
  unfold do_pick_roll. intros H. apply need_inv in H. destruct H as [L H]. destruct (one_item (s_stack st) ltac:(lia)) as (u & p & E). rewrite E in H. rewrite last_n_app, drop_last_app in H by reflexivity.
  destruct (decode_script_number p m 4) as [n|] eqn:D; [|discriminate]. cbn [bind] in H. destruct (_ || _) eqn:G; [discriminate|]. assert (N : 0 <= n < blen u) by lia.
  destruct (split_at_end (Z.to_nat n) u) as (v & b & -> & LB); [unfold blen in N; lia|]. rewrite blen_app in N. destruct (one_item v) as (s & x & ->); [unfold blen in *; lia|].
  exists s, x, b, p. split; [rewrite E, <- !app_assoc; reflexivity|]. rewrite D. f_equal. unfold blen. lia.
Qed.
Lemma so_pick : steps_so 121.
Proof.
  intros st st' X. split.
  - intros H. pose proof (proj1 (core 121 (do_pick_roll (counted st (s_stack st) (s_alt st)) (minimal_of st) false) st st' X ltac:(lia) ltac:(unfold disabled; lia) eq_refl) H) as [R K].
    split; [right; exact R|]. destruct (pick_roll_inv _ _ _ _ K) as (s & x & b & p & E & D). cbn [s_stack counted] in E.
    rewrite (pick_step st (word 121) s x b p) in H; [|apply word_plain; lia|exact X|exact R|exact E|apply operand_iff; exact D]. injection H as <-. rewrite E. eexists _, _. split; [apply e_pick; exact D|]. rewrite after_counted by lia. reflexivity.
  - intros ([R|R] & s & t & E & ->); [lia|]. rewrite after_counted by lia. remember (s_stack st) as S0 eqn:ES. remember (s_alt st) as T0 eqn:ET. remember 121 as z eqn:EZ. destruct E; try bad_in.
    rewrite (pick_step st (word 121) s x b p); [rewrite ET; reflexivity|apply word_plain; lia|exact X|exact R|congruence|apply operand_iff; assumption].
Qed.
Lemma so_roll : steps_so 122.
Proof.
  intros st st' X. split.
  - intros H. pose proof (proj1 (core 122 (do_pick_roll (counted st (s_stack st) (s_alt st)) (minimal_of st) true) st st' X ltac:(lia) ltac:(unfold disabled; lia) eq_refl) H) as [R K].
    split; [right; exact R|]. destruct (pick_roll_inv _ _ _ _ K) as (s & x & b & p & E & D). cbn [s_stack counted] in E.
    rewrite (roll_step st (word 122) s x b p) in H; [|apply word_plain; lia|exact X|exact R|exact E|apply operand_iff; exact D]. injection H as <-. rewrite E. eexists _, _. split; [apply e_roll; exact D|]. rewrite after_counted by lia. reflexivity.
  - intros ([R|R] & s & t & E & ->); [lia|]. rewrite after_counted by lia. remember (s_stack st) as S0 eqn:ES. remember (s_alt st) as T0 eqn:ET. remember 122 as z eqn:EZ. destruct E; try bad_in.
    rewrite (roll_step st (word 122) s x b p); [rewrite ET; reflexivity|apply word_plain; lia|exact X|exact R|congruence|apply operand_iff; assumption].
Qed.
Lemma after_uncounted st z s : z <= 96 -> after st z s (s_alt st) = uncounted st s.
Proof. intros H. unfold after, cost, uncounted. destruct (Z.leb_spec z 96); [|lia]. rewrite Z.add_0_r. reflexivity. Qed.
Lemma so_zero : steps_so 0.
Proof.
  intros st st' X. rewrite (zero_step st (word 0) X) by (apply word_plain; lia). split.
  - intros [= <-]. split; [lia|]. eexists _, _. split; [apply e_zero|]. rewrite after_uncounted by lia. reflexivity.
  - intros (_ & s & t & E & ->). remember (s_stack st) as S0 eqn:ES. remember (s_alt st) as T0 eqn:ET. remember 0 as z eqn:EZ. destruct E; try bad_in. rewrite ET, after_uncounted by lia. reflexivity.
Qed.
Lemma so_small z : 81 <= z <= 96 -> steps_so z.
Proof.
  intros Z st st' X. destruct (const_step st (word z) (z - 80) X) as (p & N & E); [replace (80 + (z - 80)) with z by lia; apply word_plain; lia|lia|]. apply number_item_num in N. subst p. rewrite E. split.
  - intros [= <-]. split; [lia|]. eexists _, _. split; [apply e_small; lia|]. rewrite after_uncounted by lia. reflexivity.
  - intros (_ & s & t & F & ->). remember (s_stack st) as S0 eqn:ES. remember (s_alt st) as T0 eqn:ET. destruct F; try bad_in. rewrite ET, after_uncounted by lia. reflexivity.
Qed.
Lemma so_simple z : In z simple -> steps_so z.
Proof.
  unfold simple. rewrite !in_app_iff. intros [H|[H|H]].
  - cbn [In] in H. repeat (destruct H as [<-|H]; [first [apply so_zero | apply so_small; lia | apply so_nop | apply so_verify | apply so_toalt | apply so_fromalt | apply so_dup | apply so_over | apply so_pick | apply so_roll | apply so_rot | apply so_swap | apply so_equal | apply so_equalverify]|]). destruct H.
  - apply so_unary; exact H.
  - destruct (Z.eq_dec z 157) as [->|N]; [apply so_numequalverify|apply so_binary; assumption].
Qed.
(** ** sequences of them *)
Lemma run_cons_so i l st st1 r : step st i = Ok (Next st1) -> run l st1 = r -> run (i :: l) st = r.
Proof. intros S R. cbn [run]. rewrite S. exact R. Qed.
Inductive chain (m : bool) : list Z -> list pyb -> list pyb -> list pyb -> list pyb -> Prop :=
  | c_nil s t : chain m [] s t s t
  | c_cons z l s t s1 t1 s2 t2 : eff m z s t s1 t1 -> chain m l s1 t1 s2 t2 -> chain m (z :: l) s t s2 t2.
Fixpoint costs (l : list Z) : Z := match l with [] => 0 | z :: l => cost z + costs l end.
Lemma cost_range z : 0 <= cost z <= 1.
Proof. unfold cost. destruct (_ <=? _); lia. Qed.
Lemma costs_nonneg l : 0 <= costs l.
Proof. induction l as [|z l IH]; cbn [costs]; [lia|pose proof (cost_range z); lia]. Qed.
Definition ended (st : interp) (l : list Z) (s t : list pyb) : interp :=
  Interp s t (s_pc st + blen l) (s_begin st) (s_nop st + costs l) (s_vf st) (s_errstr st) (s_flags st) (s_script st).
Lemma run_words l : Forall (fun z => In z simple) l -> forall st st', executing st -> run (words l) st = Ok (Next st') <->
  (costs l = 0 \/ s_nop st + costs l <= 201) /\ exists s t, chain (minimal_of st) l (s_stack st) (s_alt st) s t /\ st' = ended st l s t.
Proof.
  induction l as [|z l IH]; intros F st st' X.
  - cbn [words map run costs]. split.
    + intros [= <-]. split; [lia|]. exists (s_stack st), (s_alt st). split; [constructor|]. unfold ended. cbn [costs]. change (blen (@nil Z)) with 0. rewrite !Z.add_0_r. destruct st; reflexivity.
    + intros (_ & s & t & C & ->). inversion C; subst. unfold ended. cbn [costs]. change (blen (@nil Z)) with 0. rewrite !Z.add_0_r. destruct st; reflexivity.
  - apply Forall_cons_iff in F. destruct F as [Z F]. pose proof (cost_range z). pose proof (costs_nonneg l).
    assert (RM : (z <= 96 \/ room st) <-> (cost z = 0 \/ s_nop st + 1 <= 201)) by (unfold cost, room; destruct (Z.leb_spec z 96); lia).
    assert (AE : forall s1 t1 s t, ended (after st z s1 t1) l s t = ended st (z :: l) s t).
    { intros. unfold ended, after. cbn [s_pc s_begin s_nop s_vf s_errstr s_flags s_script costs]. f_equal; [|lia]. rewrite (blen_cons z l). lia. }
    change (words (z :: l)) with (word z :: words l). split.
    + intros R. apply run_cons_next in R. destruct R as (st1 & S & R). apply (so_simple z Z st st1 X) in S. destruct S as (R1 & s1 & t1 & E & ->). apply IH in R; [|exact F|exact X].
      destruct R as (R2 & s & t & C & ->). cbn [after s_nop s_stack s_alt minimal_of] in *. change (minimal_of (after st z s1 t1)) with (minimal_of st) in C. cbn [costs]. apply RM in R1. split; [lia|].
      exists s, t. split; [econstructor; eassumption|apply AE].
    + intros (R & s & t & C & ->). inversion C as [|? ? ? ? s1 t1 ? ? E C1]; subst. cbn [costs] in R. apply (run_cons_so _ _ _ (after st z s1 t1)); [apply (so_simple z Z st _ X); split; [apply RM; lia|exists s1, t1; auto]|].
      apply IH; [exact F|exact X|]. split; [cbn [after s_nop]; lia|]. exists s, t. split; [exact C1|symmetry; apply AE].
Qed.
Lemma simple_range z : In z simple -> 0 <= z <= 255 /\ ~ (99 <= z <= 104) /\ ~ disabled z.
Proof. unfold simple, unaries, binaries, disabled. cbn [In app]. lia. Qed.
Lemma skip_words l : Forall (fun z => In z simple) l -> forall st st', In false (s_vf st) -> run (words l) st = Ok (Next st') <->
  (costs l = 0 \/ s_nop st + costs l <= 201) /\ st' = ended st l (s_stack st) (s_alt st).
Proof.
  induction l as [|z l IH]; intros F st st' X.
  - cbn [words map run costs]. unfold ended. cbn [costs]. change (blen (@nil Z)) with 0. rewrite !Z.add_0_r. split; [intros [= <-]; split; [lia|destruct st; reflexivity]|intros [_ ->]; destruct st; reflexivity].
  - apply Forall_cons_iff in F. destruct F as [Z F]. destruct (simple_range z Z) as (RZ & C & D). pose proof (cost_range z). pose proof (costs_nonneg l). assert (B : bZ (Zb z) = z) by (apply bZ_Zb; lia).
    assert (AE : ended (after st z (s_stack st) (s_alt st)) l (s_stack st) (s_alt st) = ended st (z :: l) (s_stack st) (s_alt st)).
    { intros. unfold ended, after. cbn [s_pc s_begin s_nop s_vf s_errstr s_flags s_script costs]. f_equal; [|lia]. rewrite (blen_cons z l). lia. }
    assert (SK : skipped st (word z) = after st z (s_stack st) (s_alt st)) by (unfold skipped, after, cost; cbn [word i_op]; rewrite B; destruct (z <=? 96); rewrite ?Z.add_0_r; reflexivity).
    assert (ST : (97 <= z -> s_nop st < 201) -> step st (word z) = Ok (Next (after st z (s_stack st) (s_alt st)))).
    { intros G. rewrite <- SK. apply skip_step; [exact X|cbn [word i_op]; rewrite B; exact C|intros (d & DD & _); discriminate DD|cbn [word i_op]; rewrite B; exact G|cbn [word i_op]; rewrite B; exact D]. }
    change (words (z :: l)) with (word z :: words l). split.
    + intros R. apply run_cons_next in R. destruct R as (st1 & S & R). pose proof (p_count _ _ _ (step_inv _ _ _ S)) as N. cbn [word i_op] in N. rewrite B in N.
      rewrite ST in S by lia. injection S as <-. apply IH in R; [|exact F|exact X]. destruct R as (R2 & ->). cbn [after s_nop s_stack s_alt] in *. split; [cbn [costs]; unfold cost in *; destruct (Z.leb_spec z 96); lia|exact AE].
    + intros (R & ->). cbn [costs] in R. apply (run_cons_so _ _ _ (after st z (s_stack st) (s_alt st))).
      { apply ST; unfold cost in *; destruct (Z.leb_spec z 96); lia. } apply IH; [exact F|exact X|]. split; [cbn [after s_nop]; lia|symmetry; exact AE].
Qed.
Definition follows (a b : list Z) : Prop := forall m s t s' t', chain m a s t s' t' -> chain m b s t s' t'.
Lemma follows_improves a b : Forall (fun z => In z simple) a -> Forall (fun z => In z simple) b -> costs b <= costs a -> follows a b -> improves (words a) (words b).
Proof.
  intros A B C F st st1 R. pose proof (costs_nonneg b). destruct (in_dec bool_dec false (s_vf st)) as [X|X].
  - apply (skip_words a A st st1 X) in R. destruct R as (R & ->). exists (ended st b (s_stack st) (s_alt st)). split; [apply skip_words; auto; split; [lia|reflexivity]|].
    cbn [ended s_stack s_alt s_vf s_nop]. repeat split; auto. lia.
  - apply (run_words a A st st1 X) in R. destruct R as (R & s & t & CH & ->). exists (ended st b s t). split; [apply run_words; auto; split; [lia|exists s, t; auto]|].
    cbn [ended s_stack s_alt s_vf s_nop]. repeat split; auto. lia.
Qed.
Lemma leaves_chain l : Forall (fun z => In z simple) l -> forall st s t, executing st -> s_nop st + costs l <= 201 -> leaves (words l) st s t <-> chain (minimal_of st) l (s_stack st) (s_alt st) s t.
Proof.
  intros F st s t X R. unfold leaves. split.
  - intros (st' & H & <- & <-). apply (run_words l F st st' X) in H. destruct H as (_ & s & t & C & ->). exact C.
  - intros C. exists (ended st l s t). split; [apply run_words; auto; split; [lia|exists s, t; auto]|auto].
Qed.
Lemma follows_alike a b k : Forall (fun z => In z simple) a -> Forall (fun z => In z simple) b -> costs a <= k -> costs b <= k -> follows a b -> follows b a -> alike k (words a) (words b).
Proof.
  intros A B CA CB F G st X R s t. rewrite !leaves_chain by (auto; lia). split; [apply F|apply G].
Qed.

(** ** the rules *)
Lemma decode_num n m : - 2 ^ 23 < n < 2 ^ 23 -> decode_script_number (num n) m 4 = Ok n.
Proof.
  intros R. unfold num. rewrite decode_encode_script_number. replace (_ <? 4) with true; [reflexivity|]. symmetry. apply Z.ltb_lt.
  change 4 with (Z.of_nat 4). apply encode_script_number_fits; [lia|]. change (sm_lo 4) with (2 ^ 23). lia.
Qed.
Lemma decode_num_inv n m k : decode_script_number (num n) m 4 = Ok k -> k = n.
Proof. unfold num. rewrite decode_encode_script_number. destruct (_ <? _); congruence. Qed.
Lemma eff_unary m z s p n t r : In z unaries -> decode_script_number p m 4 = Ok n -> r = unary (Zb z) n -> eff m z (s ++ [p]) t (s ++ [num r]) t.
Proof. intros Z D ->. apply e_unary; assumption. Qed.
Lemma eff_binary m z s p q a b t r : In z binaries -> z <> 157 -> decode_script_number p m 4 = Ok a -> decode_script_number q m 4 = Ok b -> r = binary (Zb z) a b ->
  eff m z (s ++ [p; q]) t (s ++ [num r]) t.
Proof. intros Z N A B ->. apply e_binary; assumption. Qed.
Lemma eff_equal m s x y t r : r = bool_bytes (pyb_eqb x y) -> eff m 135 (s ++ [x; y]) t (s ++ [r]) t.
Proof. intros ->. apply e_equal. Qed.
Lemma eff_numequalverify m s p q a b t : decode_script_number p m 4 = Ok a -> decode_script_number q m 4 = Ok b -> a = b -> eff m 157 (s ++ [p; q]) t s t.
Proof. intros A B ->. eapply e_numequalverify; eassumption. Qed.
Lemma eff_pick0 m s x t : eff m 121 (s ++ [x; num 0]) t (s ++ [x; x]) t.
Proof. apply (e_pick m s x []). reflexivity. Qed.
Lemma eff_pick1 m s x y t : eff m 121 (s ++ [x; y; num 1]) t (s ++ [x; y; x]) t.
Proof. apply (e_pick m s x [y]). exact (decode_num 1 m ltac:(lia)). Qed.
Lemma eff_roll1 m s x y t : eff m 122 (s ++ [x; y; num 1]) t (s ++ [y; x]) t.
Proof. apply (e_roll m s x [y]). exact (decode_num 1 m ltac:(lia)). Qed.
Lemma eff_roll2 m s x y z t : eff m 122 (s ++ [x; y; z; num 2]) t (s ++ [y; z; x]) t.
Proof. apply (e_roll m s x [y; z]). exact (decode_num 2 m ltac:(lia)). Qed.
Lemma c_one m z s t s' t' : eff m z s t s' t' -> chain m [z] s t s' t'.
Proof. intros E. econstructor; [exact E|constructor]. Qed.
Lemma b2z_range b : 0 <= b2z b <= 1. Proof. destruct b; cbn [b2z]; lia. Qed.
Lemma snoc2 {A} (s : list A) x y : s ++ [x; y] = (s ++ [x]) ++ [y]. Proof. rewrite <- app_assoc. reflexivity. Qed.
Lemma snoc3 {A} (s : list A) x y z : s ++ [x; y; z] = ((s ++ [x]) ++ [y]) ++ [z]. Proof. rewrite <- !app_assoc. reflexivity. Qed.

Lemma u_add n : unary (Zb 139) n = n + 1. Proof. reflexivity. Qed.
Lemma u_sub n : unary (Zb 140) n = n - 1. Proof. reflexivity. Qed.
Lemma u_neg n : unary (Zb 143) n = - n. Proof. reflexivity. Qed.
Lemma u_abs n : unary (Zb 144) n = 1. Proof. reflexivity. Qed.
Lemma u_not n : unary (Zb 145) n = b2z (n =? 0). Proof. reflexivity. Qed.
Lemma u_not0 n : unary (Zb 146) n = b2z (negb (n =? 0)). Proof. reflexivity. Qed.
Lemma b_add a b : binary (Zb 147) a b = a + b. Proof. reflexivity. Qed.
Lemma b_sub a b : binary (Zb 148) a b = a - b. Proof. reflexivity. Qed.
Lemma b_and a b : binary (Zb 154) a b = b2z (negb (a =? 0) && negb (b =? 0)). Proof. reflexivity. Qed.
Lemma b_or a b : binary (Zb 155) a b = b2z (negb (a =? 0) || negb (b =? 0)). Proof. reflexivity. Qed.
Lemma b_eq a b : binary (Zb 156) a b = b2z (a =? b). Proof. reflexivity. Qed.
Lemma b_ne a b : binary (Zb 158) a b = b2z (negb (a =? b)). Proof. reflexivity. Qed.
Lemma b_lt a b : binary (Zb 159) a b = b2z (a <? b). Proof. reflexivity. Qed.
Lemma b_gt a b : binary (Zb 160) a b = b2z (a >? b). Proof. reflexivity. Qed.
Lemma b_le a b : binary (Zb 161) a b = b2z (a <=? b). Proof. reflexivity. Qed.
Lemma b_ge a b : binary (Zb 162) a b = b2z (a >=? b). Proof. reflexivity. Qed.
Lemma b_min a b : binary (Zb 163) a b = Z.min a b. Proof. reflexivity. Qed.
Lemma b_max a b : binary (Zb 164) a b = Z.max a b. Proof. reflexivity. Qed.
Ltac values := repeat match goal with
  | |- context[unary (Zb 139) ?a] => rewrite (u_add a)
  | |- context[unary (Zb 140) ?a] => rewrite (u_sub a)
  | |- context[unary (Zb 143) ?a] => rewrite (u_neg a)
  | |- context[unary (Zb 144) ?a] => rewrite (u_abs a)
  | |- context[unary (Zb 145) ?a] => rewrite (u_not a)
  | |- context[unary (Zb 146) ?a] => rewrite (u_not0 a)
  | |- context[binary (Zb 147) ?a ?b] => rewrite (b_add a b)
  | |- context[binary (Zb 148) ?a ?b] => rewrite (b_sub a b)
  | |- context[binary (Zb 154) ?a ?b] => rewrite (b_and a b)
  | |- context[binary (Zb 155) ?a ?b] => rewrite (b_or a b)
  | |- context[binary (Zb 156) ?a ?b] => rewrite (b_eq a b)
  | |- context[binary (Zb 158) ?a ?b] => rewrite (b_ne a b)
  | |- context[binary (Zb 159) ?a ?b] => rewrite (b_lt a b)
  | |- context[binary (Zb 160) ?a ?b] => rewrite (b_gt a b)
  | |- context[binary (Zb 161) ?a ?b] => rewrite (b_le a b)
  | |- context[binary (Zb 162) ?a ?b] => rewrite (b_ge a b)
  | |- context[binary (Zb 163) ?a ?b] => rewrite (b_min a b)
  | |- context[binary (Zb 164) ?a ?b] => rewrite (b_max a b)
  end.
Lemma b2z_zero b : (b2z b =? 0) = negb b. Proof. destruct b; reflexivity. Qed.
Lemma cast_bool b : cast_to_bool (bool_bytes b) = b. Proof. destruct b; reflexivity. Qed.
Ltac bools := rewrite ?b2z_zero; unfold b2z; repeat match goal with |- context[if ?b then _ else _] => let E := fresh in destruct b eqn:E end; lia.
Ltac bounds := repeat match goal with H : decode_script_number ?p ?m 4 = Ok ?n |- _ => lazymatch goal with B : - 2 ^ 23 < n < 2 ^ 23 |- _ => fail | _ => pose proof (decode_bound p m n H) end end.
Ltac arith := values; first [reflexivity | lia | bools].
Ltac dec := first [eassumption | apply decode_num; values; bounds; first [lia | bools]].
Ltac eff_one := rewrite <- ?app_assoc; cbn [app]; first
  [ apply e_nop | apply e_verify; first [assumption | reflexivity | rewrite cast_bool; assumption | values; rewrite cast_b2z; lia] | apply e_toalt | apply e_fromalt | apply e_dup | apply e_over | apply e_rot | apply e_swap
  | apply e_zero | apply e_small; lia | apply eff_pick0 | apply eff_pick1 | apply eff_roll1 | apply eff_roll2 | apply eff_equal; first [reflexivity | f_equal; apply pyb_eqb_sym]
  | apply e_equalverify; first [assumption | rewrite pyb_eqb_sym; assumption]
  | eapply eff_numequalverify; [dec | dec | arith]
  | eapply eff_unary; [cbn [In unaries]; tauto | dec | arith]
  | rewrite snoc2; eapply eff_unary; [cbn [In unaries]; tauto | dec | arith]
  | eapply eff_binary; [cbn [In binaries]; tauto | discriminate | dec | dec | arith] ].
Ltac build := first [apply c_nil | apply c_one; solve [eff_one] | eapply c_cons; [solve [eff_one]|]; build].
Ltac unpack := repeat match goal with
  | H : chain _ [] _ _ _ _ |- _ => inversion H; subst; clear H
  | H : chain _ (_ :: _) _ _ _ _ |- _ => inversion H; subst; clear H
  | H : eff _ _ _ _ _ _ |- _ => inversion H; subst; clear H; try bad_in
  | H : _ ++ _ = _ ++ _ |- _ => rewrite ?snoc2, ?snoc3 in H; apply app_inj_tail in H; destruct H; subst
  | H : decode_script_number (num _) _ 4 = Ok _ |- _ => pose proof (decode_bound _ _ _ H); apply decode_num_inv in H; subst
  | H : cast_to_bool (bool_bytes _) = true |- _ => rewrite cast_bool in H
  | H : cast_to_bool (num (binary (Zb 156) ?a ?b)) = true |- _ => rewrite (b_eq a b), cast_b2z in H
  end.
Lemma pick_app {A} (s : list A) x b p : s ++ x :: b ++ [p] = (s ++ x :: b) ++ [p].
Proof. rewrite <- app_assoc. reflexivity. Qed.
Lemma no_items {A} (b : list A) : blen b = 0 -> b = [].
Proof. destruct b; [reflexivity|]. rewrite blen_cons. pose proof (blen_nonneg b). lia. Qed.
Lemma one_left {A} (b : list A) : blen b = 1 -> exists x, b = [x].
Proof. destruct b as [|x b]; [discriminate|]. rewrite blen_cons. intros H. exists x. f_equal. apply no_items. lia. Qed.
Lemma two_left {A} (b : list A) : blen b = 2 -> exists x y, b = [x; y].
Proof. destruct b as [|x b]; [discriminate|]. rewrite blen_cons. intros H. destruct (one_left b ltac:(lia)) as (y & ->). eauto. Qed.
Ltac take_few := match goal with
  | H : _ ++ _ :: _ ++ [_] = _ ++ [_] |- _ => rewrite pick_app in H; apply app_inj_tail in H; destruct H; subst
  | H : _ ++ [_] = _ ++ _ :: _ ++ [_] |- _ => rewrite pick_app in H; apply app_inj_tail in H; destruct H; subst
  end; match goal with D : decode_script_number (num _) _ 4 = Ok (blen ?b) |- _ => apply decode_num_inv in D; cbn in D;
    first [apply no_items in D; subst | destruct (one_left b D) as (? & ->) | destruct (two_left b D) as (? & ? & ->)] end; cbn [app].
Ltac unpack1 := match goal with
  | H : chain _ [] _ _ _ _ |- _ => inversion H; subst; clear H
  | H : chain _ (_ :: _) _ _ _ _ |- _ => inversion H; subst; clear H
  | H : eff _ _ _ _ _ _ |- _ => inversion H; subst; clear H; try bad_in end.
Lemma rule_list : Forall (fun r => follows (fst r) (snd r) /\ follows (snd r) (fst r)) rewrites.
Proof.
  repeat (apply Forall_cons; [cbn [fst snd]; split; intros m s t s' t' H; first [unpack; solve [build] | repeat unpack1; take_few; build]|]). apply Forall_nil.
Qed.
Lemma relax_list : Forall (fun r => follows (fst r) (snd r)) relaxes.
Proof.
  repeat (apply Forall_cons; [cbn [fst snd]; intros m s t s' t' H; first [unpack; solve [build] | repeat unpack1; take_few; build]|]). apply Forall_nil.
Qed.
