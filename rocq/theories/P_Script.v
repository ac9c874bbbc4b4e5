(** Proofs about opcodes, instructions and scripts. *)
From Coq Require Import String.
From Verif Require Import Base M_Hash M_Codec S_Codec P_Codec M_Keys S_Keys P_Keys M_EC M_Script S_Script.
Open Scope Z_scope.
Ltac Zify.zify_post_hook ::= Z.div_mod_to_equations.
Arguments txt : simpl never.
Arguments encode_hex : simpl never.
Arguments decode_hex : simpl never.

(** ** opcodes *)

Lemma const_push_spec o : is_const_push o = true <-> 1 <= bZ o <= 75.
Proof. unfold is_const_push. lia. Qed.
Lemma var_push_eq o : is_var_push o = (76 <=? bZ o) && (bZ o <=? 78).
Proof. destruct o; reflexivity. Qed.
Lemma push_eq o : is_push o = (1 <=? bZ o) && (bZ o <=? 78).
Proof. destruct o; reflexivity. Qed.
Lemma number_eq o : is_number o = (bZ o =? 0) || ((81 <=? bZ o) && (bZ o <=? 96)).
Proof. destruct o; reflexivity. Qed.
Lemma push_iff o : is_push o = true <-> pushes o.
Proof. rewrite push_eq. unfold pushes. lia. Qed.
Lemma push_false o : is_push o = false <-> ~ pushes o.
Proof. rewrite push_eq. unfold pushes. lia. Qed.
Lemma op_eqb_eq a b : op_eqb a b = true <-> a = b.
Proof. unfold op_eqb. rewrite Z.eqb_eq. apply bZ_eq_iff. Qed.
Lemma dlm_eq o : data_length_max o =
  if bZ o =? 0 then 0 else if bZ o <=? 75 then bZ o else if bZ o =? 76 then 255 else if bZ o =? 77 then 65535
  else if bZ o =? 78 then 4294967295 else 0.
Proof. destruct o; reflexivity. Qed.

Lemma new_opcode_ok n o : new_opcode n = Ok o <-> 0 <= n <= 255 /\ bZ o = n.
Proof.
  unfold new_opcode. destruct (negb _) eqn:E.
  - split; [discriminate | lia].
  - split.
    + intros [= <-]. rewrite bZ_Zb; lia.
    + intros [H1 H2]. f_equal. rewrite <- H2. apply Zb_bZ.
Qed.
Lemma new_opcode_err n : ~ 0 <= n <= 255 -> new_opcode n = Err E_Op_UnknownOpcodeNumber.
Proof. intros H. unfold new_opcode. destruct (negb _) eqn:E; [reflexivity | lia]. Qed.

Lemma op_order a b : (op_leb a b = true <-> bZ a <= bZ b) /\ (op_eqb a b = true <-> bZ a = bZ b).
Proof. unfold op_leb, op_eqb. lia. Qed.

(** names: both tables are finite; compare them by computation *)
Definition table_pairs : list (bytes * Z) := map (fun p => (txt (fst p), snd p)) op_table.
Fixpoint nodupb (l : list bytes) : bool :=
  match l with [] => true | x :: r => negb (existsb (bytes_eqb x) r) && nodupb r end.
Lemma nodupb_ok l : nodupb l = true -> NoDup l.
Proof.
  induction l as [|x l IH]; cbn [nodupb]; intros H; constructor.
  - apply andb_true_iff in H. destruct H as [H _]. intros I. apply negb_true_iff in H.
    assert (T : existsb (bytes_eqb x) l = true) by (apply existsb_exists; exists x; split; [exact I | apply bytes_eqb_refl]).
    congruence.
  - apply IH. apply andb_true_iff in H. apply H.
Qed.
Definition in_namedb (n : bytes) (z : Z) : bool := existsb (fun q => bytes_eqb n (fst q) && (z =? snd q)) named_ops.
Lemma in_namedb_ok n z : in_namedb n z = true <-> In (n, z) named_ops.
Proof.
  unfold in_namedb. rewrite existsb_exists. split.
  - intros [[a b] [I E]]. apply andb_true_iff in E. cbn [fst snd] in E. destruct E as [E1 E2].
    apply bytes_eqb_eq in E1. apply Z.eqb_eq in E2. subst. exact I.
  - intros I. exists (n, z). split; [exact I|]. cbn [fst snd]. rewrite bytes_eqb_refl, Z.eqb_refl. reflexivity.
Qed.
Lemma assoc_op_table name v : assoc_op op_table name = Some v <-> In (name, v) table_pairs.
Proof.
  unfold table_pairs.
  assert (ND : NoDup (map (fun p => txt (fst p)) op_table)).
  { apply nodupb_ok. vm_compute; reflexivity. }
  revert ND. generalize op_table as t. induction t as [|[s w] t IH]; cbn [assoc_op map In fst snd]; intros ND.
  - intuition discriminate.
  - inversion ND as [|? ? N1 N2]; subst. destruct (bytes_eqb (txt s) name) eqn:E.
    + apply bytes_eqb_eq in E. subst name. split.
      * intros [= ->]. left; reflexivity.
      * intros [H | H]; [injection H; intros; subst; reflexivity|]. exfalso. apply N1.
        apply in_map_iff in H. destruct H as [p [P1 P2]]. apply in_map_iff. exists p. injection P1; intros; subst; auto.
    + apply bytes_eqb_neq in E. rewrite IH by assumption. split; [auto|].
      intros [H | H]; [injection H; intros; subst; congruence | exact H].
Qed.
Lemma tables_agree : forall p, In p table_pairs <-> In p named_ops.
Proof.
  assert (D : forall l m, forallb (fun p => existsb (fun q => bytes_eqb (fst p) (fst q) && (snd p =? snd q)) m) l = true ->
     forall p : bytes * Z, In p l -> In p m).
  { intros l m H p I. rewrite forallb_forall in H. apply H in I. apply existsb_exists in I.
    destruct I as [[a b] [I1 I2]]. apply andb_true_iff in I2. cbn [fst snd] in I2. destruct I2 as [I2 I3].
    apply bytes_eqb_eq in I2. apply Z.eqb_eq in I3. destruct p as [c d]. cbn [fst snd] in *. subst. exact I1. }
  intros p. split; apply D; vm_compute; reflexivity.
Qed.
Lemma named_OP name o : names_op name o -> starts_with (txt "OP_") name = true.
Proof.
  unfold names_op. intros H.
  assert (C : forallb (fun p => starts_with (txt "OP_") (fst p)) named_ops = true) by (vm_compute; reflexivity).
  rewrite forallb_forall in C. apply C in H. exact H.
Qed.
Lemma named_range name v : In (name, v) named_ops -> 0 <= v <= 255.
Proof.
  intros H.
  assert (C : forallb (fun p => (0 <=? snd p) && (snd p <=? 255)) named_ops = true) by (vm_compute; reflexivity).
  rewrite forallb_forall in C. apply C in H. cbn [snd] in H. lia.
Qed.
Lemma from_name_iff name o : op_from_name name = Ok o <-> names_op name o.
Proof.
  unfold op_from_name. split.
  - destruct (negb _); [discriminate|]. destruct (assoc_op op_table name) as [v|] eqn:E; [|discriminate].
    intros H. apply new_opcode_ok in H. destruct H as [_ H]. subst v.
    unfold names_op. apply tables_agree, assoc_op_table. exact E.
  - intros H. rewrite (named_OP _ _ H). cbn [negb].
    unfold names_op in H. rewrite (proj2 (assoc_op_table _ _) (proj2 (tables_agree _) H)).
    apply new_opcode_ok. split; [apply (named_range name); exact H | reflexivity].
Qed.
Lemma from_name_err name e : op_from_name name = Err e -> e = E_Op_UnknownOpcodeName.
Proof.
  unfold op_from_name. destruct (negb _); [congruence|].
  destruct (assoc_op op_table name) as [v|] eqn:E; [|congruence].
  apply assoc_op_table, tables_agree, named_range in E. unfold new_opcode.
  destruct (negb _) eqn:N; [lia | discriminate].
Qed.
Lemma names_op_fun name o o' : names_op name o -> names_op name o' -> o = o'.
Proof. intros H H'. apply from_name_iff in H, H'. congruence. Qed.

Definition std_named (z : Z) : bool :=
  (z =? 0) || ((76 <=? z) && (z <=? 97)) || ((99 <=? z) && (z <=? 100)) || ((103 <=? z) && (z <=? 185)) || (253 <=? z).
Definition name_check (o : opcode) : bool :=
  is_const_push o || match op_name o with
                     | Ok n => in_namedb n (bZ o) && std_named (bZ o)
                     | Err E_KeyError => negb (std_named (bZ o)) && forallb (fun q => negb (snd q =? bZ o)) named_ops
                     | Err _ => false
                     end.
Lemma name_check_all o : name_check o = true.
Proof. destruct o; vm_compute; reflexivity. Qed.
Lemma op_name_cases o : ~ 1 <= bZ o <= 75 ->
  (exists n, op_name o = Ok n /\ names_op n o /\ std_named (bZ o) = true) \/
  (op_name o = Err E_KeyError /\ ~ has_name o /\ std_named (bZ o) = false).
Proof.
  intros H. pose proof (name_check_all o) as C. unfold name_check in C.
  assert (F : is_const_push o = false) by (apply not_true_iff_false; rewrite const_push_spec; exact H). rewrite F in C.
  cbn [orb] in C. destruct (op_name o) as [n|[]]; try discriminate.
  - left. exists n. apply andb_true_iff in C. destruct C as [C1 C2]. apply in_namedb_ok in C1. auto.
  - right. apply andb_true_iff in C. destruct C as [C1 C2]. apply negb_true_iff in C1. split; [reflexivity|split; [|exact C1]].
    intros [n N]. rewrite forallb_forall in C2. apply C2 in N. cbn [snd] in N. lia.
Qed.
Lemma has_name_iff o : has_name o <-> bZ o = 0 \/ 76 <= bZ o <= 97 \/ 99 <= bZ o <= 100 \/ 103 <= bZ o <= 185 \/ 253 <= bZ o.
Proof.
  pose proof (bZ_range o) as R.
  destruct (Z_le_dec 1 (bZ o)); [destruct (Z_le_dec (bZ o) 75)|].
  - split; [|lia]. intros [n N].
    assert (C : forallb (fun q => negb ((1 <=? snd q) && (snd q <=? 75))) named_ops = true) by (vm_compute; reflexivity).
    rewrite forallb_forall in C. apply C in N. cbn [snd] in N. lia.
  - destruct (op_name_cases o) as [[x [E [N S]]]|[E [N S]]]; [lia| |]; unfold std_named in S.
    + split; [intros _; lia | intros _; exists x; exact N].
    + split; [intros H; contradiction | lia].
  - destruct (op_name_cases o) as [[x [E [N S]]]|[E [N S]]]; [lia| |]; unfold std_named in S.
    + split; [intros _; lia | intros _; exists x; exact N].
    + split; [intros H; contradiction | lia].
Qed.
Lemma op_name_roundtrip o : has_name o -> exists n, op_name o = Ok n /\ op_from_name n = Ok o.
Proof.
  intros H. destruct (op_name_cases o) as [[n [E [N _]]]|[_ [N _]]].
  - apply has_name_iff in H. lia.
  - exists n. split; [exact E | apply from_name_iff; exact N].
  - contradiction.
Qed.
Lemma op_name_unnamed o : ~ 1 <= bZ o <= 75 -> ~ has_name o -> op_name o = Err E_KeyError.
Proof.
  intros H N. destruct (op_name_cases o H) as [[n [E [M _]]]|[E _]]; [|exact E]. exfalso; apply N; exists n; exact M.
Qed.

Lemma number_value_ok o n : number_value o = Ok n <-> small_number o n.
Proof.
  unfold number_value, small_number, op_eqb. rewrite number_eq. change (bZ OP_0) with 0. change (bZ OP_1) with 81.
  pose proof (bZ_range o).
  destruct (negb _) eqn:E; [split; [discriminate | lia]|].
  destruct (bZ o =? 0) eqn:Z.
  - split; [intros [= <-]; lia | intros; f_equal; lia].
  - split; [intros [= <-]; lia | intros; f_equal; lia].
Qed.
Lemma for_number_ok n o : for_number n = Ok o <-> small_number o n.
Proof.
  unfold for_number, small_number. destruct (_ && _) eqn:E; [|split; [discriminate|lia]].
  destruct (n =? 0) eqn:Z.
  - split; [intros [= <-]; left; split; [lia|reflexivity]|].
    intros [[_ H]|H]; [|lia]. f_equal. apply bZ_inj. rewrite H. reflexivity.
  - rewrite new_opcode_ok. change (bZ OP_1) with 81. lia.
Qed.
Lemma for_number_err n : ~ 0 <= n <= 16 -> for_number n = Err E_ValueError.
Proof. intros H. unfold for_number. destruct (_ && _) eqn:E; [lia | reflexivity]. Qed.
Lemma number_value_err o : ~ (exists n, small_number o n) ->
  number_value o = Err (if std_named (bZ o) || is_const_push o then E_Op_WrongOpcodeType else E_KeyError).
Proof.
  intros H. unfold number_value. destruct (is_number o) eqn:N.
  - exfalso. apply H. rewrite number_eq in N. exists (if bZ o =? 0 then 0 else bZ o - 80).
    unfold small_number. destruct (bZ o =? 0) eqn:Z; lia.
  - cbn [negb]. f_equal. unfold wrong_opcode_type.
    destruct (is_const_push o) eqn:C.
    + unfold op_name. rewrite C, orb_true_r. reflexivity.
    + rewrite orb_false_r. destruct (op_name_cases o) as [[n [E [_ S]]]|[E [_ S]]].
      * rewrite <- const_push_spec, C. discriminate.
      * rewrite E, S. reflexivity.
      * rewrite E, S. reflexivity.
Qed.

Definition const_op (n : Z) : opcode := Zb n.
Lemma op_push_for_eq n : op_push_for n =
  if n <=? 0 then Err E_Op_InvalidConstPushLength
  else if n <=? 75 then Ok (Zb n)
  else if n <=? 255 then Ok OP_PUSHDATA1 else if n <=? 65535 then Ok OP_PUSHDATA2
  else if n <=? 4294967295 then Ok OP_PUSHDATA4 else Err E_Op_InvalidPushLength.
Proof.
  unfold op_push_for, const_push_for, var_push_for, new_opcode.
  change (data_length_max OP_PUSHDATA1) with 255. change (data_length_max OP_PUSHDATA2) with 65535.
  change (data_length_max OP_PUSHDATA4) with 4294967295.
  repeat match goal with |- context[if ?c then _ else _] => destruct c eqn:? end; try lia; reflexivity.
Qed.
(** The opcode chosen admits the length, and no smaller wire form does. *)
Lemma op_push_for_ok n o : op_push_for n = Ok o <->
  (1 <= n <= 75 /\ bZ o = n) \/ (76 <= n <= 255 /\ bZ o = 76) \/
  (256 <= n <= 65535 /\ bZ o = 77) \/ (65536 <= n <= 4294967295 /\ bZ o = 78).
Proof.
  rewrite op_push_for_eq.
  assert (K : forall a : byte, bZ o = bZ a <-> o = a) by (intros; apply bZ_eq_iff).
  repeat match goal with |- context[if ?c then _ else _] => destruct c eqn:? end.
  - split; [discriminate | lia].
  - split; [intros [= <-]; rewrite bZ_Zb by lia; lia|]. intros H. f_equal. assert (E : bZ o = n) by lia.
    rewrite <- E. apply Zb_bZ.
  - split; [intros [= <-]; change (bZ OP_PUSHDATA1) with 76; lia|]. intros H. f_equal. symmetry. apply K.
    change (bZ OP_PUSHDATA1) with 76. lia.
  - split; [intros [= <-]; change (bZ OP_PUSHDATA2) with 77; lia|]. intros H. f_equal. symmetry. apply K.
    change (bZ OP_PUSHDATA2) with 77. lia.
  - split; [intros [= <-]; change (bZ OP_PUSHDATA4) with 78; lia|]. intros H. f_equal. symmetry. apply K.
    change (bZ OP_PUSHDATA4) with 78. lia.
  - split; [discriminate | lia].
Qed.
Lemma op_push_for_err n e : op_push_for n = Err e <->
  (n <= 0 /\ e = E_Op_InvalidConstPushLength) \/ (4294967296 <= n /\ e = E_Op_InvalidPushLength).
Proof.
  rewrite op_push_for_eq.
  repeat match goal with |- context[if ?c then _ else _] => destruct c eqn:? end;
    (split; [intros [= <-] || discriminate; lia || auto with zarith | intros [[? ->]|[? ->]]; (reflexivity || lia)]).
Qed.

(** ** instructions *)

Lemma new_instr_ok o d i : new_instr o d = Ok i <-> i = Instr o d /\ well_formed i.
Proof.
  unfold new_instr. destruct (is_push o) eqn:P.
  - apply push_iff in P. unfold pushes in P. destruct d as [d|].
    + rewrite dlm_eq, var_push_eq. unfold is_const_push.
      split.
      * destruct (_ || _) eqn:E; [discriminate|]. intros [= <-]. split; [reflexivity|].
        unfold well_formed, push_length; cbn [i_op i_data].
        assert (0 <= pyb_len d) by (unfold pyb_len; lia).
        revert E. repeat match goal with |- context[if ?c then _ else _] => destruct c eqn:? end; lia.
      * intros [-> W]. unfold well_formed, push_length in W; cbn [i_op i_data] in W.
        destruct (_ || _) eqn:E; [exfalso|reflexivity]. revert E.
        repeat match goal with |- context[if ?c then _ else _] => destruct c eqn:? end; lia.
    + split; [discriminate|]. intros [-> W]. unfold well_formed, pushes in W; cbn [i_op i_data] in W. lia.
  - apply push_false in P. destruct d as [d|].
    + split; [discriminate|]. intros [-> W]. unfold well_formed, push_length in W; cbn [i_op i_data] in W.
      unfold pushes in P. lia.
    + split; [intros [= <-]; split; [reflexivity | exact P] | intros [-> _]; reflexivity].
Qed.
Lemma new_instr_err o d e : new_instr o d = Err e ->
  (pushes o /\ d = None /\ e = E_TypeError) \/
  (pushes o /\ d <> None /\ e = E_Ins_InvalidDataLength) \/
  (~ pushes o /\ d <> None /\ (e = E_Ins_UnexpectedData /\ has_name o \/ e = E_KeyError /\ ~ has_name o)).
Proof.
  unfold new_instr. destruct (is_push o) eqn:P.
  - apply push_iff in P. destruct d as [d|].
    + destruct (_ || _); [|discriminate]. intros [= <-]. right; left. split; [exact P|]. split; [discriminate|reflexivity].
    + intros [= <-]. auto.
  - apply push_false in P. destruct d as [d|]; [|discriminate]. intros [= <-]. right; right. split; [exact P|].
    split; [discriminate|]. unfold unexpected_data.
    destruct (op_name_cases o) as [[n [E [N _]]]|[E [N _]]].
    + unfold pushes in P. lia.
    + rewrite E. left. split; [reflexivity | exists n; exact N].
    + rewrite E. right. auto.
Qed.

(** ** wire format *)

Definition ba_instr (c : opcode * option bytes) : instr := Instr (fst c) (option_map BA (snd c)).
Lemma content_ba c : content (ba_instr c) = c.
Proof. destruct c as [o [d|]]; reflexivity. Qed.
Lemma ba_content i : data_ba i -> ba_instr (content i) = i.
Proof. destruct i as [o [[d|d]|]]; cbn; intros H; [contradiction| |]; reflexivity. Qed.

Definition read_data (o : opcode) : rd (option pyb) :=
  if is_const_push o then (do! d := buf_read (bZ o) in rret (Some (BA d)))
  else if is_var_push o then
    match data_length_nbytes o with
    | Err e => rerr e
    | Ok n => do! length_bytes := buf_read n in
              do! d := buf_read (decode_int length_bytes false) in
              rret (Some (BA d))
    end
  else rret None.
Lemma parse_loop_cons f b s : parse_loop (S f) (b :: s) =
  rbind (read_data b) (fun data => match new_instr b data with
     | Err e => rerr e | Ok i => do! r := parse_loop f in rret (i :: r) end) s.
Proof.
  cbn [parse_loop]. erewrite rbind_ok by (apply (buf_read_app_n 1 [b] s); reflexivity).
  replace (Zb (decode_int [b] true)) with b; [reflexivity|].
  rewrite decode_int_be. change (be_val [b]) with (bZ b + 256 * 0). rewrite Z.mul_0_r, Z.add_0_r. symmetry; apply Zb_bZ.
Qed.

Lemma nbytes_eq o : is_var_push o = true ->
  data_length_nbytes o = Ok (if bZ o =? 76 then 1 else if bZ o =? 77 then 2 else 4).
Proof. destruct o; vm_compute; congruence. Qed.

Lemma read_data_wire o od w : wire (o, od) w -> exists w', w = o :: w' /\ forall rest,
  read_data o (w' ++ rest) = (Ok (option_map BA od), rest) /\ well_formed (ba_instr (o, od)).
Proof.
  intros H. inversion H as [o' P|o' d P L|o' k lb d P L V]; subst.
  - exists []. split; [reflexivity|]. intros rest. cbn [app]. unfold read_data, pushes in *.
    assert (C : is_const_push o = false) by (unfold is_const_push; lia).
    assert (C' : is_var_push o = false) by (rewrite var_push_eq; lia). rewrite C, C'. split; [reflexivity|].
    unfold well_formed, pushes; cbn. exact P.
  - exists d. split; [reflexivity|]. intros rest. unfold read_data.
    rewrite (proj2 (const_push_spec o) P).
    erewrite rbind_ok by (apply buf_read_app_n; symmetry; exact L). split; [reflexivity|].
    unfold well_formed, push_length; cbn. left. split; [exact P|exact L].
  - exists (lb ++ d). split; [reflexivity|]. intros rest. unfold read_data, length_width in *.
    assert (C : is_const_push o = false) by (unfold is_const_push; lia).
    assert (C' : is_var_push o = true) by (rewrite var_push_eq; lia). rewrite C, C', nbytes_eq by exact C'.
    rewrite <- app_assoc.
    erewrite rbind_ok by (apply buf_read_app_n; unfold blen; destruct P as [[-> ->]|[[-> ->]|[-> ->]]]; reflexivity).
    rewrite decode_int_le, V. erewrite rbind_ok by (apply buf_read_app_n; reflexivity). split; [reflexivity|].
    unfold well_formed, push_length; cbn [ba_instr fst snd i_op i_data option_map]. unfold pyb_len; cbn [pyb_bytes].
    fold (blen d). rewrite <- V. pose proof (le_val_bound lb) as B.
    destruct P as [[E K]|[[E K]|[E K]]]; rewrite K in B.
    + right; left. change (256 ^ Z.of_nat 1) with 256 in B. lia.
    + right; right; left. change (256 ^ Z.of_nat 2) with 65536 in B. lia.
    + right; right; right. change (256 ^ Z.of_nat 4) with 4294967296 in B. lia.
Qed.

Lemma new_instr_wf i : well_formed i -> new_instr (i_op i) (i_data i) = Ok i.
Proof. intros H. apply new_instr_ok. destruct i; auto. Qed.

Lemma wire_length c w : wire c w -> (1 <= List.length w)%nat.
Proof. inversion 1; cbn [List.length]; lia. Qed.

Lemma parse_wire c b : wire_script c b -> forall fuel, (List.length b <= fuel)%nat ->
  parse_loop fuel b = (Ok (map ba_instr c), []).
Proof.
  induction 1 as [|[o od] w l r W WS IH]; intros fuel F.
  - destruct fuel; reflexivity.
  - destruct (read_data_wire _ _ _ W) as [w' [-> R]]. specialize (R r). destruct R as [R WF].
    rewrite app_length in F. cbn [List.length app] in *. destruct fuel as [|f]; [lia|].
    rewrite parse_loop_cons. erewrite rbind_ok by exact R.
    change (new_instr o (option_map BA od)) with (new_instr (i_op (ba_instr (o, od))) (i_data (ba_instr (o, od)))).
    rewrite new_instr_wf by exact WF.
    erewrite rbind_ok by (apply IH; lia). reflexivity.
Qed.

Lemma read_data_inv o s x s' : read_data o s = (Ok x, s') ->
  exists od w', x = option_map BA od /\ s = w' ++ s' /\ wire (o, od) (o :: w').
Proof.
  unfold read_data. destruct (is_const_push o) eqn:C; [|destruct (is_var_push o) eqn:C'].
  - intros H. apply rbind_inv in H. destruct H as [d [s1 [H1 H2]]]. injection H2 as <- <-.
    apply const_push_spec in C. apply buf_read_ok in H1; [|lia]. destruct H1 as [-> L].
    exists (Some d), d. split; [reflexivity|]. split; [reflexivity|]. constructor; assumption.
  - rewrite nbytes_eq by exact C'. rewrite var_push_eq in C'. intros H.
    apply rbind_inv in H. destruct H as [lb [s1 [H1 H2]]]. apply rbind_inv in H2. destruct H2 as [d [s2 [H2 H3]]].
    injection H3 as <- <-. apply buf_read_ok in H1; [|destruct (bZ o =? 76), (bZ o =? 77); lia].
    rewrite decode_int_le in H2. apply buf_read_ok in H2; [|apply le_val_bound].
    destruct H1 as [-> L1]. destruct H2 as [-> L2]. exists (Some d), (lb ++ d). split; [reflexivity|].
    split; [apply app_assoc|]. eapply wire_var; [|reflexivity|symmetry; exact L2].
    unfold length_width, blen in *. destruct (bZ o =? 76) eqn:E1; [lia|]. destruct (bZ o =? 77) eqn:E2; lia.
  - intros [= <- <-]. exists None, []. split; [reflexivity|]. split; [reflexivity|]. constructor.
    unfold pushes. unfold is_const_push in C. rewrite var_push_eq in C'. lia.
Qed.
Lemma read_data_err o s e s' : read_data o s = (Err e, s') -> exists r n, e = E_InsufficientData r n /\ 0 <= r < n.
Proof.
  assert (B : forall n t e t', buf_read n t = (Err e, t') -> exists r n, e = E_InsufficientData r n /\ 0 <= r < n).
  { intros n t e0 t' H. apply buf_read_err in H. destruct H as [? [? ?]]; subst. exists (blen t), n.
    split; [reflexivity|]. pose proof (blen_nonneg t). lia. }
  assert (RB : forall A (m : rd A) (f : A -> rd (option pyb)) t, (forall e t', m t = (Err e, t') -> exists r n, e = E_InsufficientData r n /\ 0 <= r < n) ->
     (forall a t1 e t', m t = (Ok a, t1) -> f a t1 = (Err e, t') -> exists r n, e = E_InsufficientData r n /\ 0 <= r < n) ->
     forall e t', rbind m f t = (Err e, t') -> exists r n, e = E_InsufficientData r n /\ 0 <= r < n).
  { intros A m f t H1 H2 e0 t' H. unfold rbind in H. destruct (m t) as [[a|e1] t1] eqn:M.
    - eapply H2; [reflexivity | exact H].
    - injection H as <- <-. eapply H1; reflexivity. }
  unfold read_data. destruct (is_const_push o) eqn:C; [|destruct (is_var_push o) eqn:C'].
  - apply RB; [intros; eapply B; eassumption|]. intros; discriminate.
  - rewrite nbytes_eq by exact C'. apply RB; [intros; eapply B; eassumption|]. intros a t1 e0 t' _.
    apply RB; [intros; eapply B; eassumption|]. intros; discriminate.
  - discriminate.
Qed.
Lemma wire_wf c w : wire c w -> well_formed (ba_instr c).
Proof. destruct c as [o od]. intros W. destruct (read_data_wire _ _ _ W) as [w' [_ H]]. apply (H []). Qed.

Lemma wire_script_cons_inv c o s : wire_script c (o :: s) ->
  exists od l r, c = (o, od) :: l /\ read_data o s = (Ok (option_map BA od), r) /\ wire_script l r.
Proof.
  intros W. remember (o :: s) as b eqn:B. destruct W as [|[o2 od2] w l r Wi Wl]; [discriminate|].
  destruct (read_data_wire _ _ _ Wi) as [w2 [-> RR]]. cbn [app] in B. injection B as -> <-.
  exists od2, l, r. split; [reflexivity|]. split; [apply RR | exact Wl].
Qed.
Lemma parse_loop_cases fuel : forall b, (List.length b <= fuel)%nat ->
  (exists c, wire_script c b /\ parse_loop fuel b = (Ok (map ba_instr c), [])) \/
  ((forall c, ~ wire_script c b) /\ exists r n s', parse_loop fuel b = (Err (E_InsufficientData r n), s') /\ 0 <= r < n).
Proof.
  induction fuel as [|f IH]; intros [|o s] L; cbn [List.length] in L; try lia.
  - left. exists []. split; [constructor | reflexivity].
  - left. exists []. split; [constructor | reflexivity].
  - rewrite parse_loop_cons. destruct (read_data o s) as [[x|e] s1] eqn:R.
    + erewrite rbind_ok by exact R. destruct (read_data_inv _ _ _ _ R) as [od [w' [-> [-> W]]]].
      change (new_instr o (option_map BA od)) with (new_instr (i_op (ba_instr (o, od))) (i_data (ba_instr (o, od)))).
      rewrite new_instr_wf by (eapply wire_wf; exact W).
      rewrite app_length in L. destruct (IH s1) as [[c [W2 P]]|[N [r [n [s' [P RN]]]]]]; [lia| |].
      * left. exists ((o, od) :: c). split; [change (o :: w' ++ s1) with ((o :: w') ++ s1); constructor; assumption|].
        erewrite rbind_ok by exact P. reflexivity.
      * right. split.
        -- intros c W2. apply wire_script_cons_inv in W2. destruct W2 as [od2 [l [r0 [-> [R2 Wl]]]]].
           rewrite R2 in R. injection R as _ <-. eapply N; exact Wl.
        -- exists r, n, s'. split; [|exact RN]. unfold rbind. rewrite P. reflexivity.
    + right. split.
      * intros c W2. apply wire_script_cons_inv in W2. destruct W2 as [od2 [l [r0 [-> [R2 Wl]]]]].
        rewrite R2 in R. discriminate.
      * destruct (read_data_err _ _ _ _ R) as [r [n [-> RN]]]. exists r, n, s1. split; [|exact RN].
        unfold rbind. rewrite R. reflexivity.
Qed.

Lemma script_parse_ok b l : script_parse b = Ok l <-> wire_script (map content l) b /\ Forall data_ba l.
Proof.
  unfold script_parse. split.
  - intros H. destruct (parse_loop_cases (List.length b) b (le_n _)) as [[c [W P]]|[_ [r [n [s' [P _]]]]]]; rewrite P in H.
    + injection H as <-. rewrite map_map. rewrite (map_ext _ _ content_ba), map_id. split; [exact W|].
      apply Forall_forall. intros i I. apply in_map_iff in I. destruct I as [[o [d|]] [<- _]]; exact I.
    + discriminate.
  - intros [W B]. rewrite (parse_wire _ _ W) by lia. cbn [fst]. f_equal. rewrite map_map.
    rewrite <- (map_id l) at 2. apply map_ext_in. intros i I. apply ba_content. rewrite Forall_forall in B. auto.
Qed.
Lemma script_parse_err b e : script_parse b = Err e ->
  (forall c, ~ wire_script c b) /\ exists r n, e = E_InsufficientData r n /\ 0 <= r < n.
Proof.
  unfold script_parse. intros H.
  destruct (parse_loop_cases (List.length b) b (le_n _)) as [[c [W P]]|[N [r [n [s' [P RN]]]]]]; rewrite P in H.
  - discriminate.
  - injection H as <-. split; [exact N|]. exists r, n. auto.
Qed.
Lemma script_parse_truncated b : (forall c, ~ wire_script c b) ->
  exists r n, script_parse b = Err (E_InsufficientData r n) /\ 0 <= r < n.
Proof.
  intros N. destruct (script_parse b) as [l|e] eqn:E.
  - apply script_parse_ok in E. destruct E as [E _]. exfalso; eapply N; exact E.
  - destruct (script_parse_err _ _ E) as [_ [r [n [-> R]]]]. eauto.
Qed.
Lemma wire_script_fun c c' b : wire_script c b -> wire_script c' b -> c = c'.
Proof.
  intros H H'. pose proof (parse_wire _ _ H _ (le_n _)) as P. rewrite (parse_wire _ _ H' _ (le_n _)) in P.
  injection P as P. apply (f_equal (map content)) in P. rewrite !map_map in P.
  rewrite !(map_ext _ _ content_ba), !map_id in P. auto.
Qed.
Lemma wire_data_len c w : wire_script c w -> Forall (fun c => well_formed (ba_instr c)) c.
Proof. induction 1; constructor; [eapply wire_wf; eassumption | assumption]. Qed.

(** serialisation *)
Lemma ins_to_bytes_plain i : well_formed i -> ~ pushdata (i_op i) -> exists w, ins_to_bytes i = Ok w /\ wire (content i) w.
Proof.
  intros W N. unfold ins_to_bytes. pose proof (bZ_range (i_op i)) as R. unfold compat_chr.
  replace ((0 <=? bZ (i_op i)) && (bZ (i_op i) <? 256)) with true by lia. cbn [bind]. rewrite Zb_bZ.
  destruct i as [o d]. cbn [i_op i_data] in *. unfold well_formed, pushes, push_length, pushdata in *. cbn [i_op i_data] in *.
  destruct (is_const_push o) eqn:C.
  - apply const_push_spec in C. destruct d as [d|]; [|lia]. eexists. split; [reflexivity|]. unfold content; cbn [i_op i_data option_map app].
    constructor; [exact C|]. unfold pyb_len in W. unfold blen. lia.
  - unfold is_const_push in C. destruct (is_var_push o) eqn:V; [rewrite var_push_eq in V; lia|].
    destruct d as [d|]; [rewrite var_push_eq in V; lia|]. eexists. split; [reflexivity|]. unfold content; cbn. constructor.
    unfold pushes. exact W.
Qed.
Lemma ins_to_bytes_pushdata i : pushdata (i_op i) -> ins_to_bytes i = Err E_TypeError.
Proof.
  intros P. unfold ins_to_bytes, pushdata in *. pose proof (bZ_range (i_op i)) as R. unfold compat_chr.
  replace ((0 <=? bZ (i_op i)) && (bZ (i_op i) <? 256)) with true by lia. cbn [bind].
  assert (C : is_const_push (i_op i) = false) by (unfold is_const_push; lia).
  assert (C' : is_var_push (i_op i) = true) by (rewrite var_push_eq; lia). rewrite C, C'. reflexivity.
Qed.
Lemma pushdata_dec o : {pushdata o} + {~ pushdata o}.
Proof. unfold pushdata. destruct (Z_le_dec 76 (bZ o)), (Z_le_dec (bZ o) 78); (left; lia) || (right; lia). Qed.
Lemma to_bytes_ok l : Forall well_formed l -> Forall (fun i => ~ pushdata (i_op i)) l ->
  exists b, ins_list_to_bytes l = Ok b /\ wire_script (map content l) b.
Proof.
  induction 1 as [|i l W WS IH]; intros N.
  - exists []. split; [reflexivity | constructor].
  - inversion N as [|? ? N1 N2]; subst. destruct (ins_to_bytes_plain i W N1) as [w [E Wi]]. destruct (IH N2) as [b [E2 W2]].
    exists (w ++ b). cbn [ins_list_to_bytes map]. rewrite E, E2. cbn [bind]. split; [reflexivity | constructor; assumption].
Qed.
Lemma to_bytes_pushdata l : Forall well_formed l -> Exists (fun i => pushdata (i_op i)) l ->
  ins_list_to_bytes l = Err E_TypeError.
Proof.
  induction 1 as [|i l W WS IH]; intros N; [inversion N|]. cbn [ins_list_to_bytes].
  destruct (pushdata_dec (i_op i)) as [P|P].
  - rewrite ins_to_bytes_pushdata by exact P. reflexivity.
  - destruct (ins_to_bytes_plain i W P) as [w [E _]]. rewrite E. cbn [bind].
    inversion N as [? ? P'|? ? N']; subst; [contradiction|]. rewrite IH by exact N'. reflexivity.
Qed.
Lemma to_bytes_inv l b : Forall well_formed l -> ins_list_to_bytes l = Ok b ->
  Forall (fun i => ~ pushdata (i_op i)) l /\ wire_script (map content l) b.
Proof.
  intros W E. assert (N : Forall (fun i => ~ pushdata (i_op i)) l).
  { apply Forall_Exists_neg. intros X. rewrite to_bytes_pushdata in E by assumption. discriminate. }
  split; [exact N|]. destruct (to_bytes_ok l W N) as [b' [E' Wb]]. congruence.
Qed.
Lemma structure_content l l' : map content l = map content l' -> structure l = structure l'.
Proof.
  intros H. unfold structure. apply (f_equal (map (fun c : opcode * option bytes => if negb (is_push (fst c)) then TOp (fst c) else TPush))) in H.
  rewrite !map_map in H. exact H.
Qed.
Lemma classify_content l l' : map content l = map content l' -> classify l = classify l'.
Proof. intros H. unfold classify. rewrite (structure_content _ _ H). reflexivity. Qed.

Lemma script_bytes_roundtrip l c : Forall well_formed l -> Forall (fun i => ~ pushdata (i_op i)) l -> classify l = Ok c ->
  exists b s, script_to_bytes (Script c l) = Ok b /\ script_from_bytes b = Ok s /\ s_class s = c /\ same_script s (Script c l).
Proof.
  intros W N C. destruct (to_bytes_ok l W N) as [b [E Wb]].
  exists b. unfold script_from_bytes, script_to_bytes. cbn [s_ins]. rewrite E.
  assert (P : script_parse b = Ok (map ba_instr (map content l))).
  { unfold script_parse. rewrite (parse_wire _ _ Wb) by lia. reflexivity. }
  assert (M : map content (map ba_instr (map content l)) = map content l).
  { rewrite (map_map ba_instr). rewrite (map_ext _ _ content_ba), map_id. reflexivity. }
  rewrite P. cbn [bind]. unfold script_create. rewrite (classify_content _ l M), C. cbn [bind].
  eexists. split; [reflexivity|]. split; [reflexivity|]. cbn [s_class s_ins]. split; [reflexivity|].
  unfold same_script. cbn [s_ins]. exact M.
Qed.
Lemma script_from_bytes_ok b s : script_from_bytes b = Ok s <->
  wire_script (map content (s_ins s)) b /\ Forall data_ba (s_ins s) /\ classify (s_ins s) = Ok (s_class s).
Proof.
  unfold script_from_bytes, script_create. split.
  - intros H. apply bind_ok in H. destruct H as [l [P H]]. apply bind_ok in H. destruct H as [c [C H]].
    injection H as <-. cbn [s_ins s_class]. apply script_parse_ok in P. tauto.
  - intros [W [B C]]. rewrite (proj2 (script_parse_ok _ _) (conj W B)). cbn [bind]. rewrite C. cbn [bind]. destruct s; reflexivity.
Qed.
(** Parsing then serialising gives back the bytes, whenever serialising works. *)
Lemma script_from_bytes_wf b s : script_from_bytes b = Ok s -> Forall well_formed (s_ins s).
Proof.
  intros P. apply script_from_bytes_ok in P. destruct P as [W [B C]].
  apply wire_data_len in W. rewrite Forall_map in W. eapply Forall_impl; [|apply Forall_and; [exact W | exact B]].
  intros i [Wi Bi]. cbn beta in Wi. rewrite (ba_content i Bi) in Wi. exact Wi.
Qed.
Lemma script_bytes_canonical b s b' : script_from_bytes b = Ok s -> script_to_bytes s = Ok b' -> b' = b.
Proof.
  intros P E. apply script_from_bytes_ok in P. destruct P as [W [B C]].
  assert (WF : Forall well_formed (s_ins s)).
  { apply wire_data_len in W. rewrite Forall_map in W. eapply Forall_impl; [|apply Forall_and; [exact W | exact B]].
    intros i [Wi Bi]. cbn beta in Wi. rewrite (ba_content i Bi) in Wi. exact Wi. }
  destruct (to_bytes_inv _ _ WF E) as [N W']. clear - W W' N.
  revert b b' W W' N. induction (s_ins s) as [|i l IH]; cbn [map]; intros b b' W W' N.
  - inversion W; inversion W'; reflexivity.
  - inversion W as [|? w ? r W1 W2]; inversion W' as [|? w' ? r' W1' W2']; subst.
    inversion N as [|? ? N1 N2]; subst. rewrite (IH r r' W2 W2' N2). f_equal.
    unfold pushdata in N1. destruct i as [o d]. unfold content in *. cbn [i_op i_data] in *.
    inversion W1; inversion W1'; subst; unfold length_width in *; try congruence; try lia.
Qed.

(** ** classification *)

Definition tk (i : instr) : tok := if negb (is_push (i_op i)) then TOp (i_op i) else TPush.
Lemma structure_map l : structure l = map tk l. Proof. reflexivity. Qed.
Lemma tk_push i : tk i = TPush <-> is_a_push i.
Proof.
  unfold tk, is_a_push. destruct (is_push (i_op i)) eqn:E; cbn [negb].
  - apply push_iff in E. tauto.
  - apply push_false in E. split; [discriminate | contradiction].
Qed.
Lemma tk_op i o : ~ pushes o -> (tk i = TOp o <-> opc (bZ o) i).
Proof.
  intros N. unfold tk, opc. destruct (is_push (i_op i)) eqn:E; cbn [negb].
  - split; [discriminate|]. intros H. apply bZ_inj in H. apply push_iff in E. rewrite H in E. contradiction.
  - split; [intros [= ->]; reflexivity|]. intros H. apply bZ_inj in H. congruence.
Qed.
Lemma tok_eqb_eq a b : tok_eqb a b = true <-> a = b.
Proof.
  destruct a, b; cbn [tok_eqb]; try (split; [discriminate | discriminate]); try (split; reflexivity).
  rewrite op_eqb_eq. split; congruence.
Qed.
Lemma toks_eqb_eq a : forall b, toks_eqb a b = true <-> a = b.
Proof.
  induction a as [|x a IH]; intros [|y b]; cbn [toks_eqb]; try (split; (reflexivity || discriminate)).
  rewrite andb_true_iff, tok_eqb_eq, IH. split; [intros [-> ->]; reflexivity | intros [= -> ->]; auto].
Qed.
Lemma all_push l : forallb (fun t => tok_eqb t TPush) (map tk l) = true <-> Forall is_a_push l.
Proof.
  rewrite forallb_forall, Forall_forall. split.
  - intros H i I. apply tk_push, tok_eqb_eq, H, in_map, I.
  - intros H t I. apply in_map_iff in I. destruct I as [i [<- I]]. apply tok_eqb_eq, tk_push, H, I.
Qed.
Lemma tok_number i : tok_is_number (tk i) = if is_push (i_op i) then Err E_AttributeError else Ok (is_number (i_op i)).
Proof. unfold tk. destruct (is_push (i_op i)); reflexivity. Qed.
Lemma number_iff i : is_number (i_op i) = true <-> is_small i.
Proof.
  rewrite number_eq. unfold is_small, small_number. split.
  - intros H. exists (if bZ (i_op i) =? 0 then 0 else bZ (i_op i) - 80). destruct (bZ (i_op i) =? 0) eqn:E; lia.
  - intros [n H]. lia.
Qed.
Lemma small_not_push i : is_small i -> is_a_push i -> False.
Proof. unfold is_small, small_number, is_a_push, pushes. intros [n H] P. lia. Qed.

Lemma split4 {A} (l : list A) : (4 <= List.length l)%nat -> exists a b m c d, l = (a :: b :: m) ++ [c; d].
Proof.
  intros H. destruct l as [|a [|b l]]; cbn [List.length] in H; try lia.
  destruct (exists_last (l := l)) as [l1 [d ->]]; [destruct l; cbn in H; [lia|discriminate]|].
  rewrite app_length in H. cbn [List.length] in H.
  destruct (exists_last (l := l1)) as [l2 [c ->]]; [destruct l1; cbn in H; [lia|discriminate]|].
  exists a, b, l2, c, d. cbn [app]. rewrite <- app_assoc. reflexivity.
Qed.
Lemma nth_snoc2 {A} (l : list A) c d x : nth (List.length (l ++ [c; d]) - 2) (l ++ [c; d]) x = c
  /\ nth (List.length (l ++ [c; d]) - 1) (l ++ [c; d]) x = d.
Proof.
  rewrite app_length. cbn [List.length]. split.
  - rewrite app_nth2 by lia. replace (List.length l + 2 - 2 - List.length l)%nat with 0%nat by lia. reflexivity.
  - rewrite app_nth2 by lia. replace (List.length l + 2 - 1 - List.length l)%nat with 1%nat by lia. reflexivity.
Qed.
Lemma multisig_short l : (List.length l < 4)%nat -> multisig_is_valid (structure l) = Ok false.
Proof.
  intros H. unfold multisig_is_valid. rewrite structure_map. unfold blen. rewrite map_length.
  destruct (negb _) eqn:E; [reflexivity | lia].
Qed.
Lemma multisig_long a b m c d : multisig_is_valid (structure ((a :: b :: m) ++ [c; d])) =
  let! x := tok_is_number (tk a) in
  if negb x then Ok false else
  let! y := tok_is_number (tk c) in
  if negb y then Ok false else
  if negb (tok_eqb (tk d) (TOp OP_CHECKMULTISIG)) then Ok false else
  Ok (forallb (fun t => tok_eqb t TPush) (map tk (b :: m))).
Proof.
  unfold multisig_is_valid. rewrite structure_map, map_app. cbn [map].
  destruct (negb (blen _ >=? 4)) eqn:E.
  { unfold blen in E. rewrite app_length in E. cbn [List.length] in E. lia. }
  destruct (nth_snoc2 (tk a :: tk b :: map tk m) (tk c) (tk d) TPush) as [-> ->].
  cbn [app nth skipn]. change (tk b :: map tk m ++ [tk c; tk d]) with ((tk b :: map tk m) ++ [tk c; tk d]).
  rewrite drop_last_app by reflexivity. reflexivity.
Qed.

Ltac tks := repeat match goal with
  | H : tk _ = TPush |- _ => apply tk_push in H
  | H : tk _ = TOp _ |- _ => apply tk_op in H; [|unfold pushes; vm_compute; intuition discriminate]
  | |- tk _ = TPush => apply tk_push
  | |- tk _ = TOp _ => apply tk_op; [unfold pushes; vm_compute; intuition discriminate|]
  end.

Lemma shape_multi_inv l : shape RedeemMultisig l -> exists m k l' n c, l = (m :: k :: l') ++ [n; c] /\
  is_small m /\ is_a_push k /\ Forall is_a_push l' /\ is_small n /\ opc 174 c.
Proof. inversion 1; subst. do 5 eexists. split; [reflexivity|]. auto. Qed.
Lemma shape_multi_len l : shape RedeemMultisig l -> (4 <= List.length l)%nat.
Proof. intros H. apply shape_multi_inv in H. destruct H as [m [k [l' [n [c [-> _]]]]]]. rewrite app_length. cbn [List.length]. lia. Qed.
Lemma is_valid_iff c l : is_valid c (structure l) = Ok true <-> shape c l.
Proof.
  destruct c; cbn [is_valid].
  - split.
    + intros [= H]. apply toks_eqb_eq in H. rewrite structure_map in H.
      destruct l as [|a [|b [|? ?]]]; try discriminate H. injection H as H1 H2. tks. constructor; assumption.
    + intros H. inversion H; subst. f_equal. apply toks_eqb_eq. rewrite structure_map. cbn [map]. repeat f_equal; tks; assumption.
  - split.
    + intros [= H]. apply toks_eqb_eq in H. rewrite structure_map in H.
      destruct l as [|a [|b [|c [|d [|e [|? ?]]]]]]; try discriminate H. injection H as H1 H2 H3 H4 H5. tks. constructor; assumption.
    + intros H. inversion H; subst. f_equal. apply toks_eqb_eq. rewrite structure_map. cbn [map]. repeat f_equal; tks; assumption.
  - split.
    + intros [= H]. rewrite structure_map in H. apply andb_true_iff in H. destruct H as [H P]. apply andb_true_iff in H. destruct H as [L H].
      destruct l as [|z [|a [|b l]]]; try discriminate L. cbn [map nth] in H. apply tok_eqb_eq in H.
      cbn [map skipn] in P. change (tk a :: tk b :: map tk l) with (map tk (a :: b :: l)) in P. apply all_push in P.
      inversion P as [|? ? P1 P2]; inversion P2; subst. tks. constructor; assumption.
    + intros H. inversion H as [| |z a b l' Z A B F| | |]; subst. f_equal. rewrite structure_map.
      apply andb_true_iff. split; [apply andb_true_iff; split|].
      * unfold blen. cbn [map List.length]. lia.
      * cbn [map nth]. apply tok_eqb_eq. tks. exact Z.
      * cbn [map skipn]. change (tk a :: tk b :: map tk l') with (map tk (a :: b :: l')). apply all_push. constructor; [exact A|]. constructor; [exact B | exact F].
  - split.
    + intros [= H]. apply toks_eqb_eq in H. rewrite structure_map in H.
      destruct l as [|a [|b [|c [|? ?]]]]; try discriminate H. injection H as H1 H2 H3. tks. constructor; assumption.
    + intros H. inversion H; subst. f_equal. apply toks_eqb_eq. rewrite structure_map. cbn [map]. repeat f_equal; tks; assumption.
  - split.
    + intros [= H]. apply toks_eqb_eq in H. rewrite structure_map in H.
      destruct l as [|a [|b [|? ?]]]; try discriminate H. injection H as H1 H2. tks. constructor; assumption.
    + intros H. inversion H; subst. f_equal. apply toks_eqb_eq. rewrite structure_map. cbn [map]. repeat f_equal; tks; assumption.
  - destruct (Nat.lt_ge_cases (List.length l) 4) as [L|L].
    + rewrite multisig_short by exact L. split; [discriminate|]. intros H. inversion H; subst.
      rewrite app_length in L. cbn [List.length] in L. lia.
    + apply split4 in L. destruct L as [a [b [m [c [d ->]]]]]. rewrite multisig_long. split.
      * rewrite !tok_number. destruct (is_push (i_op a)); [discriminate|]. cbn [bind].
        destruct (is_number (i_op a)) eqn:N1; [|discriminate]. cbn [negb].
        destruct (is_push (i_op c)); [discriminate|]. cbn [bind].
        destruct (is_number (i_op c)) eqn:N2; [|discriminate]. cbn [negb].
        destruct (tok_eqb (tk d) (TOp OP_CHECKMULTISIG)) eqn:N3; [|discriminate]. cbn [negb].
        intros H. apply (f_equal (fun r => match r with Ok x => x | Err _ => false end)) in H. cbv beta iota in H. apply (all_push (b :: m)) in H. apply tok_eqb_eq in N3. tks. apply number_iff in N1, N2.
        inversion H; subst. constructor; assumption.
      * intros H. apply shape_multi_inv in H. destruct H as [m' [k [l' [n' [c' [EE [H1 [H2 [H3 [H4 H5]]]]]]]]]].
        apply app_inj_len_r in EE; [|reflexivity]. destruct EE as [E1 E2]. injection E1 as <- <- <-. injection E2 as <- <-.
        rewrite !tok_number.
        assert (P1 : is_push (i_op a) = false) by (apply push_false; intros P; exact (small_not_push _ H1 P)).
        assert (P2 : is_push (i_op c) = false) by (apply push_false; intros P; exact (small_not_push _ H4 P)).
        apply number_iff in H1, H4. rewrite P1, P2. cbn [bind]. rewrite H1, H4. cbn [negb].
        replace (tok_eqb (tk d) (TOp OP_CHECKMULTISIG)) with true by (symmetry; apply tok_eqb_eq; tks; exact H5).
        cbn [negb]. f_equal. apply all_push. constructor; assumption.
Qed.
Lemma is_valid_total c l : c <> RedeemMultisig -> exists b, is_valid c (structure l) = Ok b.
Proof. intros H. destruct c; cbn [is_valid]; eauto. congruence. Qed.
Lemma multisig_err l e : multisig_is_valid (structure l) = Err e <-> e = E_AttributeError /\
  exists a b m c d, l = (a :: b :: m) ++ [c; d] /\ (is_a_push a \/ (is_small a /\ is_a_push c)).
Proof.
  destruct (Nat.lt_ge_cases (List.length l) 4) as [L|L].
  - rewrite multisig_short by exact L. split; [discriminate|]. intros [_ [a [b [m [c [d [-> _]]]]]]].
    rewrite app_length in L. cbn [List.length] in L. lia.
  - apply split4 in L. destruct L as [a [b [m [c [d ->]]]]]. rewrite multisig_long. rewrite !tok_number. split.
    + intros H.
      assert (G : e = E_AttributeError /\ (is_a_push a \/ (is_small a /\ is_a_push c))).
      { destruct (is_push (i_op a)) eqn:P.
        - cbn [bind] in H. injection H as <-. apply push_iff in P. auto.
        - cbn [bind] in H. destruct (is_number (i_op a)) eqn:N1; [|discriminate]. cbn [negb] in H.
          apply number_iff in N1. destruct (is_push (i_op c)) eqn:P2.
          + cbn [bind] in H. injection H as <-. apply push_iff in P2. auto.
          + cbn [bind] in H. destruct (negb _); [discriminate|]. destruct (negb _); discriminate. }
      destruct G as [G1 G2]. split; [exact G1|]. exists a, b, m, c, d. auto.
    + intros [-> [a' [b' [m' [c' [d' [E G]]]]]]]. apply app_inj_len_r in E; [|reflexivity].
      destruct E as [E1 E2]. injection E1 as -> -> ->. injection E2 as -> ->.
      destruct G as [P|[S P]].
      * apply push_iff in P. rewrite P. reflexivity.
      * assert (P1 : is_push (i_op a') = false) by (apply push_false; intros P1; exact (small_not_push _ S P1)).
        apply number_iff in S. apply push_iff in P. rewrite P1. cbn [bind]. rewrite S, P. reflexivity.
Qed.

Lemma shape_unique c c' l : shape c l -> shape c' l -> c = c'.
Proof.
  assert (X : forall i, is_a_push i -> forall z, opc z i -> 1 <= z <= 78).
  { unfold is_a_push, pushes, opc. intros; subst; lia. }
  assert (Y : forall i z, is_small i -> opc z i -> z = 0 \/ 81 <= z <= 96).
  { unfold is_small, small_number, opc. intros i z [n H] <-. lia. }
  assert (Z : forall i z z', opc z i -> opc z' i -> z = z') by (unfold opc; congruence).
  assert (M : forall c l, c <> RedeemMultisig -> shape c l -> shape RedeemMultisig l -> False).
  { clear c c' l. intros c l N H H'. apply shape_multi_inv in H'. destruct H' as [m [k [l' [n [d [-> [H1 [H2 [H3 [H4 H5]]]]]]]]]].
    cbn [app] in H. inversion H; subst;
    try (match goal with P : is_small ?i, O : opc ?z ?i |- _ => pose proof (Y _ _ P O); lia end);
    try (match goal with P : is_small ?i, O : is_a_push ?i |- _ => exact (small_not_push _ P O) end).
    - match goal with E : b :: l = _ |- _ => assert (F : Forall is_a_push (l' ++ [n; d])) by (rewrite <- E; constructor; assumption) end.
      apply Forall_app in F. destruct F as [_ F]. inversion F as [|? ? F1 F2]; subst. exact (small_not_push _ H4 F1).
    - congruence. }
  intros H H'. destruct c, c'; try reflexivity; exfalso;
    try (refine (M _ _ _ H H'); discriminate); try (refine (M _ _ _ H' H); discriminate);
    inversion H; subst; inversion H'; subst;
    try (match goal with P : is_a_push ?i, O : opc ?z ?i |- _ => pose proof (X _ P _ O); lia end);
    try (match goal with P : opc ?z ?i, O : opc ?z' ?i |- _ => pose proof (Z _ _ _ P O); lia end).
Qed.
Lemma classify_loop_some cs st c : classify_loop cs st = Ok (Some c) -> is_valid c st = Ok true.
Proof.
  induction cs as [|k cs IH]; cbn [classify_loop]; [discriminate|].
  destruct (is_valid k st) as [[]|e] eqn:E; cbn [bind]; intros H; try discriminate; auto. congruence.
Qed.
Lemma classify_loop_hit pre c post st : (forall k, In k pre -> is_valid k st = Ok false) -> is_valid c st = Ok true ->
  classify_loop (pre ++ c :: post) st = Ok (Some c).
Proof.
  induction pre as [|k pre IH]; cbn [app classify_loop]; intros H V.
  - rewrite V. reflexivity.
  - rewrite H by (left; reflexivity). cbn [bind]. apply IH; [intros; apply H; right; assumption | exact V].
Qed.
Lemma classify_loop_none cs st : classify_loop cs st = Ok None <-> forall k, In k cs -> is_valid k st = Ok false.
Proof.
  induction cs as [|k cs IH]; cbn [classify_loop In].
  - split; [contradiction | reflexivity].
  - destruct (is_valid k st) as [[]|e] eqn:E; cbn [bind].
    + split; [discriminate|]. intros H. rewrite H in E by auto. discriminate.
    + rewrite IH. split; [intros H j [<-|J]; auto | auto].
    + split; [discriminate|]. intros H. rewrite H in E by auto. discriminate.
Qed.
Lemma classify_loop_err cs st e : classify_loop cs st = Err e -> exists k, In k cs /\ is_valid k st = Err e.
Proof.
  induction cs as [|k cs IH]; cbn [classify_loop]; [discriminate|].
  destruct (is_valid k st) as [[]|e'] eqn:E; cbn [bind]; intros H; try discriminate.
  - destruct (IH H) as [j [J1 J2]]. exists j. split; [right|]; assumption.
  - injection H as <-. exists k. split; [left; reflexivity | exact E].
Qed.
Lemma invalid_other c k l : shape c l -> k <> c -> k <> RedeemMultisig -> is_valid k (structure l) = Ok false.
Proof.
  intros S N M. destruct (is_valid_total k l M) as [[] E]; [|exact E].
  apply is_valid_iff in E. exfalso. apply N. eapply shape_unique; eassumption.
Qed.
Lemma classify_some l c : classify l = Ok (Some c) <-> shape c l.
Proof.
  split.
  - intros H. apply classify_loop_some in H. apply is_valid_iff. exact H.
  - intros S. assert (O := invalid_other c). unfold classify, SCRIPT_SUBCLASSES. pose proof S as V. apply is_valid_iff in V.
    destruct c.
    + apply (classify_loop_hit [] _ _ _); [intros k []|exact V].
    + apply (classify_loop_hit [PayToPubkeyIn] _ _ _); [|exact V]. cbn [In]. intros k K. apply O; [exact S| |]; intuition (subst; discriminate).
    + apply (classify_loop_hit [PayToPubkeyIn; PayToPubkeyOut] _ _ _); [|exact V]. cbn [In]. intros k K. apply O; [exact S| |]; intuition (subst; discriminate).
    + apply (classify_loop_hit [PayToPubkeyIn; PayToPubkeyOut; PayToScriptIn] _ _ _); [|exact V]. cbn [In]. intros k K. apply O; [exact S| |]; intuition (subst; discriminate).
    + apply (classify_loop_hit [PayToPubkeyIn; PayToPubkeyOut; PayToScriptIn; PayToScriptOut] _ _ _); [|exact V]. cbn [In]. intros k K. apply O; [exact S| |]; intuition (subst; discriminate).
    + apply (classify_loop_hit [PayToPubkeyIn; PayToPubkeyOut; PayToScriptIn; PayToScriptOut; OpReturnOut] _ _ _); [|exact V]. cbn [In]. intros k K. apply O; [exact S| |]; intuition (subst; discriminate).
Qed.
Lemma classify_err l e : classify l = Err e <-> e = E_AttributeError /\ breaks_classify l.
Proof.
  unfold breaks_classify. split.
  - intros H. pose proof H as H2. apply classify_loop_err in H2. destruct H2 as [k [_ E]].
    assert (K : k = RedeemMultisig).
    { destruct k; try reflexivity; cbn [is_valid] in E; discriminate. }
    subst k. cbn [is_valid] in E. apply multisig_err in E. destruct E as [-> E]. split; [reflexivity|]. split; [exact E|].
    intros [k S]. apply classify_some in S. congruence.
  - intros [-> [E N]]. pose proof (proj2 (multisig_err l E_AttributeError) (conj eq_refl E)) as M.
    assert (F : forall k, k <> RedeemMultisig -> is_valid k (structure l) = Ok false).
    { intros k K. destruct (is_valid_total k l K) as [[] V]; [|exact V]. exfalso. apply N. exists k. apply is_valid_iff, V. }
    unfold classify, SCRIPT_SUBCLASSES. cbn [classify_loop]. rewrite !F by discriminate. cbn [bind].
    cbn [is_valid]. rewrite M. reflexivity.
Qed.
Lemma classify_none l : classify l = Ok None <-> ~ (exists c, shape c l) /\ ~ breaks_classify l.
Proof.
  split.
  - intros H. split; [intros [c S]; apply classify_some in S; congruence|].
    intros B. pose proof (proj2 (classify_err l _) (conj eq_refl B)). congruence.
  - intros [N B]. destruct (classify l) as [[c|]|e] eqn:E; [|reflexivity|].
    + exfalso. apply N. exists c. apply classify_some. exact E.
    + exfalso. apply classify_err in E. tauto.
Qed.

(** ** text form *)

Lemma split_sp_nonempty s : split_sp s <> [].
Proof. destruct s as [|c s]; cbn [split_sp]; [discriminate|]. destruct (byte_eqb c x20); [discriminate|]. destruct (split_sp s); discriminate. Qed.
Lemma split_joined s : joined (split_sp s) = s /\ Forall no_space (split_sp s).
Proof.
  induction s as [|c s [IH1 IH2]]; cbn [split_sp].
  - split; [reflexivity|]. repeat constructor. intros [].
  - destruct (byte_eqb c x20) eqn:E.
    + apply byte_eqb_eq in E. subst c. split.
      * pose proof (split_sp_nonempty s). cbn [joined]. destruct (split_sp s) eqn:S; [congruence|]. cbn [app]. rewrite IH1. reflexivity.
      * constructor; [intros [] | exact IH2].
    + apply byte_eqb_neq in E. destruct (split_sp s) as [|t ts] eqn:S; [exfalso; eapply split_sp_nonempty; exact S|].
      inversion IH2 as [|? ? N1 N2]. split.
      * rewrite <- IH1. destruct ts; reflexivity.
      * constructor; [|exact N2]. intros [Q|Q]; [congruence | exact (N1 Q)].
Qed.
Lemma split_one t : no_space t -> split_sp t = [t].
Proof.
  unfold no_space. induction t as [|c t IH]; cbn [split_sp In]; intros N; [reflexivity|].
  replace (byte_eqb c x20) with false by (symmetry; apply byte_eqb_neq; intros ->; apply N; auto).
  rewrite IH by tauto. reflexivity.
Qed.
Lemma split_app t s : no_space t -> split_sp (t ++ x20 :: s) = t :: split_sp s.
Proof.
  unfold no_space. induction t as [|c t IH]; cbn [split_sp In app]; intros N.
  - reflexivity.
  - replace (byte_eqb c x20) with false by (symmetry; apply byte_eqb_neq; intros ->; apply N; auto).
    rewrite IH by tauto. reflexivity.
Qed.
Lemma split_of_joined ts : ts <> [] -> Forall no_space ts -> split_sp (joined ts) = ts.
Proof.
  induction ts as [|t ts IH]; intros N F; [congruence|]. inversion F; subst. destruct ts as [|u ts].
  - apply split_one; assumption.
  - change (joined (t :: u :: ts)) with (t ++ x20 :: joined (u :: ts)). rewrite split_app by assumption.
    rewrite IH; [reflexivity | discriminate | assumption].
Qed.
Lemma joined_app a b : a <> [] -> b <> [] -> joined (a ++ b) = joined a ++ x20 :: joined b.
Proof.
  induction a as [|t a IH]; intros NA NB; [congruence|]. destruct a as [|u a].
  - cbn [app]. destruct b; [congruence|]. reflexivity.
  - change (joined ((t :: u :: a) ++ b)) with (t ++ x20 :: joined ((u :: a) ++ b)).
    rewrite IH by (discriminate || exact NB). change (joined (t :: u :: a)) with (t ++ x20 :: joined (u :: a)).
    rewrite <- app_assoc. reflexivity.
Qed.

Lemma int_of_snoc t c : int_of (t ++ [c]) = 10 * int_of t + (bZ c - 48).
Proof. unfold int_of. rewrite fold_left_app. reflexivity. Qed.
Lemma decimal_int t n : decimal t n -> isdigit t = true /\ int_of t = n /\ 0 <= n.
Proof.
  assert (D : forall c, is_digit c = true <-> 48 <= bZ c <= 57) by (intros; unfold is_digit; lia).
  induction 1 as [c C|t v c H IH C].
  - split; [unfold isdigit; cbn [forallb]; rewrite (proj2 (D c) C); reflexivity|]. unfold int_of; cbn [fold_left]. lia.
  - destruct IH as [I1 [I2 I3]]. rewrite int_of_snoc, I2. split; [|lia]. unfold isdigit in *.
    destruct t as [|a t]; [discriminate|]. cbn [app]. change (a :: t ++ [c]) with ((a :: t) ++ [c]). rewrite forallb_app, I1.
    cbn [forallb]. rewrite (proj2 (D c) C). reflexivity.
Qed.
Lemma isdigit_decimal t : isdigit t = true -> decimal t (int_of t).
Proof.
  induction t as [|c t IH] using rev_ind; intros H; [discriminate|].
  assert (D : forall c, is_digit c = true -> 48 <= bZ c <= 57) by (intros ?; unfold is_digit; lia).
  destruct t as [|a t].
  - cbn [app] in *. unfold isdigit in H; cbn [forallb] in H. rewrite andb_true_r in H. apply D in H.
    replace (int_of [c]) with (bZ c - 48) by (unfold int_of; cbn [fold_left]; lia). constructor; exact H.
  - assert (F : isdigit (a :: t) = true /\ is_digit c = true).
    { unfold isdigit in *. cbn [app] in H. change (a :: t ++ [c]) with ((a :: t) ++ [c]) in H. rewrite forallb_app in H.
      apply andb_true_iff in H. cbn [forallb] in *. rewrite andb_true_r in H. exact H. }
    destruct F as [F1 F2]. rewrite int_of_snoc. constructor; [apply IH; exact F1 | apply D; exact F2].
Qed.
Lemma decimal_fun t n n' : decimal t n -> decimal t n' -> n = n'.
Proof. intros H H'. apply decimal_int in H, H'. destruct H as [_ [<- _]], H' as [_ [<- _]]. reflexivity. Qed.

Lemma dec_loop_acc f : forall n acc, dec_loop f n acc = dec_loop f n [] ++ acc.
Proof.
  induction f as [|f IH]; intros n acc; cbn [dec_loop]; [reflexivity|].
  destruct (n <? 10); [reflexivity|]. rewrite IH, (IH _ [_]), <- app_assoc. reflexivity.
Qed.
Lemma dec_loop_decimal f : forall n, 0 <= n -> Z.log2 n < Z.of_nat f -> decimal (dec_loop f n []) n.
Proof.
  induction f as [|f IH]; intros n N L; [pose proof (Z.log2_nonneg n); lia|]. cbn [dec_loop].
  assert (B : bZ (dec_digit (n mod 10)) = 48 + n mod 10) by (unfold dec_digit; apply bZ_Zb; lia).
  destruct (n <? 10) eqn:E.
  - replace n with (bZ (dec_digit (n mod 10)) - 48) at 2 by (rewrite B, Z.mod_small; lia). constructor. rewrite B. lia.
  - rewrite dec_loop_acc. replace n with (10 * (n / 10) + (bZ (dec_digit (n mod 10)) - 48)) at 3 by (rewrite B; lia).
    constructor; [|rewrite B; lia]. apply IH; [lia|]. pose proof (log2_div 10 n ltac:(lia) ltac:(lia)). lia.
Qed.
Lemma dec_decimal n : 0 <= n -> decimal (dec n) n.
Proof. intros N. unfold dec. apply dec_loop_decimal; [exact N|]. pose proof (Z.log2_nonneg n). lia. Qed.

Lemma decimal_chars t n : decimal t n -> Forall (fun c => 48 <= bZ c <= 57) t.
Proof. induction 1; [constructor; [assumption | constructor]|]. apply Forall_app. split; [assumption | constructor; [assumption | constructor]]. Qed.
Lemma decimal_no_space t n : decimal t n -> no_space t.
Proof. intros H I. apply decimal_chars in H. rewrite Forall_forall in H. apply H in I. change (bZ x20) with 32 in I. lia. Qed.
Lemma decimal_not_name t n : decimal t n -> starts_with (txt "OP_") t = false.
Proof.
  intros H. apply decimal_chars in H. destruct t as [|c t]; [reflexivity|]. inversion H; subst.
  change (txt "OP_") with [x4f; x50; x5f]. cbn [starts_with].
  replace (byte_eqb x4f c) with false; [reflexivity|]. symmetry. apply byte_eqb_neq. intros <-. change (bZ x4f) with 79 in *. lia.
Qed.

Lemma hex_value_val c : is_hex c -> hex_value c = Some (hex_val c).
Proof.
  intros H. destruct (hex_value_spec c) as [I _]. unfold is_hex in *.
  revert H. clear. destruct c; vm_compute; intros [[A B]|[[A B]|[A B]]]; try reflexivity; exfalso; congruence.
Qed.
Lemma hex_value_none c : ~ is_hex c -> hex_value c = None.
Proof.
  intros H. destruct (hex_value_spec c) as [I _]. destruct (hex_value c); [|reflexivity]. exfalso. apply H, I. discriminate.
Qed.
Lemma hex_val_range c : is_hex c -> 0 <= hex_val c < 16.
Proof. unfold is_hex, hex_val. intros H. destruct (bZ c <=? 57) eqn:E1; [lia|]. destruct (bZ c <=? 70) eqn:E2; lia. Qed.
Lemma is_hex_dec c : {is_hex c} + {~ is_hex c}.
Proof.
  destruct (hex_value c) eqn:E.
  - left. apply (proj1 (hex_value_spec c)). rewrite E. discriminate.
  - right. intros H. apply (proj1 (hex_value_spec c)) in H. contradiction.
Qed.

Lemma decode_hex_iff h d : decode_hex h = Ok d <-> hex_text h d.
Proof.
  unfold decode_hex. revert d. induction h as [|a|a b h IH] using list_ind2; intros d; cbn [unhex_loop].
  - split; [intros [= <-]; constructor | inversion 1; reflexivity].
  - split; [discriminate | inversion 1].
  - destruct (is_hex_dec a) as [A|A]; [|rewrite (hex_value_none a A); split; [discriminate | inversion 1; contradiction]].
    destruct (is_hex_dec b) as [B|B]; [|rewrite (hex_value_none b B), (hex_value_val a A); split; [discriminate | inversion 1; contradiction]].
    rewrite (hex_value_val a A), (hex_value_val b B).
    pose proof (hex_val_range a A). pose proof (hex_val_range b B).
    destruct (unhex_loop h) as [t|].
    + split.
      * intros [= <-]. constructor; [assumption|assumption|apply bZ_Zb; lia|]. apply IH. reflexivity.
      * inversion 1 as [|? ? x ? d' HA HB X T]; subst. apply IH in T. injection T as ->. rewrite <- X, Zb_bZ. reflexivity.
    + split; [discriminate|]. inversion 1 as [|? ? x ? d' HA HB X T]; subst. apply IH in T. discriminate.
Qed.
Lemma encode_hex_text d : hex_text (encode_hex d) d.
Proof. apply decode_hex_iff, decode_encode_hex. Qed.
Lemma hex_text_no_space h d : hex_text h d -> no_space h.
Proof.
  assert (X : ~ is_hex x20) by (unfold is_hex; change (bZ x20) with 32; lia).
  induction 1; intros I; cbn [In] in I; [contradiction|]. destruct I as [->|[->|I]]; contradiction.
Qed.
Lemma names_no_space name o : names_op name o -> no_space name.
Proof.
  intros H I.
  assert (C : forallb (fun p => forallb (fun c => negb (byte_eqb c x20)) (fst p)) named_ops = true) by (vm_compute; reflexivity).
  rewrite forallb_forall in C. apply C in H. cbn [fst] in H. rewrite forallb_forall in H. apply H in I. discriminate.
Qed.
Lemma names_not_const name o : names_op name o -> ~ 1 <= bZ o <= 75.
Proof.
  intros H. assert (N : has_name o) by (exists name; exact H). apply has_name_iff in N. lia.
Qed.

Lemma get_opcode_ok t o : get_opcode t = Ok o <-> names_op t o \/ (decimal t (bZ o) /\ 1 <= bZ o <= 75).
Proof.
  unfold get_opcode. destruct (op_from_name t) as [o'|e] eqn:E.
  - apply from_name_iff in E. split.
    + intros [= <-]. auto.
    + intros [H|[H _]]; [f_equal; eapply names_op_fun; eassumption|].
      apply decimal_not_name in H. rewrite (named_OP _ _ E) in H. discriminate.
  - rewrite (from_name_err _ _ E). destruct (isdigit t) eqn:D.
    + apply isdigit_decimal in D. unfold const_push_for. destruct (negb _) eqn:R.
      * split; [discriminate|]. intros [H|[H1 H2]]; [apply from_name_iff in H; congruence|].
        pose proof (decimal_fun _ _ _ D H1). lia.
      * rewrite new_opcode_ok. split.
        -- intros [H1 H2]. right. rewrite H2. split; [exact D | lia].
        -- intros [H|[H1 H2]]; [apply from_name_iff in H; congruence|]. pose proof (decimal_fun _ _ _ D H1). lia.
    + split; [discriminate|]. intros [H|[H _]]; [apply from_name_iff in H; congruence|].
      apply decimal_int in H. destruct H; congruence.
Qed.

Definition str_instr (c : opcode * option bytes) : instr := Instr (fst c) (option_map Str (snd c)).
Lemma content_str c : content (str_instr c) = c.
Proof. destruct c as [o [d|]]; reflexivity. Qed.
Lemma str_content i : data_str i -> str_instr (content i) = i.
Proof. destruct i as [o [[d|d]|]]; cbn; intros H; [|contradiction|]; reflexivity. Qed.

Lemma starts_0x h : starts_with (txt "0x") h = true <-> exists h', h = txt "0x" ++ h'.
Proof.
  change (txt "0x") with [x30; x78]. split.
  - destruct h as [|a [|b h]]; cbn [starts_with]; try discriminate.
    + rewrite andb_false_r. discriminate.
    + intros H. apply andb_true_iff in H. destruct H as [H1 H2]. apply andb_true_iff in H2. destruct H2 as [H2 _].
      apply byte_eqb_eq in H1, H2. subst. exists h. reflexivity.
  - intros [h' ->]. reflexivity.
Qed.
Lemma skip_0x h : skipn 2 (txt "0x" ++ h) = h. Proof. reflexivity. Qed.

Lemma text_loop_tokens ts c : tokens_of ts c -> text_loop ts = Ok (map str_instr c).
Proof.
  induction 1 as [|name o r l N P H IH|t o h d r l D R X L H IH|name o t h d r l N P D X L H IH]; cbn [text_loop map].
  - reflexivity.
  - rewrite (proj2 (get_opcode_ok name o)) by auto. cbn [bind]. unfold pushes in P.
    assert (C : is_const_push o = false) by (unfold is_const_push; lia).
    assert (C' : is_var_push o = false) by (rewrite var_push_eq; lia). rewrite C, C'.
    rewrite (proj2 (new_instr_ok o None (Instr o None))) by (split; [reflexivity | exact P]). cbn [bind]. rewrite IH. reflexivity.
  - rewrite (proj2 (get_opcode_ok t o)) by auto. cbn [bind]. rewrite (proj2 (const_push_spec o) R).
    rewrite (proj2 (starts_0x (txt "0x" ++ h))) by eauto. cbn [negb]. rewrite skip_0x. rewrite (proj2 (decode_hex_iff h d) X). cbn [bind].
    rewrite (proj2 (new_instr_ok o (Some (Str d)) (Instr o (Some (Str d))))).
    + cbn [bind]. rewrite IH. reflexivity.
    + split; [reflexivity|]. unfold well_formed, push_length; cbn [i_op i_data]. left. split; [exact R | exact L].
  - rewrite (proj2 (get_opcode_ok name o)) by auto. cbn [bind]. unfold pushdata in P.
    assert (C : is_const_push o = false) by (unfold is_const_push; lia).
    assert (C' : is_var_push o = true) by (rewrite var_push_eq; lia). rewrite C, C'.
    destruct (decimal_int _ _ D) as [D1 [D2 _]]. rewrite D1. cbn [negb].
    rewrite (proj2 (starts_0x (txt "0x" ++ h))) by eauto. cbn [negb]. rewrite skip_0x. rewrite (proj2 (decode_hex_iff h d) X). cbn [bind].
    rewrite D2, Z.eqb_refl. cbn [negb].
    rewrite (proj2 (new_instr_ok o (Some (Str d)) (Instr o (Some (Str d))))).
    + cbn [bind]. rewrite IH. reflexivity.
    + split; [reflexivity|]. exact L.
Qed.
Lemma text_loop_inv n : forall ts l, (List.length ts <= n)%nat -> text_loop ts = Ok l -> tokens_of ts (map content l) /\ Forall data_str l.
Proof.
  induction n as [|n IH]; intros [|t ts] l L H; cbn [List.length] in L; try lia.
  - injection H as <-. split; constructor.
  - injection H as <-. split; constructor.
  - cbn [text_loop] in H. apply bind_ok in H. destruct H as [o [G H]]. apply get_opcode_ok in G.
    destruct (is_const_push o) eqn:C; [|destruct (is_var_push o) eqn:V].
    + destruct ts as [|h ts]; [discriminate|]. destruct (starts_with (txt "0x") h) eqn:S; [|discriminate].
      cbn [negb] in H. apply starts_0x in S. destruct S as [h' ->]. rewrite skip_0x in H.
      apply bind_ok in H. destruct H as [d [X H]]. apply bind_ok in H. destruct H as [i [I H]].
      apply bind_ok in H. destruct H as [l' [T H]]. injection H as <-. apply new_instr_ok in I. destruct I as [-> W].
      cbn [List.length] in L. destruct (IH ts l') as [IH1 IH2]; [lia | exact T|]. apply const_push_spec in C.
      destruct G as [G|[G _]]; [exfalso; exact (names_not_const _ _ G C)|].
      apply decode_hex_iff in X. unfold well_formed, push_length in W; cbn [i_op i_data] in W.
      split; [|constructor; [exact I | exact IH2]]. cbn [map]. unfold content at 1; cbn [i_op i_data option_map pyb_bytes].
      constructor; try assumption. unfold pyb_len in W; cbn [pyb_bytes] in W. unfold blen. lia.
    + destruct ts as [|sz [|h ts]]; try discriminate. destruct (isdigit sz) eqn:D; [|discriminate]. cbn [negb] in H.
      destruct (starts_with (txt "0x") h) eqn:S; [|discriminate].
      cbn [negb] in H. apply starts_0x in S. destruct S as [h' ->]. rewrite skip_0x in H.
      apply bind_ok in H. destruct H as [d [X H]]. destruct (int_of sz =? blen d) eqn:Q; [|discriminate]. cbn [negb] in H.
      apply bind_ok in H. destruct H as [i [I H]].
      apply bind_ok in H. destruct H as [l' [T H]]. injection H as <-. apply new_instr_ok in I. destruct I as [-> W].
      cbn [List.length] in L. destruct (IH ts l') as [IH1 IH2]; [lia | exact T|]. unfold is_const_push in C. rewrite var_push_eq in V.
      destruct G as [G|[_ G]]; [|lia].
      apply decode_hex_iff in X. apply isdigit_decimal in D. apply Z.eqb_eq in Q. rewrite Q in D.
      split; [|constructor; [exact I | exact IH2]]. cbn [map]. unfold content at 1; cbn [i_op i_data option_map pyb_bytes].
      constructor; try assumption. unfold pushdata; lia.
    + apply bind_ok in H. destruct H as [i [I H]].
      apply bind_ok in H. destruct H as [l' [T H]]. injection H as <-. apply new_instr_ok in I. destruct I as [-> W].
      destruct (IH ts l') as [IH1 IH2]; [lia | exact T|]. unfold is_const_push in C. rewrite var_push_eq in V.
      destruct G as [G|[_ G]]; [|lia].
      split; [|constructor; [exact I | exact IH2]]. cbn [map]. unfold content at 1; cbn [i_op i_data option_map].
      constructor; try assumption.
Qed.
Lemma text_loop_ok ts l : text_loop ts = Ok l <-> tokens_of ts (map content l) /\ Forall data_str l.
Proof.
  split; [apply (text_loop_inv (List.length ts)); lia|]. intros [H F]. rewrite (text_loop_tokens _ _ H). f_equal.
  rewrite map_map. rewrite <- (map_id l) at 2. apply map_ext_in. intros i I. apply str_content. rewrite Forall_forall in F. auto.
Qed.
Lemma from_string_ok t s : script_from_string t = Ok s <->
  (exists ts, ts <> [] /\ Forall no_space ts /\ t = joined ts /\ tokens_of ts (map content (s_ins s))) /\
  Forall data_str (s_ins s) /\ classify (s_ins s) = Ok (s_class s).
Proof.
  unfold script_from_string, script_create. split.
  - intros H. apply bind_ok in H. destruct H as [l [P H]]. apply bind_ok in H. destruct H as [c [C H]]. injection H as <-.
    cbn [s_ins s_class]. apply text_loop_ok in P. destruct P as [P F]. destruct (split_joined t) as [J N].
    split; [|auto]. exists (split_sp t). split; [apply split_sp_nonempty|]. auto.
  - intros [[ts [NE [N [-> T]]]] [F C]]. rewrite split_of_joined by assumption.
    rewrite (proj2 (text_loop_ok _ _) (conj T F)). cbn [bind]. rewrite C. destruct s; reflexivity.
Qed.

Lemma ins_to_string_tokens i : well_formed i -> (1 <= bZ (i_op i) <= 75 \/ has_name (i_op i)) ->
  exists ts, ins_to_string i = Ok (joined ts) /\ ts <> [] /\ Forall no_space ts /\
    forall r l, tokens_of r l -> tokens_of (ts ++ r) (content i :: l).
Proof.
  destruct i as [o d]. unfold well_formed, ins_to_string, content. cbn [i_op i_data]. intros W N.
  assert (Z0 : no_space (txt "0x")) by (intros I; vm_compute in I; intuition discriminate).
  assert (NS : forall x, no_space (txt "0x" ++ encode_hex x)).
  { intros x I. apply in_app_or in I. destruct I as [I|I]; [exact (Z0 I)|]. exact (hex_text_no_space _ _ (encode_hex_text x) I). }
  destruct d as [d|].
  - assert (P : pushes o) by (unfold pushes, push_length in *; lia). rewrite (proj2 (push_iff o) P).
    assert (LD : 0 <= pyb_len d) by (unfold pyb_len; lia).
    destruct (is_const_push o) eqn:C.
    + apply const_push_spec in C. exists [dec (pyb_len d); txt "0x" ++ encode_hex (pyb_bytes d)]. split; [reflexivity|].
      split; [discriminate|]. split.
      * constructor; [eapply decimal_no_space, dec_decimal, LD|]. constructor; [apply NS | constructor].
      * intros r l H. cbn [app option_map]. assert (E : pyb_len d = bZ o) by (unfold push_length in W; lia). apply tk_const; try assumption.
        -- rewrite <- E. apply dec_decimal, LD.
        -- apply encode_hex_text.
    + unfold is_const_push in C. unfold pushes in P. destruct N as [N|N]; [lia|].
      destruct (op_name_cases o) as [[n [E [M _]]]|[_ [M _]]]; [lia| |contradiction]. rewrite E. cbn [bind].
      exists [n; dec (pyb_len d); txt "0x" ++ encode_hex (pyb_bytes d)]. split; [reflexivity|]. split; [discriminate|]. split.
      * constructor; [eapply names_no_space, M|]. constructor; [eapply decimal_no_space, dec_decimal, LD|]. constructor; [apply NS | constructor].
      * intros r l H. cbn [app option_map]. apply tk_var; try assumption.
        -- unfold pushdata. lia.
        -- apply (dec_decimal (pyb_len d)), LD.
        -- apply encode_hex_text.
  - rewrite (proj2 (push_false o) W). unfold pushes in W. destruct N as [N|N]; [lia|].
    destruct (op_name_cases o) as [[n [E [M _]]]|[_ [M _]]]; [lia| |contradiction].
    exists [n]. split; [exact E|]. split; [discriminate|]. split; [repeat constructor; eapply names_no_space, M|].
    intros r l H. cbn [app option_map]. constructor; assumption.
Qed.
Lemma to_string_tokens l : l <> [] -> Forall well_formed l -> Forall printable l ->
  exists ts, ins_list_to_string l = Ok (joined ts) /\ ts <> [] /\ Forall no_space ts /\ tokens_of ts (map content l).
Proof.
  induction l as [|i l IH]; intros NE W P; [congruence|]. inversion W as [|? ? W1 W2]; inversion P as [|? ? P1 P2]; subst.
  destruct (ins_to_string_tokens i W1 P1) as [ts [E [N [S T]]]]. destruct l as [|j l].
  - exists ts. cbn [ins_list_to_string map]. split; [exact E|]. split; [exact N|]. split; [exact S|].
    specialize (T [] [] tk_nil). rewrite app_nil_r in T. exact T.
  - destruct IH as [us [E2 [N2 [S2 T2]]]]; [discriminate | exact W2 | exact P2|].
    exists (ts ++ us). split.
    + change (ins_list_to_string (i :: j :: l)) with
        (let! a := ins_to_string i in let! b := ins_list_to_string (j :: l) in Ok (a ++ txt " " ++ b)).
      rewrite E, E2. cbn [bind]. f_equal. rewrite joined_app by assumption. reflexivity.
    + split; [destruct ts; [congruence | discriminate]|]. split; [apply Forall_app; auto|]. cbn [map]. apply T. exact T2.
Qed.
Lemma script_text_roundtrip l c : l <> [] -> Forall well_formed l -> Forall printable l -> classify l = Ok c ->
  exists t s, script_to_string (Script c l) = Ok t /\ script_from_string t = Ok s /\ s_class s = c /\ same_script s (Script c l).
Proof.
  intros NE W P C. destruct (to_string_tokens l NE W P) as [ts [E [N [S T]]]].
  assert (M : map content (map str_instr (map content l)) = map content l).
  { rewrite (map_map str_instr). rewrite (map_ext _ _ content_str), map_id. reflexivity. }
  exists (joined ts), (Script c (map str_instr (map content l))). split; [exact E|]. split; [|split; [reflexivity | exact M]].
  apply from_string_ok. cbn [s_ins s_class]. split; [exists ts; rewrite M; auto|]. split.
  - apply Forall_forall. intros i I. apply in_map_iff in I. destruct I as [[o [d|]] [<- _]]; exact I.
  - rewrite (classify_content _ l M). exact C.
Qed.
Lemma to_string_unnamed l : Forall well_formed l -> Exists (fun i => ~ printable i) l -> ins_list_to_string l = Err E_KeyError.
Proof.
  assert (K : forall i, well_formed i -> ~ printable i -> ins_to_string i = Err E_KeyError).
  { intros [o d] W N. unfold printable in N. unfold ins_to_string. cbn [i_op i_data] in *. unfold well_formed in W; cbn [i_op i_data] in W.
    assert (U : op_name o = Err E_KeyError) by (apply op_name_unnamed; tauto).
    destruct (is_push o) eqn:P; [|exact U]. exfalso. apply push_iff in P. unfold pushes in P. apply N. rewrite has_name_iff. lia. }
  induction 1 as [|i l W WS IH]; intros X; [inversion X|].
  assert (PD : printable i \/ ~ printable i).
  { unfold printable. rewrite has_name_iff. lia. }
  destruct PD as [P|P].
  - destruct (ins_to_string_tokens i W P) as [ts [E _]]. inversion X as [? ? X1|? ? X2]; subst; [contradiction|].
    destruct l as [|j l]; [inversion X2|].
    change (ins_list_to_string (i :: j :: l)) with
        (let! a := ins_to_string i in let! b := ins_list_to_string (j :: l) in Ok (a ++ txt " " ++ b)).
    rewrite E, IH by exact X2. reflexivity.
  - destruct l as [|j l]; [exact (K i W P)|].
    change (ins_list_to_string (i :: j :: l)) with
        (let! a := ins_to_string i in let! b := ins_list_to_string (j :: l) in Ok (a ++ txt " " ++ b)).
    rewrite (K i W P). reflexivity.
Qed.

(** ** schematics, templates and getters *)

Lemma to_instruction_bytes p i : to_instruction (I_Bytes p) = Ok i ->
  exists b, p = Str b /\ 1 <= blen b <= 4294967295 /\ i_data i = Some p /\ is_a_push i /\ well_formed i.
Proof.
  destruct p as [b|b]; cbn [to_instruction]; [|discriminate]. intros H. apply bind_ok in H. destruct H as [o [P H]].
  apply new_instr_ok in H. destruct H as [-> W]. apply op_push_for_ok in P. exists b. split; [reflexivity|].
  split; [lia|]. split; [reflexivity|]. split; [|exact W]. unfold is_a_push, pushes; cbn [i_op]. lia.
Qed.
Lemma to_instruction_bytes_ok b : 1 <= blen b <= 4294967295 -> exists i, to_instruction (I_Bytes (Str b)) = Ok i.
Proof.
  intros H. cbn [to_instruction]. destruct (op_push_for (blen b)) as [o|e] eqn:E.
  - cbn [bind]. apply op_push_for_ok in E. exists (Instr o (Some (Str b))). apply new_instr_ok. split; [reflexivity|].
    unfold well_formed, push_length; cbn [i_op i_data]. change (pyb_len (Str b)) with (blen b). lia.
  - apply op_push_for_err in E. lia.
Qed.
Lemma to_instruction_op o i : to_instruction (I_Op o) = Ok i -> i = Instr o None /\ ~ pushes o.
Proof. cbn [to_instruction]. intros H. apply new_instr_ok in H. destruct H as [-> W]. split; [reflexivity | exact W]. Qed.
Lemma to_instruction_op_ok o : ~ pushes o -> to_instruction (I_Op o) = Ok (Instr o None).
Proof. intros H. cbn [to_instruction]. apply new_instr_ok. split; [reflexivity | exact H]. Qed.

Lemma to_instructions_inv l ins : to_instructions l = Ok ins <-> Forall2 (fun it i => to_instruction it = Ok i) l ins.
Proof.
  revert ins. induction l as [|it l IH]; intros ins; cbn [to_instructions].
  - split; [intros [= <-]; constructor | inversion 1; reflexivity].
  - split.
    + intros H. apply bind_ok in H. destruct H as [i [H1 H]]. apply bind_ok in H. destruct H as [t [H2 H]]. injection H as <-.
      constructor; [exact H1 | apply IH; exact H2].
    + inversion 1 as [|? i ? t H1 H2]; subst. rewrite H1. cbn [bind]. apply IH in H2. rewrite H2. reflexivity.
Qed.
Lemma sub_create_inv c l s : sub_create c l = Ok s <->
  s_class s = Some c /\ Forall2 (fun it i => to_instruction it = Ok i) l (s_ins s).
Proof.
  unfold sub_create. split.
  - intros H. apply bind_ok in H. destruct H as [ins [H1 H]]. injection H as <-. cbn. split; [reflexivity | apply to_instructions_inv; exact H1].
  - intros [H1 H2]. apply to_instructions_inv in H2. rewrite H2. cbn [bind]. destruct s; cbn in *. congruence.
Qed.
Lemma to_instruction_wf it i : to_instruction it = Ok i -> well_formed i.
Proof.
  destruct it as [o|z|[b|b]|o d|z d]; cbn [to_instruction]; intros H; try discriminate;
    try (apply bind_ok in H; destruct H as [o' [_ H]]); apply new_instr_ok in H; destruct H as [-> H]; exact H.
Qed.
Lemma sub_create_wf c l s : sub_create c l = Ok s -> Forall well_formed (s_ins s).
Proof.
  intros H. apply sub_create_inv in H. destruct H as [_ H]. induction H; constructor; [eapply to_instruction_wf; eassumption | assumption].
Qed.

Ltac inv2 := repeat match goal with
  | H : Forall2 _ (_ :: _) _ |- _ => inversion H; clear H; subst
  | H : Forall2 _ [] _ |- _ => inversion H; clear H; subst
  | H : to_instruction (I_Op _) = Ok _ |- _ => apply to_instruction_op in H; destruct H as [-> ?]
  | H : to_instruction (I_Bytes _) = Ok _ |- _ => apply to_instruction_bytes in H; destruct H as [? [? [? [? [? ?]]]]]
  end.

Lemma p2pk_in_ok k sig s : p2pk_in_create k sig = Ok s ->
  exists kb, pk_to_bytes k = Ok kb /\ shape PayToPubkeyIn (s_ins s) /\ s_class s = Some PayToPubkeyIn /\
    get_signature s = Ok (Some sig) /\ get_public_key s = pk_from_bytes (Str kb) (VNet livenet).
Proof.
  unfold p2pk_in_create. intros H. apply bind_ok in H. destruct H as [kb [K H]]. apply sub_create_inv in H. destruct H as [C H].
  destruct s as [sc ins]. cbn [s_ins s_class] in *. inv2. exists kb. split; [exact K|]. split; [constructor; assumption|]. split; [reflexivity|].
  unfold get_signature, get_public_key, data_at; cbn [s_ins nth_error].
  repeat match goal with E : i_data _ = Some _ |- _ => rewrite E; clear E end. split; reflexivity.
Qed.
Lemma p2pk_out_ok a s : p2pk_out_create a = Ok s ->
  shape PayToPubkeyOut (s_ins s) /\ s_class s = Some PayToPubkeyOut /\ get_address_hash s = Ok (Some (a_phash a)).
Proof.
  unfold p2pk_out_create. intros H. apply sub_create_inv in H. destruct H as [C H]. destruct s as [sc ins]. cbn [s_ins s_class] in *. inv2.
  split; [constructor; (reflexivity || assumption)|]. split; [reflexivity|].
  unfold get_address_hash, data_at; cbn [s_ins nth_error]. congruence.
Qed.
Lemma p2pk_out_total a : valid_addr a -> exists s, p2pk_out_create a = Ok s.
Proof.
  intros [_ [h [E L]]]. unfold p2pk_out_create, sub_create. rewrite E. cbn [to_instructions].
  destruct (to_instruction_bytes_ok h) as [i I]; [unfold blen; lia|]. rewrite I.
  rewrite !to_instruction_op_ok by (unfold pushes; vm_compute; intuition discriminate). cbn [bind]. eauto.
Qed.
Lemma p2sh_out_ok r s : p2sh_out_create r = Ok s ->
  exists rb, script_to_bytes r = Ok rb /\ shape PayToScriptOut (s_ins s) /\ s_class s = Some PayToScriptOut /\
    get_script_hash s = Ok (Some (Str (ripemd160 (sha256 rb)))).
Proof.
  unfold p2sh_out_create, script_to_hash. intros H. apply bind_ok in H. destruct H as [h [K H]]. apply bind_ok in K. destruct K as [rb [K E]].
  injection E as <-. exists rb. split; [exact K|].
  apply sub_create_inv in H. destruct H as [C H]. destruct s as [sc ins]. cbn [s_ins s_class] in *. inv2.
  split; [constructor; (reflexivity || assumption)|]. split; [reflexivity|].
  unfold get_script_hash, data_at; cbn [s_ins nth_error]. congruence.
Qed.
Lemma op_return_ok d s : op_return_create d = Ok s ->
  shape OpReturnOut (s_ins s) /\ s_class s = Some OpReturnOut /\ get_data s = Ok (Some d).
Proof.
  unfold op_return_create. intros H. apply sub_create_inv in H. destruct H as [C H]. destruct s as [sc ins]. cbn [s_ins s_class] in *. inv2.
  split; [constructor; (reflexivity || assumption)|]. split; [reflexivity|].
  unfold get_data, data_at; cbn [s_ins nth_error]. congruence.
Qed.
Lemma op_return_total b : 1 <= blen b <= 4294967295 <-> exists s, op_return_create (Str b) = Ok s.
Proof.
  unfold op_return_create, sub_create. cbn [to_instructions].
  rewrite !to_instruction_op_ok by (unfold pushes; vm_compute; intuition discriminate). split.
  - intros H. destruct (to_instruction_bytes_ok b H) as [i I]. rewrite I. cbn [bind]. eauto.
  - intros [s H]. apply bind_ok in H. destruct H as [l [H _]]. apply bind_ok in H. destruct H as [i0 [_ H]]. apply bind_ok in H. destruct H as [l1 [H _]].
    apply bind_ok in H. destruct H as [i [H _]]. apply to_instruction_bytes in H. destruct H as [b' [E [H _]]]. injection E as <-. exact H.
Qed.

Lemma forall2_bytes ps ins : Forall2 (fun it i => to_instruction it = Ok i) (map I_Bytes ps) ins ->
  Forall is_a_push ins /\ map i_data ins = map Some ps.
Proof.
  revert ins. induction ps as [|p ps IH]; intros ins H; inversion H as [|? i ? l H1 H2]; subst.
  - split; [constructor | reflexivity].
  - destruct (IH _ H2) as [I1 I2]. apply to_instruction_bytes in H1. destruct H1 as [b [-> [_ [D [P _]]]]].
    split; [constructor; assumption|]. cbn [map]. rewrite D, I2. reflexivity.
Qed.
Lemma p2sh_in_ok r sigs s : p2sh_in_create r sigs = Ok s -> sigs <> [] ->
  exists rb, script_to_bytes r = Ok rb /\ shape PayToScriptIn (s_ins s) /\ s_class s = Some PayToScriptIn /\
    get_signatures s = map Some sigs /\ get_script s = script_from_bytes rb.
Proof.
  unfold p2sh_in_create. intros H NE. apply bind_ok in H. destruct H as [rb [K H]]. exists rb. split; [exact K|].
  apply sub_create_inv in H. destruct H as [C H]. destruct s as [sc ins]. cbn [s_ins s_class] in *.
  cbn [app] in H. inversion H as [|? z ? t H1 H2]; subst. apply to_instruction_op in H1. destruct H1 as [-> _].
  apply Forall2_app_inv_l in H2. destruct H2 as [si [ri [H2 [H3 ->]]]]. inv2.
  apply forall2_bytes in H2. destruct H2 as [P D]. destruct sigs as [|p sigs]; [congruence|]. destruct si as [|i si]; [discriminate|].
  inversion P as [|? ? P1 P2]; subst. split.
  - cbn [app]. destruct si as [|j si].
    + constructor; [reflexivity | assumption | assumption | constructor].
    + inversion P2; subst. constructor; [reflexivity | assumption | assumption|]. apply Forall_app. split; [assumption | constructor; [assumption|constructor]].
  - split; [reflexivity|]. split.
    + unfold get_signatures; cbn [s_ins skipn]. rewrite drop_last_app by reflexivity. exact D.
    + unfold get_script; cbn [s_ins]. rewrite app_comm_cons, rev_app_distr. cbn [rev app].
      match goal with E : i_data _ = Some (Str rb) |- _ => rewrite E end. reflexivity.
Qed.
Lemma p2sh_in_no_sigs r s : p2sh_in_create r [] = Ok s -> classify (s_ins s) = Ok None.
Proof.
  unfold p2sh_in_create. intros H. apply bind_ok in H. destruct H as [rb [K H]].
  apply sub_create_inv in H. destruct H as [C H]. destruct s as [sc ins]. cbn [s_ins s_class map app] in *. inv2.
  apply classify_none. split.
  - intros [c S]. destruct c; try (apply shape_multi_len in S; cbn [List.length] in S; lia);
      inversion S; subst; unfold opc, is_a_push, pushes in *; cbn [i_op] in *; change (bZ OP_0) with 0 in *; lia.
  - intros [[a [b [m [c [d [E _]]]]]] _]. cbn [app] in E. injection E as _ _ E. destruct m; discriminate.
Qed.

Lemma pubkeys_bytes_ok ks bs : pubkeys_bytes ks = Ok bs <-> Forall2 (fun k b => pk_to_bytes k = Ok b) ks bs.
Proof.
  revert bs. induction ks as [|k ks IH]; intros bs; cbn [pubkeys_bytes].
  - split; [intros [= <-]; constructor | inversion 1; reflexivity].
  - split.
    + intros H. apply bind_ok in H. destruct H as [b [H1 H]]. apply bind_ok in H. destruct H as [t [H2 H]]. injection H as <-.
      constructor; [exact H1 | apply IH; exact H2].
    + inversion 1 as [|? i ? t H1 H2]; subst. rewrite H1. cbn [bind]. apply IH in H2. rewrite H2. reflexivity.
Qed.
Lemma pubkeys_of_ok ins ks : pubkeys_of ins = Ok ks <-> Forall2 (fun i k => data_public_key (i_data i) = Ok k) ins ks.
Proof.
  revert ks. induction ins as [|i ins IH]; intros ks; cbn [pubkeys_of].
  - split; [intros [= <-]; constructor | inversion 1; reflexivity].
  - split.
    + intros H. apply bind_ok in H. destruct H as [b [H1 H]]. apply bind_ok in H. destruct H as [t [H2 H]]. injection H as <-.
      constructor; [exact H1 | apply IH; exact H2].
    + inversion 1 as [|? j ? t H1 H2]; subst. rewrite H1. cbn [bind]. apply IH in H2. rewrite H2. reflexivity.
Qed.
Lemma multisig_ok ks m s : multisig_create ks m = Ok s ->
  exists bs, Forall2 (fun k b => pk_to_bytes k = Ok b) ks bs /\ s_class s = Some RedeemMultisig /\
    0 <= m <= 16 /\ blen ks <= 16 /\ get_min_signatures s = Ok m /\
    (ks <> [] -> shape RedeemMultisig (s_ins s)) /\
    (forall ks', get_public_keys s = Ok ks' <-> Forall2 (fun b k => pk_from_bytes (Str b) (VNet livenet) = Ok k) bs ks').
Proof.
  unfold multisig_create. intros H. apply bind_ok in H. destruct H as [om [M H]]. apply bind_ok in H. destruct H as [bs [B H]].
  apply bind_ok in H. destruct H as [on [N H]]. exists bs. apply pubkeys_bytes_ok in B. split; [exact B|].
  apply for_number_ok in M, N. apply sub_create_inv in H. destruct H as [C H]. split; [exact C|]. destruct s as [sc ins]. cbn [s_ins s_class] in *.
  cbn [app] in H. inversion H as [|? z ? t H1 H2]; subst. apply to_instruction_op in H1. destruct H1 as [-> _].
  rewrite <- (map_map Str I_Bytes) in H2. apply Forall2_app_inv_l in H2. destruct H2 as [ki [ri [H2 [H3 ->]]]]. inv2. apply forall2_bytes in H2. destruct H2 as [P D].
  assert (M' := M). unfold small_number in M', N.
  split; [lia|]. split; [lia|]. split; [apply number_value_ok; exact M|]. split.
  - intros NE. destruct ks; [congruence|]. inversion B; subst. destruct ki as [|i ki]; [discriminate|]. inversion P; subst.
    cbn [app]. rewrite app_comm_cons, app_comm_cons. constructor; try assumption.
    + exists m. exact M.
    + exists (blen (p :: ks)). exact N.
    + reflexivity.
  - intros ks'. unfold get_public_keys. cbn [s_ins skipn]. rewrite drop_last_app by reflexivity. rewrite pubkeys_of_ok.
    clear - D. revert ki ks' D. induction bs as [|b bs IH]; intros [|i ki] ks' D; try discriminate.
    + split; inversion 1; constructor.
    + cbn [map] in D. injection D as D1 D2. split; inversion 1; subst; constructor; try (apply IH; assumption); try (eapply IH; eassumption);
        unfold data_public_key in *; rewrite D1 in *; assumption.
Qed.
Lemma multisig_no_keys m s : multisig_create [] m = Ok s -> classify (s_ins s) = Ok None.
Proof.
  unfold multisig_create. intros H. apply bind_ok in H. destruct H as [om [M H]]. cbn [pubkeys_bytes bind] in H.
  apply bind_ok in H. destruct H as [on [N H]]. apply for_number_ok in M, N. apply sub_create_inv in H. destruct H as [_ H].
  destruct s as [sc ins]. cbn [s_ins map app] in *. inv2. unfold small_number in *.
  apply classify_none. split.
  - intros [c S]. destruct c; try (apply shape_multi_len in S; cbn [List.length] in S; lia);
      inversion S; subst; unfold opc, is_a_push, pushes in *; cbn [i_op] in *; change (bZ OP_CHECKMULTISIG) with 174 in *; lia.
  - intros [[a [b [x [c [d [E _]]]]]] _]. cbn [app] in E. injection E as _ _ E. destruct x as [|? [|? ?]]; discriminate.
Qed.

(** Data read from a Buffer is a bytearray, which PublicKey.from_bytes never accepts. *)
Lemma pk_from_bytearray l n : pk_from_bytes (BA l) n = Err E_Pub_InvalidBinary.
Proof.
  unfold pk_from_bytes, sec_to_public_pair, pyb_sub, pyb_map.
  destruct (from_bytes_32_ba (firstn 32 (skipn 1 l))) as [e [E H]]. rewrite E. cbn [bind recatch].
  destruct H as [->|[->| ->]]; reflexivity.
Qed.
Lemma parsed_public_key b s : script_from_bytes b = Ok s -> s_class s = Some PayToPubkeyIn -> get_public_key s = Err E_Pub_InvalidBinary.
Proof.
  intros H C. pose proof (script_from_bytes_wf _ _ H) as WF. apply script_from_bytes_ok in H. destruct H as [_ [B K]]. rewrite C in K. apply classify_some in K.
  inversion K as [x y P Q E E'| | | | |]. unfold get_public_key, data_at. rewrite <- E' in *. cbn [nth_error bind].
  inversion B as [|? ? B1 B2]; subst. inversion B2 as [|? ? B3 _]; subst.
  inversion WF as [|? ? F1 F2]; subst. inversion F2 as [|? ? F3 _]; subst.
  unfold data_ba in B3. unfold well_formed in F3. destruct (i_data y) as [[|]|] eqn:D.
  - contradiction.
  - apply pk_from_bytearray.
  - contradiction.
Qed.
Lemma parsed_public_keys b s : script_from_bytes b = Ok s -> s_class s = Some RedeemMultisig -> get_public_keys s = Err E_Pub_InvalidBinary.
Proof.
  intros H C. pose proof (script_from_bytes_wf _ _ H) as WF. apply script_from_bytes_ok in H. destruct H as [_ [B K]]. rewrite C in K. apply classify_some in K.
  apply shape_multi_inv in K. destruct K as [m [k [l [n [c [E [_ [P _]]]]]]]]. unfold get_public_keys. rewrite E in *.
  cbn [app] in B, WF. inversion B as [|? ? B1 B2]; subst. inversion B2 as [|? ? B3 _]; subst.
  inversion WF as [|? ? F1 F2]; subst. inversion F2 as [|? ? F3 _]; subst.
  cbn [app skipn]. change (k :: l ++ [n; c]) with ((k :: l) ++ [n; c]). rewrite drop_last_app by reflexivity.
  cbn [pubkeys_of]. unfold data_ba in B3. unfold well_formed in F3. destruct (i_data k) as [[|]|] eqn:D.
  - contradiction.
  - unfold data_public_key. rewrite pk_from_bytearray. reflexivity.
  - contradiction.
Qed.

(** ** the remaining methods *)
Lemma push_data_never s b : exists e, script_push_data s b = Err e /\ script_remove_opcode_by_data s b = Err e.
Proof. unfold script_push_data, script_remove_opcode_by_data. destruct (ins_push_for b); cbn [bind]; eauto. Qed.
Lemma push_only_iff l : is_push_only l = true <-> Forall (fun i => bZ (i_op i) <= 96) l.
Proof.
  unfold is_push_only. rewrite forallb_forall, Forall_forall. split; intros H i I; specialize (H i I).
  - apply op_order in H. exact H.
  - apply op_order. exact H.
Qed.
Lemma minimal_push_raises o d : well_formed (Instr o (Some (BA d))) -> 1 <= blen d <= 75 ->
  is_minimal_push (Instr o (Some (BA d))) = Err E_AttributeError.
Proof.
  intros W L. unfold is_minimal_push. cbn [i_data first_int]. change (pyb_len (BA d)) with (blen d).
  destruct (blen d =? 0) eqn:E; [lia|]. rewrite !andb_false_r. replace (blen d <=? 75) with true by lia. reflexivity.
Qed.
Lemma minimal_push_str o d : well_formed (Instr o (Some (Str d))) ->
  is_minimal_push (Instr o (Some (Str d))) =
    if blen d =? 0 then Ok true
    else if (blen d =? 1) && ((1 <=? be_val d) && (be_val d <=? 16) || (be_val d =? 129)) then Ok false
    else if blen d <=? 75 then Err E_AttributeError
    else if blen d <=? 255 then Ok (bZ o =? 76) else if blen d <=? 65535 then Ok (bZ o =? 77) else Ok true.
Proof.
  intros W. unfold well_formed, push_length in W. cbn [i_op i_data] in W. change (pyb_len (Str d)) with (blen d) in W.
  unfold is_minimal_push. cbn [i_data i_op]. change (pyb_len (Str d)) with (blen d). destruct (blen d =? 0) eqn:E0; [reflexivity|].
  destruct (blen d =? 1) eqn:E1.
  - destruct d as [|x [|y d]]; try (unfold blen in E1; cbn [List.length] in E1; lia).
    cbn [first_int andb]. replace (be_val [x]) with (bZ x) by (unfold be_val; cbn [rev app le_val]; lia).
    change (bZ OP_1) with 81.
    destruct ((1 <=? bZ x) && (bZ x <=? 16)) eqn:R.
    + cbn [orb]. f_equal. lia.
    + cbn [orb]. destruct (bZ x =? 129) eqn:N; [|reflexivity]. f_equal. unfold op_eqb. change (bZ OP_1NEGATE) with 79. lia.
  - cbn [andb]. unfold op_eqb. change (bZ OP_PUSHDATA1) with 76. change (bZ OP_PUSHDATA2) with 77. reflexivity.
Qed.

Lemma push_for_shortest d o o' w w' : op_push_for (blen d) = Ok o -> wire (o, Some d) w -> wire (o', Some d) w' ->
  (List.length w <= List.length w')%nat.
Proof.
  intros P W W'. apply op_push_for_ok in P.
  assert (B1 : forall lb : bytes, 0 <= le_val lb < 256 ^ Z.of_nat (List.length lb)) by (intros; apply le_val_bound).
  inversion W as [|? ? R1 L1|? k lb ? K1 L1 V1]; inversion W' as [|? ? R2 L2|? k' lb' ? K2 L2 V2]; subst; cbn [List.length];
    rewrite ?app_length; unfold length_width in *; try lia.
  pose proof (B1 lb'). pose proof (blen_nonneg d). 
  assert (X : (List.length lb <= List.length lb')%nat); [|lia].
  destruct K2 as [[_ K2]|[[_ K2]|[_ K2]]]; rewrite K2 in *;
  [change (256 ^ Z.of_nat 1) with 256 in * | change (256 ^ Z.of_nat 2) with 65536 in * | change (256 ^ Z.of_nat 4) with 4294967296 in *]; lia.
Qed.
Lemma script_from_bytes_err b e : script_from_bytes b = Err e <->
  (exists r n, e = E_InsufficientData r n /\ script_parse b = Err e) \/
  (e = E_AttributeError /\ exists l, Forall data_ba l /\ wire_script (map content l) b /\ breaks_classify l).
Proof.
  unfold script_from_bytes, script_create. split.
  - destruct (script_parse b) as [l|e'] eqn:P.
    + cbn [bind]. intros H. right. destruct (classify l) as [c|e'] eqn:C; [discriminate|]. cbn [bind] in H. injection H as <-.
      apply classify_err in C. destruct C as [-> C]. apply script_parse_ok in P. split; [reflexivity|]. exists l. tauto.
    + cbn [bind]. intros [= ->]. left. destruct (script_parse_err _ _ P) as [_ [r [n [-> _]]]]. eauto.
  - intros [[r [n [-> P]]]|[-> [l [B [W C]]]]].
    + rewrite P. reflexivity.
    + rewrite (proj2 (script_parse_ok _ _) (conj W B)). cbn [bind]. rewrite (proj2 (classify_err l _) (conj eq_refl C)). reflexivity.
Qed.
Lemma script_total_bytes l : Forall well_formed l -> exists w, wire_script (map content l) w.
Proof.
  induction 1 as [|i l W H [w IH]]; [exists []; constructor|].
  assert (X : exists v, wire (content i) v).
  { destruct i as [o [d|]]; unfold well_formed, push_length in W; cbn [i_op i_data] in W; unfold content; cbn [i_op i_data option_map].
    - destruct (Z_le_dec (bZ o) 75).
      + exists (o :: pyb_bytes d). constructor; unfold pyb_len, blen in *; lia.
      + assert (E : exists k lb, length_width o k /\ List.length lb = k /\ le_val lb = blen (pyb_bytes d)).
        { assert (LL : forall k, List.length (le_bytes k (pyb_len d)) = k).
          { intros k. generalize (pyb_len d). induction k; intros z; cbn [le_bytes List.length]; [reflexivity | rewrite IHk; reflexivity]. }
          destruct W as [W|[W|[W|W]]]; [lia| | |].
          - exists 1%nat, (le_bytes 1 (pyb_len d)). split; [left; tauto|]. split; [apply LL|]. rewrite le_val_le_bytes.
            change (256 ^ Z.of_nat 1) with 256. rewrite Z.mod_small by lia. reflexivity.
          - exists 2%nat, (le_bytes 2 (pyb_len d)). split; [right; left; tauto|]. split; [apply LL|]. rewrite le_val_le_bytes.
            change (256 ^ Z.of_nat 2) with 65536. rewrite Z.mod_small by lia. reflexivity.
          - exists 4%nat, (le_bytes 4 (pyb_len d)). split; [right; right; tauto|]. split; [apply LL|]. rewrite le_val_le_bytes.
            change (256 ^ Z.of_nat 4) with 4294967296. rewrite Z.mod_small by lia. reflexivity. }
        destruct E as [k [lb [E1 [E2 E3]]]]. exists (o :: lb ++ pyb_bytes d). eapply wire_var; eassumption.
    - exists [o]. constructor. exact W. }
  destruct X as [v X]. exists (v ++ w). constructor; assumption.
Qed.
Lemma p2sh_in_get_script r sigs s : p2sh_in_create r sigs = Ok s -> Forall well_formed (s_ins r) -> classify (s_ins r) = Ok (s_class r) ->
  exists r', get_script s = Ok r' /\ s_class r' = s_class r /\ same_script r' r.
Proof.
  intros H W C.
  assert (G : exists rb, script_to_bytes r = Ok rb /\ get_script s = script_from_bytes rb).
  { unfold p2sh_in_create in H. apply bind_ok in H. destruct H as [rb [K H]]. exists rb. split; [exact K|].
    apply sub_create_inv in H. destruct H as [_ H]. rewrite app_assoc in H. apply Forall2_app_inv_l in H.
    destruct H as [a [c [_ [H E0]]]]. inversion H as [|? x ? y H1 H2]; subst. inversion H2; subst.
    apply to_instruction_bytes in H1. destruct H1 as [? [? [? [D _]]]].
    unfold get_script. rewrite E0.
    rewrite rev_app_distr. cbn [rev app]. rewrite D. reflexivity. }
  destruct G as [rb [K G]]. destruct (to_bytes_inv _ _ W K) as [N _].
  destruct (script_bytes_roundtrip (s_ins r) (s_class r) W N C) as [b [s' [E1 [E2 [E3 E4]]]]].
  assert (b = rb) by (unfold script_to_bytes in *; cbn [s_ins] in E1; congruence). subst b. exists s'. rewrite G. split; [exact E2|]. split; [exact E3|].
  unfold same_script in *. exact E4.
Qed.
Lemma classify_not_total : exists b c, wire_script c b /\ script_from_bytes b = Err E_AttributeError.
Proof.
  exists [x01; x61; x51; x51; x51], (map content [Instr x01 (Some (BA [x61])); Instr x51 None; Instr x51 None; Instr x51 None]).
  split; [|reflexivity]. apply script_parse_ok. reflexivity.
Qed.
Lemma empty_text : script_to_string (Script None []) = Ok [] /\ script_from_string [] = Err E_Scr_UnknownOpcodeName.
Proof. split; reflexivity. Qed.

(** ** Names of short pushes, hexadecimal text, hash and address of a script *)

Lemma push_name_decimal o : 1 <= bZ o <= 75 ->
  exists t, decimal t (bZ o) /\ op_name o = Ok (txt "_PUSH_" ++ t ++ txt "_BYTES").
Proof. intros R. exists (dec (bZ o)). split; [apply dec_decimal; lia|]. unfold op_name. apply const_push_spec in R. rewrite R. reflexivity. Qed.

Lemma script_hex s h : script_to_hex s = Ok h <->
  exists b, script_to_bytes s = Ok b /\ hex_text h b /\ map lower h = h.
Proof.
  unfold script_to_hex. rewrite bind_ok. split.
  - intros (b & E & H). injection H as <-. exists b. split; [exact E|]. split; [apply encode_hex_text|].
    destruct (decode_hex_ok (encode_hex b) b (decode_encode_hex b)) as (_ & _ & M). symmetry. exact M.
  - intros (b & E & T & L). exists b. split; [exact E|]. apply decode_hex_iff in T.
    destruct (decode_hex_ok _ _ T) as (_ & _ & M). rewrite M, L. reflexivity.
Qed.
Lemma script_hash s h : script_to_hash s = Ok h <->
  exists b, script_to_bytes s = Ok b /\ h = ripemd160 (sha256 b).
Proof.
  unfold script_to_hash. rewrite bind_ok. split; intros (b & E & H); exists b; split; try exact E; congruence.
Qed.

Lemma from_script_address s n b : known n -> script_to_bytes s = Ok b ->
  addr_from_script s (VNet n) = Ok (Address (Str (ripemd160 (sha256 b))) n T_Script).
Proof.
  intros K E. unfold addr_from_script. rewrite E. cbn [bind]. apply new_address_ok.
  exists n, T_Script. split; [apply find_net|]. split; [reflexivity|]. split; [apply ripemd160_length | reflexivity].
Qed.
Lemma from_script_text s n b : known n -> script_to_bytes s = Ok b ->
  exists a t, addr_from_script s (VNet n) = Ok a /\ addr_to_string a = Ok t /\ addr_from_string t = Ok a.
Proof.
  intros K E. pose proof (from_script_address s n b K E) as A. eexists. 
  destruct (addr_string_roundtrip (Address (Str (ripemd160 (sha256 b))) n T_Script)) as (t & T & F).
  - split; [exact K|]. eexists. split; [reflexivity|]. apply ripemd160_length.
  - exists t. split; [exact A|]. split; assumption.
Qed.
Lemma from_script_pays s n a : known n -> addr_from_script s (VNet n) = Ok a ->
  exists o, p2sh_out_create s = Ok o /\ get_script_hash o = Ok (Some (a_phash a)).
Proof.
  intros K H. unfold addr_from_script in H. rewrite bind_ok in H. destruct H as (b & E & H).
  apply new_address_ok in H as (n' & t & _ & _ & L & ->).
  assert (T : exists o, p2sh_out_create s = Ok o).
  { unfold p2sh_out_create, script_to_hash, sub_create. rewrite E. cbn [bind to_instructions].
    destruct (to_instruction_bytes_ok (ripemd160 (sha256 b))) as [i I]; [unfold blen; rewrite ripemd160_length; lia|]. rewrite I.
    rewrite !to_instruction_op_ok by (unfold pushes; vm_compute; intuition discriminate). cbn [bind]. eauto. }
  destruct T as (o & O). exists o. split; [exact O|].
  destruct (p2sh_out_ok _ _ O) as (rb & RB & _ & _ & G). rewrite G. cbn [a_phash]. rewrite RB in E. injection E as <-. reflexivity.
Qed.
