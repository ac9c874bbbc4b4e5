From Verif Require Import Base M_Hash M_Codec M_Keys M_EC M_Script M_Tx M_HD M_Obj S_Keys S_Script S_Obj P_Script P_PubTx.
Open Scope Z_scope.

(** induction through the lists *)
Fixpoint pyv_ind2 (P : pyv -> Prop)
  (Hn : P VNone) (Hb : forall b, P (VBool b)) (Hz : forall z, P (VInteger z)) (Ht : forall t, P (VString t))
  (Hs : forall p, P (VBytes p)) (Ho : forall x n, P (VOpcode x n)) (Hi : forall x n d, P (VInstr x n d))
  (Hy : forall t, P (VType t)) (Hu : forall c l, Forall P l -> P (VTuple c l))
  (Hl : forall l, Forall P l -> P (VList l)) (v : pyv) {struct v} : P v :=
  let rec := pyv_ind2 P Hn Hb Hz Ht Hs Ho Hi Hy Hu Hl in
  let all := (fix all (l : list pyv) : Forall P l :=
                match l with [] => Forall_nil P | x :: r => Forall_cons x (rec x) (all r) end) in
  match v with
  | VNone => Hn | VBool b => Hb b | VInteger z => Hz z | VString t => Ht t | VBytes p => Hs p
  | VOpcode x n => Ho x n | VInstr x n d => Hi x n d | VType t => Hy t
  | VTuple c l => Hu c l (all l) | VList l => Hl l (all l)
  end.

Lemma codes_eqb_eq a : forall b, codes_eqb a b = true <-> a = b.
Proof.
  induction a as [|x a IH]; intros [|y b]; cbn [codes_eqb]; try (split; congruence).
  rewrite andb_true_iff, IH, Z.eqb_eq. split; [intros (-> & ->); reflexivity|intros E; injection E; auto].
Qed.
Lemma codes_eqb_refl a : codes_eqb a a = true.
Proof. apply codes_eqb_eq; reflexivity. Qed.

Lemma pyb_eqb_iff p q : pyb_eqb p q = true <-> pyb_bytes p = pyb_bytes q.
Proof. unfold pyb_eqb. apply bytes_eqb_eq. Qed.
Lemma pyb_eqb_refl p : pyb_eqb p p = true.
Proof. apply pyb_eqb_iff; reflexivity. Qed.
Lemma bool_iff (a b : bool) : (a = true <-> b = true) -> a = b.
Proof. destruct a, b; intuition congruence. Qed.
Lemma pyb_eqb_sym p q : pyb_eqb p q = pyb_eqb q p.
Proof. apply bool_iff. rewrite !pyb_eqb_iff. split; congruence. Qed.
Lemma codes_eqb_sym a b : codes_eqb a b = codes_eqb b a.
Proof. apply bool_iff. rewrite !codes_eqb_eq. split; congruence. Qed.

Lemma data_eqb_iff d e : data_eqb d e = true <-> option_map pyb_bytes d = option_map pyb_bytes e.
Proof.
  destruct d, e; cbn [data_eqb option_map]; try (split; congruence).
  rewrite pyb_eqb_iff. split; congruence.
Qed.
Lemma data_eqb_sym d e : data_eqb d e = data_eqb e d.
Proof. destruct d, e; cbn [data_eqb]; auto using pyb_eqb_sym. Qed.
Lemma data_eqb_refl d : data_eqb d d = true.
Proof. destruct d; cbn [data_eqb]; auto using pyb_eqb_refl. Qed.
Lemma data_leaf d e : leaf_eqb (data_val d) (data_val e) = data_eqb d e.
Proof. destruct d as [[|]|], e as [[|]|]; reflexivity. Qed.

Lemma leaf_eqb_refl v : simple v -> (forall l, v <> VList l) -> leaf_eqb v v = true.
Proof.
  destruct v as [|[]| | |p| | |t| |]; cbn [simple leaf_eqb]; intros S L; try reflexivity; try tauto.
  - apply Z.eqb_refl.
  - apply codes_eqb_refl.
  - destruct p; apply pyb_eqb_refl.
  - destruct t; reflexivity.
  - exfalso. eapply L; reflexivity.
Qed.

Lemma leaf_eqb_sym a b : leaf_eqb a b = leaf_eqb b a.
Proof.
  destruct a as [|x|z|t|[s|s]|x n|x n d|ty|c l|l], b as [|x'|z'|t'|[s'|s']|x' n'|x' n' d'|ty'|c' l'|l']; try reflexivity;
    cbn [leaf_eqb]; auto using Z.eqb_sym, codes_eqb_sym, pyb_eqb_sym.
  destruct ty, ty'; reflexivity.
Qed.

(** the inner loop is [items_cmp] *)
Lemma loop_eq sw l : forall m,
  (fix loop (sw : bool) (l m : list pyv) {struct l} : res bool :=
     match l, m with
     | [], [] => Ok true
     | x :: l', y :: m' => let! e := py_cmp sw x y in if (e : bool) then loop sw l' m' else Ok false
     | _, _ => Ok false
     end) sw l m = items_cmp sw l m.
Proof.
  reflexivity.
Qed.

Lemma cmp_tuples sw c l d m : py_cmp sw (VTuple c l) (VTuple d m)
  = items_cmp (if (if sw then strict_sub c d else strict_sub d c) then negb sw else sw) l m.
Proof. cbn [py_cmp]. apply loop_eq. Qed.
Lemma cmp_lists sw l m : py_cmp sw (VList l) (VList m)
  = if negb (blen l =? blen m) then Ok false else items_cmp sw l m.
Proof. cbn [py_cmp]. rewrite loop_eq. reflexivity. Qed.
Lemma cmp_tuple_instr c l y m e : c <> K_tuple ->
  py_cmp false (VTuple c l) (VInstr y m e) = items_cmp false l [VOpcode y m; data_val e].
Proof. intros C. cbn [py_cmp]. destruct c; try (apply loop_eq); congruence. Qed.

Lemma cmp_opcode sw x n y m : py_cmp sw (VOpcode x n) (VOpcode y m) = Ok (n =? m).
Proof. reflexivity. Qed.
Lemma cmp_instr sw x n d y m e : py_cmp sw (VInstr x n d) (VInstr y m e) = Ok ((n =? m) && data_eqb d e).
Proof. reflexivity. Qed.

(** [==] is reflexive *)
Lemma strict_sub_irrefl c : strict_sub c c = false.
Proof. destruct c as [| |[|]|[]|[]| | | | | |]; reflexivity. Qed.

Lemma items_refl sw l : Forall (fun v => forall sw, py_cmp sw v v = Ok true) l -> items_cmp sw l l = Ok true.
Proof. induction 1 as [|v l V L IH]; [reflexivity|]. cbn [items_cmp]. rewrite V. cbn [bind]. exact IH. Qed.

Lemma cmp_refl v : forall sw, py_cmp sw v v = Ok true.
Proof.
  induction v as [|b|z|t|p|x n|x n d|t|c l IH|l IH] using pyv_ind2; intros sw.
  - reflexivity.
  - cbn [py_cmp leaf_eqb]. rewrite Z.eqb_refl. reflexivity.
  - cbn [py_cmp leaf_eqb]. rewrite Z.eqb_refl. reflexivity.
  - cbn [py_cmp leaf_eqb]. rewrite codes_eqb_refl. reflexivity.
  - cbn [py_cmp leaf_eqb]. destruct p; rewrite pyb_eqb_refl; reflexivity.
  - cbn [py_cmp leaf_eqb]. rewrite Z.eqb_refl. reflexivity.
  - rewrite cmp_instr, Z.eqb_refl, data_eqb_refl. reflexivity.
  - destruct t; reflexivity.
  - rewrite cmp_tuples. apply items_refl, IH.
  - rewrite cmp_lists, Z.eqb_refl. cbn [negb]. apply items_refl, IH.
Qed.

Lemma eq_refl_all v : py_eq v v = Ok true.
Proof. apply cmp_refl. Qed.

(** both orders give the same answer, when they give one *)
Lemma items_agree l : Forall (fun a => forall sw sw' b x y, py_cmp sw a b = Ok x -> py_cmp sw' a b = Ok y -> x = y) l ->
  forall sw sw' m x y, items_cmp sw l m = Ok x -> items_cmp sw' l m = Ok y -> x = y.
Proof.
  induction 1 as [|a l A L IH]; intros sw sw' [|b m] x y; cbn [items_cmp]; try congruence.
  destruct (py_cmp sw a b) as [p|] eqn:E; cbn [bind]; [|congruence].
  destruct (py_cmp sw' a b) as [q|] eqn:F; cbn [bind]; [|congruence].
  assert (p = q) by eauto. subst q. destruct p; [apply IH|congruence].
Qed.

Lemma cmp_agree a : forall sw sw' b x y, py_cmp sw a b = Ok x -> py_cmp sw' a b = Ok y -> x = y.
Proof.
  induction a as [|b|z|t|p|x0 n|x0 n d|t|c l IH|l IH] using pyv_ind2; intros sw sw' v x y.
  1,2,3,4,5,8: destruct v; cbn [py_cmp]; congruence.
  - destruct v, sw, sw'; cbn [py_cmp]; congruence.
  - destruct v, sw, sw'; cbn [py_cmp]; congruence.
  - destruct v as [| | | | | |y0 m e| |d m|]; try (cbn [py_cmp leaf_eqb]; congruence).
    + destruct sw, sw'; try (cbn [py_cmp]; congruence).
    + rewrite !cmp_tuples. apply items_agree, IH.
  - destruct v as [| | | | | |y0 m e| |d m|m]; try (cbn [py_cmp leaf_eqb]; congruence).
    rewrite !cmp_lists. destruct (negb _); [congruence|]. apply items_agree, IH.
Qed.

Lemma items_swap l : Forall (fun a => forall b, py_cmp true a b = py_cmp false b a /\ py_cmp false a b = py_cmp true b a) l ->
  forall sw m, items_cmp sw l m = items_cmp (negb sw) m l.
Proof.
  induction 1 as [|a l A L IH]; intros sw [|b m]; cbn [items_cmp]; try reflexivity.
  assert (E : py_cmp sw a b = py_cmp (negb sw) b a) by (destruct sw; cbn [negb]; apply A).
  rewrite E, (IH sw m). reflexivity.
Qed.

Lemma other_instr_items c m x n d : c <> K_tuple ->
  other_eq_instr (VTuple c m) n d = items_cmp false m [VOpcode x n; data_val d].
Proof.
  intros C. assert (E : other_eq_instr (VTuple c m) n d =
    match m with [] => Ok false | a :: r => let! e := item_eq_op a n in if negb e then Ok false else
      match r with [] => Ok false | b :: r' => let! e := item_eq_data b d in Ok (e && match r' with [] => true | _ => false end) end end)
    by (destruct c; try congruence; destruct m; reflexivity).
  rewrite E. destruct m as [|a r]; [reflexivity|]. cbn [items_cmp].
  assert (A : py_cmp false a (VOpcode x n) = item_eq_op a n) by (destruct a as [| | | |[]| | | | |]; reflexivity).
  rewrite A. destruct (item_eq_op a n) as [[]|]; cbn [bind negb]; try reflexivity.
  destruct r as [|b r]; [reflexivity|].
  assert (B : py_cmp false b (data_val d) = item_eq_data b d) by (destruct d as [[]|], b as [| | | |[]| | | | |]; reflexivity).
  cbn [items_cmp]. rewrite B. destruct (item_eq_data b d) as [[]|]; cbn [bind andb]; try reflexivity.
  destruct r; reflexivity.
Qed.

Lemma cmp_swap a : forall b, py_cmp true a b = py_cmp false b a /\ py_cmp false a b = py_cmp true b a.
Proof.
  induction a as [|b|z|t|p|x0 n|x0 n d|t|c l IH|l IH] using pyv_ind2; intros v.
  1,2,3,4,5,8: destruct v as [| | | |[]| | | | |]; try (split; reflexivity); cbn [py_cmp];
    try (rewrite (leaf_eqb_sym _ (VBytes _))); rewrite leaf_eqb_sym; split; reflexivity.
  - destruct v as [| | | |[]| | | | |]; try (split; reflexivity); rewrite !cmp_opcode, Z.eqb_sym; split; reflexivity.
  - destruct v as [| | | |[]| |y m e| |c m|]; try (split; reflexivity).
    + rewrite !cmp_instr, data_eqb_sym, Z.eqb_sym. split; reflexivity.
    + split; [|reflexivity]. change (other_eq_instr (VTuple c m) n d = py_cmp false (VTuple c m) (VInstr x0 n d)).
      assert (C : c = K_tuple \/ c <> K_tuple) by (destruct c; ((left; reflexivity) || (right; congruence))).
      destruct C as [->|C]; [reflexivity|]. rewrite (other_instr_items c m x0), cmp_tuple_instr by exact C. reflexivity.
  - destruct v as [| | | |[]| |y m e| |d m|]; try (split; reflexivity).
    + split; [reflexivity|]. change (py_cmp false (VTuple c l) (VInstr y m e) = other_eq_instr (VTuple c l) m e).
      assert (C : c = K_tuple \/ c <> K_tuple) by (destruct c; ((left; reflexivity) || (right; congruence))).
      destruct C as [->|C]; [reflexivity|]. rewrite (other_instr_items c l y), cmp_tuple_instr by exact C. reflexivity.
    + rewrite !cmp_tuples. split; rewrite (items_swap _ IH); f_equal; destruct (strict_sub _ _); reflexivity.
  - destruct v as [| | | |[]| |y m e| |d m|m]; try (split; reflexivity).
    rewrite !cmp_lists, (Z.eqb_sym (blen l)). destruct (negb (blen m =? blen l)); [split; reflexivity|].
    split; apply (items_swap _ IH).
Qed.

(** which operand is asked first *)
Lemma sub_derives c d : strict_sub c d = true <-> derives c d.
Proof.
  split.
  - destruct c as [| |[x|]|[]|[]| | | | | |], d as [| |[y|]|[]|[]| | | | | |]; cbn [strict_sub]; intros E; try discriminate E;
      solve [apply Derives_base; constructor | eapply Derives_step; [constructor|]; apply Derives_base; constructor
            | eapply Derives_step; [constructor|]; eapply Derives_step; [constructor|]; apply Derives_base; constructor].
  - induction 1 as [c d D|c d e D DE IH].
    + destruct D; reflexivity.
    + destruct D; destruct e as [| |[y|]|[]|[]| | | | | |]; cbn [strict_sub] in IH |- *; congruence.
Qed.
Lemma items_pairwise (sw : bool) f : (forall a b, py_cmp sw a b = f a b) -> forall l m, items_cmp sw l m = pairwise f l m.
Proof.
  intros F. induction l as [|a l IH]; intros [|b m]; cbn [items_cmp pairwise]; try reflexivity.
  rewrite F. destruct (f a b) as [[]|]; cbn [bind]; auto.
Qed.
Lemma items_straight l m : items_cmp false l m = pairwise py_eq l m.
Proof. apply items_pairwise. reflexivity. Qed.
Lemma items_turned l m : items_cmp true l m = pairwise (fun a b => py_eq b a) l m.
Proof. apply items_pairwise. intros a b. apply cmp_swap. Qed.
Lemma tuple_derived c l d m : derives d c -> py_eq (VTuple c l) (VTuple d m) = pairwise (fun a b => py_eq b a) l m
  /\ py_ne (VTuple c l) (VTuple d m) = inv (pairwise (fun a b => py_eq b a) l m).
Proof.
  intros D. apply sub_derives in D. unfold py_eq, py_ne. rewrite cmp_tuples. cbn [items sub_val].
  rewrite D. cbn [negb]. rewrite items_turned. split; [reflexivity|]. destruct (pairwise _ l m); reflexivity.
Qed.
Lemma tuple_other c l d m : ~ derives d c -> py_eq (VTuple c l) (VTuple d m) = pairwise py_eq l m
  /\ py_ne (VTuple c l) (VTuple d m) = inv (pairwise py_eq l m).
Proof.
  intros D. rewrite <- sub_derives in D. apply not_true_is_false in D. unfold py_ne. unfold py_eq at 1. rewrite cmp_tuples. cbn [items sub_val].
  rewrite D, items_straight. split; [reflexivity|]. destruct (pairwise _ l m); reflexivity.
Qed.
Lemma list_eq l m : py_eq (VList l) (VList m) = if Nat.eqb (List.length l) (List.length m) then pairwise py_eq l m else Ok false.
Proof.
  unfold py_eq at 1. rewrite cmp_lists. unfold blen.
  destruct (Nat.eqb_spec (List.length l) (List.length m)) as [E|E].
  - rewrite E, Z.eqb_refl. apply items_straight.
  - destruct (Z.eqb_spec (Z.of_nat (List.length l)) (Z.of_nat (List.length m))); [lia|reflexivity].
Qed.
Lemma tuple_instr c l x n d : c <> K_tuple -> py_eq (VTuple c l) (VInstr x n d) = pairwise py_eq l [VOpcode x n; data_val d]
  /\ py_eq (VInstr x n d) (VTuple c l) = Err E_AttributeError.
Proof.
  intros C. split; [|reflexivity]. unfold py_eq at 1. rewrite cmp_tuple_instr by exact C. apply items_straight.
Qed.
Lemma tuple_instr_ne c l x n d : c <> K_tuple -> py_ne (VTuple c l) (VInstr x n d) = inv (pairwise py_eq l [VOpcode x n; data_val d])
  /\ py_ne (VInstr x n d) (VTuple c l) = inv (pairwise py_eq [VOpcode x n; data_val d] l).
Proof.
  intros C. unfold py_ne. cbn [items]. replace (sub_val (VInstr x n d) (VTuple c l)) with false by (destruct c; [congruence|reflexivity..]).
  cbn [sub_val]. rewrite !items_straight. split; destruct (pairwise _ _ _); reflexivity.
Qed.
Lemma plain_instr_ne l x n d : py_ne (VTuple K_tuple l) (VInstr x n d) = inv (pairwise (fun a b => py_eq b a) l [VOpcode x n; data_val d])
  /\ py_ne (VInstr x n d) (VTuple K_tuple l) = inv (pairwise py_eq [VOpcode x n; data_val d] l).
Proof.
  unfold py_ne. cbn [items sub_val]. rewrite items_turned, items_straight. split; destruct (pairwise _ _ _); reflexivity.
Qed.

Lemma eq_sym_all a b x y : py_eq a b = Ok x -> py_eq b a = Ok y -> x = y.
Proof. unfold py_eq. rewrite <- (proj1 (cmp_swap a b)). apply cmp_agree. Qed.

Lemma eq_sym_refuted : exists a b, py_eq a b = Ok false /\ py_eq b a = Err E_AttributeError.
Proof. exists (VOpcode 1 81), (VInstr 2 81 None). split; reflexivity. Qed.

Lemma eq_trans_refuted : exists a b c, py_eq a b = Ok true /\ py_eq b c = Ok true /\ py_eq a c = Ok false.
Proof. exists (VString [97]), (VBytes (Str [x61])), (VBytes (BA [x61])). split; [|split]; reflexivity. Qed.

(** ** [!=] *)
Lemma ne_of_eq a b x : ~ is_opcode a -> ~ is_opcode b -> py_eq a b = Ok x -> py_ne a b = Ok (negb x).
Proof.
  intros A B. unfold py_eq.
  destruct a as [| | | |p|ax an|ax an ad| |c l|l]; try (exfalso; apply A; unfold is_opcode; eauto; fail);
  destruct b as [| | | |q|bx bn|bx bn bd| |c' l'|l']; try (exfalso; apply B; unfold is_opcode; eauto; fail);
    try (intros E; unfold py_ne, py_eq; cbn [items]; rewrite ?E; first [reflexivity | injection E as <-; reflexivity | discriminate E]).
  - destruct p; intros E; injection E as <-; reflexivity.
  - rewrite cmp_instr. intros E. injection E as <-. unfold py_ne. cbn [items sub_val items_cmp]. rewrite cmp_opcode. cbn [bind].
    destruct (an =? bn); cbn [andb]; [|reflexivity].
    assert (D : py_cmp false (data_val ad) (data_val bd) = Ok (leaf_eqb (data_val ad) (data_val bd)))
      by (destruct ad as [[]|], bd as [[]|]; reflexivity).
    rewrite D, data_leaf. cbn [bind]. destruct (data_eqb ad bd); reflexivity.
  - assert (C : c = K_tuple \/ c <> K_tuple) by (destruct c; ((left; reflexivity) || (right; congruence))).
    destruct C as [->|C]; [discriminate|]. rewrite cmp_tuple_instr by exact C. intros E.
    unfold py_ne. cbn [items]. replace (sub_val (VInstr bx bn bd) (VTuple c l)) with false by (destruct c; [congruence|reflexivity..]).
    rewrite E. reflexivity.
  - rewrite cmp_tuples. cbn [negb]. intros E. unfold py_ne. cbn [items sub_val].
    destruct (strict_sub c' c); rewrite E; reflexivity.
Qed.

Lemma ne_opcode x n y m : py_ne (VOpcode x n) (VOpcode y m) = Ok true <-> x <> y.
Proof. cbn [py_ne]. rewrite <- Z.eqb_neq. destruct (x =? y); cbn [negb]; split; congruence. Qed.

Lemma ne_opcode_other x n v : ~ is_opcode v -> py_ne (VOpcode x n) v = Ok true /\ py_ne v (VOpcode x n) = Ok true.
Proof.
  intros H. destruct v; try (split; reflexivity). exfalso. apply H. eexists _, _. reflexivity.
Qed.
Lemma ne_refuted : exists a b, py_eq a b = Ok true /\ py_ne a b = Ok true.
Proof. exists (VOpcode 1 81), (VOpcode 2 81). split; reflexivity. Qed.

Lemma instr_other x n d v : simple v ->
  py_eq (VInstr x n d) v = Err E_AttributeError /\ py_eq v (VInstr x n d) = Err E_AttributeError
  /\ py_ne (VInstr x n d) v = Ok true /\ py_ne v (VInstr x n d) = Ok true.
Proof. destruct v; cbn [simple]; intros S; try tauto; repeat split; reflexivity. Qed.

Lemma instr_tuple x n d l :
  py_eq (VInstr x n d) (VTuple K_tuple l) = Err E_AttributeError
  /\ py_eq (VTuple K_tuple l) (VInstr x n d) = Err E_AttributeError.
Proof. split; reflexivity. Qed.

(** ** opcodes *)
Lemma opcode_eq x n v : py_eq (VOpcode x n) v = Ok true <-> exists y, v = VOpcode y n.
Proof.
  unfold py_eq. destruct v; cbn [py_cmp leaf_eqb]; try (split; [congruence|intros (? & E); discriminate E]).
  split.
  - intros E. injection E as E. apply Z.eqb_eq in E. subst. eauto.
  - intros (y & E). injection E as -> ->. rewrite Z.eqb_refl. reflexivity.
Qed.
Lemma opcode_eq_total x n v : (exists b, py_eq (VOpcode x n) v = Ok b).
Proof. unfold py_eq. destruct v; cbn [py_cmp]; eauto. Qed.

Lemma opcode_order n y m :
  (op_lt n (VOpcode y m) = true <-> n < m) /\ (op_le n (VOpcode y m) = true <-> n <= m)
  /\ (op_gt n (VOpcode y m) = true <-> n > m) /\ (op_ge n (VOpcode y m) = true <-> n >= m).
Proof. unfold op_gt, op_le, op_ge, op_lt, op_eq. lia. Qed.
Lemma opcode_above n v : ~ is_opcode v ->
  op_lt n v = false /\ op_le n v = false /\ op_gt n v = true /\ op_ge n v = true.
Proof. intros V. destruct v; try (repeat split; reflexivity). exfalso. apply V. unfold is_opcode. eauto. Qed.

(** the model of scripts compares opcodes and instructions the same way *)
Lemma op_eqb_val x y a b : py_eq (VOpcode x (bZ a)) (VOpcode y (bZ b)) = Ok (op_eqb a b).
Proof. reflexivity. Qed.
Lemma instr_eqb_val u v i j : is_instr u i -> is_instr v j -> py_eq u v = Ok (instr_eqb i j).
Proof. intros (x & ->) (y & ->). reflexivity. Qed.

(** ** objects *)
Lemma decides_Ok b P : (b = true <-> P) -> decides (Ok b) P.
Proof. intros H. exists b. auto. Qed.
Lemma decides_iff r P Q : decides r P -> (P <-> Q) -> decides r Q.
Proof. intros (b & E & H) PQ. exists b. split; [exact E|]. rewrite H. exact PQ. Qed.

Lemma items_one sw a b l m P Q : decides (py_cmp sw a b) P -> decides (items_cmp sw l m) Q ->
  decides (items_cmp sw (a :: l) (b :: m)) (P /\ Q).
Proof.
  intros (x & E & HP) (y & F & HQ). cbn [items_cmp]. rewrite E. cbn [bind]. destruct x.
  - rewrite F. exists y. split; [reflexivity|]. tauto.
  - exists false. split; [reflexivity|]. split; [discriminate|]. intros (X & _). apply HP in X. discriminate X.
Qed.
Lemma items_end sw : decides (items_cmp sw [] []) True.
Proof. exists true. split; [reflexivity|tauto]. Qed.

Lemma items_forall {A} (R : pyv -> A -> Prop) (S : A -> A -> Prop) (D : A -> Prop) :
  (forall sw u v i j, R u i -> R v j -> D i -> decides (py_cmp sw u v) (S i j)) ->
  forall sw l is, Forall2 R l is -> forall m js, Forall2 R m js -> Forall D is -> decides (items_cmp sw l m) (Forall2 S is js).
Proof.
  intros H sw l is L. induction L as [|u i l is U L IH]; intros m js M DD.
  - inversion M; subst.
    + eapply decides_iff; [apply items_end|]. split; auto.
    + apply decides_Ok. split; [discriminate|]. intros X. inversion X.
  - inversion M as [|v j m' js' V M']; subst.
    + apply decides_Ok. split; [discriminate|]. intros X. inversion X.
    + inversion DD; subst. eapply decides_iff; [apply items_one; [apply H; eauto|apply IH; eauto]|].
      split; [intros (X & Y); constructor; auto|intros X; inversion X; auto].
Qed.

Lemma cmp_int sw x y : decides (py_cmp sw (VInteger x) (VInteger y)) (x = y).
Proof. apply decides_Ok. cbn [leaf_eqb]. apply Z.eqb_eq. Qed.
Lemma cmp_bool sw x y : decides (py_cmp sw (VBool x) (VBool y)) (x = y).
Proof. apply decides_Ok. destruct x, y; cbn; split; congruence. Qed.
Lemma map_bZ_inj a : forall b, map bZ a = map bZ b -> a = b.
Proof.
  induction a as [|x a IH]; intros [|y b]; cbn [map]; try congruence. intros E. injection E as E F.
  apply bZ_inj in E. rewrite E, (IH b F). reflexivity.
Qed.
Lemma cmp_text sw a b : decides (py_cmp sw (text_val a) (text_val b)) (a = b).
Proof.
  unfold text_val. apply decides_Ok. cbn [leaf_eqb]. rewrite codes_eqb_eq. split; [apply map_bZ_inj|congruence].
Qed.
Lemma cmp_bytes sw p q : decides (py_cmp sw (VBytes p) (VBytes q)) (pyb_bytes p = pyb_bytes q).
Proof. apply decides_Ok. destruct p, q; apply pyb_eqb_iff. Qed.
Lemma cmp_type sw s t : decides (py_cmp sw (VType s) (VType t)) (s = t).
Proof. apply decides_Ok. destruct s, t; cbn; split; congruence. Qed.

Lemma cmp_texts sw a b : decides (py_cmp sw (VList (map text_val a)) (VList (map text_val b))) (a = b).
Proof.
  rewrite cmp_lists. unfold blen. rewrite !map_length.
  destruct (Z.of_nat (length a) =? Z.of_nat (length b)) eqn:L; cbn [negb].
  - clear L. revert b. induction a as [|x a IH]; intros [|y b]; cbn [map].
    + eapply decides_iff; [apply items_end|tauto].
    + apply decides_Ok. split; congruence.
    + apply decides_Ok. split; congruence.
    + eapply decides_iff; [apply items_one; [apply cmp_text|apply IH]|].
      split; [intros (-> & ->); reflexivity|intros E; injection E; auto].
  - apply decides_Ok. split; [discriminate|]. intros ->. apply Z.eqb_neq in L. congruence.
Qed.

Lemma cmp_network sw a b : decides (py_cmp sw (network_val a) (network_val b)) (a = b).
Proof.
  unfold network_val. rewrite cmp_tuples, strict_sub_irrefl.
  assert (E : (if (if sw then false else false) then negb sw else sw) = sw) by (destruct sw; reflexivity). rewrite E.
  eapply decides_iff.
  - repeat first [apply items_end | apply items_one; [first [apply cmp_int|apply cmp_text|apply cmp_texts]|]].
  - destruct a as [a1 a2 a3 a4 a5 a6 a7 a8 a9], b as [b1 b2 b3 b4 b5 b6 b7 b8 b9]. cbn [n_name n_pubkeyhash n_wif_prefix n_scripthash n_hd_public_key n_hd_private_key n_magic n_port n_seeds].
    split.
    + intros (-> & -> & -> & -> & -> & -> & -> & -> & -> & _). reflexivity.
    + intros E'. injection E'. intros. subst. repeat split.
Qed.

Lemma same_class sw (c : tclass) l m P : decides (items_cmp sw l m) P -> decides (py_cmp sw (VTuple c l) (VTuple c m)) P.
Proof.
  rewrite cmp_tuples, strict_sub_irrefl.
  assert (E : (if (if sw then false else false) then negb sw else sw) = sw) by (destruct sw; reflexivity). rewrite E. auto.
Qed.

Lemma cmp_privkey sw a b : decides (py_cmp sw (privkey_val a) (privkey_val b)) (a = b).
Proof.
  unfold privkey_val. apply same_class. eapply decides_iff.
  - repeat first [apply items_end | apply items_one; [first [apply cmp_int|apply cmp_network|apply cmp_bool]|]].
  - destruct a as [a1 a2 a3], b as [b1 b2 b3]. cbn [k_secret k_network k_compressed]. split.
    + intros (-> & -> & -> & _). reflexivity.
    + intros E'. injection E'. intros. subst. repeat split.
Qed.

Lemma cmp_pubkey sw a b : decides (py_cmp sw (pubkey_val a) (pubkey_val b)) (a = b).
Proof.
  unfold pubkey_val. apply same_class. eapply decides_iff.
  - repeat first [apply items_end | apply items_one; [first [apply cmp_int|apply cmp_network|apply cmp_bool|apply same_class]|]].
  - destruct a as [(ax & ay) a2 a3], b as [(bx & b_y) b2 b3]. cbn [pk_pair pk_network pk_compressed fst snd]. split.
    + intros ((-> & -> & _) & -> & -> & _). reflexivity.
    + intros E'. injection E'. intros. subst. repeat split.
Qed.

Lemma cmp_address sw a b : decides (py_cmp sw (address_val a) (address_val b)) (same_address a b).
Proof.
  unfold address_val. apply same_class. eapply decides_iff.
  - repeat first [apply items_end | apply items_one; [first [apply cmp_bytes|apply cmp_network|apply cmp_type]|]].
  - unfold same_address. tauto.
Qed.

Lemma cmp_hdpriv sw a b : decides (py_cmp sw (hdpriv_val a) (hdpriv_val b)) (a = b).
Proof.
  unfold hdpriv_val. apply same_class. eapply decides_iff.
  - repeat first [apply items_end | apply items_one; [first [apply cmp_int|apply cmp_network|apply cmp_privkey|apply cmp_bytes]|]].
  - destruct a as [a1 a2 a3 a4 a5 a6 a7], b as [b1 b2 b3 b4 b5 b6 b7]. cbn [hv_privkey hv_chain hv_depth hv_index hv_parent hv_network hv_fingerprint pyb_bytes]. split.
    + intros (-> & -> & -> & -> & -> & -> & -> & _). reflexivity.
    + intros E'. injection E'. intros. subst. repeat split.
Qed.
Lemma cmp_hdpub sw a b : decides (py_cmp sw (hdpub_val a) (hdpub_val b)) (a = b).
Proof.
  unfold hdpub_val. apply same_class. eapply decides_iff.
  - repeat first [apply items_end | apply items_one; [first [apply cmp_int|apply cmp_network|apply cmp_pubkey|apply cmp_bytes]|]].
  - destruct a as [a1 a2 a3 a4 a5 a6 a7], b as [b1 b2 b3 b4 b5 b6 b7]. cbn [hp_pubkey hp_chain hp_depth hp_index hp_parent hp_network hp_fingerprint pyb_bytes]. split.
    + intros (-> & -> & -> & -> & -> & -> & -> & _). reflexivity.
    + intros E'. injection E'. intros. subst. repeat split.
Qed.

Lemma cmp_instrs sw u v i j : is_instr u i -> is_instr v j -> decides (py_cmp sw u v) (same_instr i j).
Proof.
  intros (x & ->) (y & ->). rewrite cmp_instr. apply decides_Ok. unfold same_instr, content.
  rewrite andb_true_iff, Z.eqb_eq, bZ_eq_iff, data_eqb_iff. split; [intros (-> & ->); reflexivity|intros E; injection E; auto].
Qed.

Lemma Forall_True {A} (l : list A) : Forall (fun _ => True) l.
Proof. induction l; constructor; auto. Qed.

Lemma same_instrs s t : same_script s t <-> Forall2 same_instr (s_ins s) (s_ins t).
Proof.
  unfold same_script. generalize (s_ins s) (s_ins t). intros l. induction l as [|i l IH]; intros [|j m]; cbn [map].
  - split; auto.
  - split; [discriminate|intros X; inversion X].
  - split; [discriminate|intros X; inversion X].
  - split.
    + intros E. injection E as E F G. constructor; [unfold same_instr, content; congruence|apply IH; exact G].
    + intros X. inversion X as [|? ? ? ? A B]; subst. f_equal; [exact A|apply IH; exact B].
Qed.

Lemma cmp_script sw u v s t : is_script u s -> is_script v t -> decides (py_cmp sw u v) (same_script s t).
Proof.
  intros (l & -> & L) (m & -> & M). rewrite cmp_tuples. match goal with |- decides (items_cmp ?e _ _) _ => set (sw' := e) end. clearbody sw'.
  eapply decides_iff.
  - apply items_one; [apply same_class|apply items_end].
    refine (items_forall is_instr same_instr (fun _ => True) _ sw' l _ L m _ M (Forall_True _)).
    intros. apply cmp_instrs; assumption.
  - rewrite same_instrs. tauto.
Qed.

Lemma ascii_forallb a : ascii a -> forallb (fun b => bZ b <? 128) a = true.
Proof. unfold ascii. rewrite Forall_forall, forallb_forall. intros H x X. apply H in X. lia. Qed.

Lemma str_text a b : ascii a -> (str_text_eqb b (map bZ a) = true <-> a = b) /\ (str_text_eqb a (map bZ b) = true <-> a = b).
Proof.
  intros A. unfold str_text_eqb. rewrite (ascii_forallb a A). rewrite !andb_true_iff, !codes_eqb_eq. split; split.
  - intros (_ & E). apply map_bZ_inj in E. congruence.
  - intros <-. auto using ascii_forallb.
  - intros (_ & E). apply map_bZ_inj in E. congruence.
  - intros <-. auto.
Qed.

Lemma cmp_id sw u v a b : is_id u a -> is_id v b -> ascii a -> decides (py_cmp sw u v) (a = b).
Proof.
  intros [-> | ->] [-> | ->] A.
  - apply (cmp_text sw a b).
  - apply decides_Ok. apply (str_text a b A).
  - apply decides_Ok. apply (str_text a b A).
  - eapply decides_iff; [apply cmp_bytes|]. cbn [pyb_bytes]. tauto.
Qed.

Lemma cmp_input sw u v a b : is_input u a -> is_input v b -> ascii (in_tx_id a) -> decides (py_cmp sw u v) (same_input a b).
Proof.
  intros (id & s & -> & I & S) (id' & s' & -> & I' & S') A. rewrite cmp_tuples. match goal with |- decides (items_cmp ?e _ _) _ => set (sw' := e) end. clearbody sw'.
  eapply decides_iff.
  - apply items_one; [eapply cmp_id; eauto|]. apply items_one; [apply cmp_int|].
    apply items_one; [eapply cmp_script; eauto|]. apply items_one; [apply cmp_int|apply items_end].
  - unfold same_input. tauto.
Qed.

Lemma cmp_output sw u v a b : is_output u a -> is_output v b -> decides (py_cmp sw u v) (same_output a b).
Proof.
  intros (s & -> & S) (s' & -> & S'). rewrite cmp_tuples. match goal with |- decides (items_cmp ?e _ _) _ => set (sw' := e) end. clearbody sw'.
  eapply decides_iff.
  - apply items_one; [apply cmp_int|]. apply items_one; [eapply cmp_script; eauto|apply items_end].
  - unfold same_output. tauto.
Qed.

Lemma cmp_tx sw u v a b : is_tx u a -> is_tx v b -> ascii_ids a -> decides (py_cmp sw u v) (same_tx a b).
Proof.
  intros (l & m & -> & L & M) (l' & m' & -> & L' & M') A. apply same_class. eapply decides_iff.
  - apply items_one; [apply same_class|apply items_one; [apply same_class|]].
    + refine (items_forall is_input same_input (fun i => ascii (in_tx_id i)) _ sw l _ L l' _ L' A).
      intros. apply cmp_input; assumption.
    + refine (items_forall is_output same_output (fun _ => True) _ sw m _ M m' _ M' (Forall_True _)).
      intros. apply cmp_output; assumption.
    + apply items_one; [apply cmp_int|]. apply items_one; [apply cmp_int|apply items_end].
  - unfold same_tx. tauto.
Qed.

(** ** hashing *)
Fixpoint hashes (h : hasher) (l : list pyv) : res (list Z) :=
  match l with
  | [] => Ok []
  | x :: r => let! k := py_hash h x in let! ks := hashes h r in Ok (k :: ks)
  end.
Lemma hash_tuple h c l : py_hash h (VTuple c l) = let! ks := hashes h l in Ok (hash_items h ks).
Proof.
  cbn [py_hash].
  match goal with |- bind (?f l) _ = _ => assert (E : f l = hashes h l) end.
  { induction l as [|v l IH]; [reflexivity|]. cbn [hashes]. rewrite <- IH. reflexivity. }
  rewrite E. reflexivity.
Qed.
Lemma hash_instr h x n d : py_hash h (VInstr x n d) = py_hash h (VTuple K_tuple [VOpcode x n; data_val d]).
Proof. destruct d as [[]|]; reflexivity. Qed.

Lemma hash_cases h v : (immutable v /\ exists k, py_hash h v = Ok k) \/ (~ immutable v /\ py_hash h v = Err E_TypeError).
Proof.
  induction v as [|b|z|t|p|x n|x n d|t|c l IH|l IH] using pyv_ind2.
  1,2,3,4,6,8: left; (split; [constructor|eexists; reflexivity]).
  - destruct p as [s|s]; [left; split; [constructor|eexists; reflexivity]|right; split; [intros X; inversion X|reflexivity]].
  - destruct d as [[s|s]|].
    + left. split; [constructor|eexists; reflexivity].
    + right. split; [intros X; inversion X|reflexivity].
    + left. split; [constructor|eexists; reflexivity].
  - assert (L : (Forall immutable l /\ exists ks, hashes h l = Ok ks) \/ (~ Forall immutable l /\ hashes h l = Err E_TypeError)).
    { induction IH as [|v l V L IH]; [left; split; [constructor|eexists; reflexivity]|]. cbn [hashes].
      destruct V as [(V & k & ->)|(V & ->)]; cbn [bind].
      - destruct IH as [(I & ks & ->)|(I & ->)]; cbn [bind].
        + left. split; [constructor; assumption|eauto].
        + right. split; [intros X; inversion X; tauto|reflexivity].
      - right. split; [intros X; inversion X; tauto|reflexivity]. }
    rewrite hash_tuple. destruct L as [(I & ks & ->)|(I & ->)]; cbn [bind].
    + left. split; [constructor; assumption|eauto].
    + right. split; [intros X; inversion X; tauto|reflexivity].
  - right. split; [intros X; inversion X|reflexivity].
Qed.

Lemma hash_ok h v : (exists k, py_hash h v = Ok k) <-> immutable v.
Proof.
  destruct (hash_cases h v) as [(I & K)|(I & E)]; [tauto|]. split; [intros (k & K); congruence|tauto].
Qed.
Lemma hash_fail h v : ~ immutable v -> py_hash h v = Err E_TypeError.
Proof. destruct (hash_cases h v) as [(I & K)|(I & E)]; tauto. Qed.

Lemma leaf_hash h a b x y : leaf_eqb a b = true -> (forall c l, a <> VTuple c l) ->
  py_hash h a = Ok x -> py_hash h b = Ok y -> x = y.
Proof.
  intros E T. destruct a as [|p|z|t|[s|s]|ax n|ax n d|ty|c l|l], b as [|q|w|u|[s'|s']|bx m|bx m e|uy|c' l'|l']; cbn [leaf_eqb] in E;
    try discriminate E; cbn [py_hash]; intros X Y; try discriminate X; try discriminate Y; injection X as <-; injection Y as <-;
    try reflexivity.
  - apply Z.eqb_eq in E. congruence.
  - apply Z.eqb_eq in E. congruence.
  - apply Z.eqb_eq in E. congruence.
  - apply Z.eqb_eq in E. congruence.
  - apply codes_eqb_eq in E. congruence.
  - unfold str_text_eqb in E. apply andb_true_iff in E. destruct E as (A & E). apply codes_eqb_eq in E. subst t.
    apply hash_ascii, A.
  - unfold str_text_eqb in E. apply andb_true_iff in E. destruct E as (A & E). apply codes_eqb_eq in E. subst u.
    symmetry. apply hash_ascii, A.
  - apply pyb_eqb_iff in E. cbn [pyb_bytes] in E. congruence.
  - apply Z.eqb_eq in E. congruence.
  - destruct ty, uy; try discriminate E; reflexivity.
Qed.

Lemma items_hash h l : Forall (fun a => forall sw b x y, py_cmp sw a b = Ok true -> py_hash h a = Ok x -> py_hash h b = Ok y -> x = y) l ->
  forall sw m ks js, items_cmp sw l m = Ok true -> hashes h l = Ok ks -> hashes h m = Ok js -> ks = js.
Proof.
  induction 1 as [|a l A L IH]; intros sw [|b m] ks js; cbn [items_cmp hashes]; try congruence.
  destruct (py_cmp sw a b) as [[]|] eqn:E; cbn [bind]; try congruence. intros I.
  destruct (py_hash h a) as [x|] eqn:X; cbn [bind]; [|congruence]. destruct (hashes h l) as [xs|] eqn:XS; cbn [bind]; [|congruence].
  destruct (py_hash h b) as [y|] eqn:Y; cbn [bind]; [|congruence]. destruct (hashes h m) as [ys|] eqn:YS; cbn [bind]; [|congruence].
  intros K J. injection K as <-. injection J as <-. f_equal; [exact (A sw b x y E eq_refl Y)|exact (IH sw m xs ys I eq_refl YS)].
Qed.

Lemma cmp_hash h a : forall sw b x y, py_cmp sw a b = Ok true -> py_hash h a = Ok x -> py_hash h b = Ok y -> x = y.
Proof.
  assert (T : forall c l d m x y, (forall sw m ks js, items_cmp sw l m = Ok true -> hashes h l = Ok ks -> hashes h m = Ok js -> ks = js) ->
    forall sw, items_cmp sw l m = Ok true -> py_hash h (VTuple c l) = Ok x -> py_hash h (VTuple d m) = Ok y -> x = y).
  { intros c l d m x y H sw I. rewrite !hash_tuple. destruct (hashes h l) as [ks|] eqn:K; cbn [bind]; [|congruence].
    destruct (hashes h m) as [js|] eqn:J; cbn [bind]; [|congruence]. intros X Y. rewrite (H sw m ks js I eq_refl J) in X. congruence. }
  assert (D : forall d sw b x y, py_cmp sw (data_val d) b = Ok true -> py_hash h (data_val d) = Ok x -> py_hash h b = Ok y -> x = y).
  { intros [p|] sw b x y; cbn [data_val].
    - destruct b; cbn [py_cmp]; try congruence; intros E; try (injection E as E); try discriminate E;
        apply leaf_hash; try exact E; congruence.
    - destruct b; cbn [py_cmp]; try congruence; intros E; try (injection E as E); try discriminate E;
        apply leaf_hash; try exact E; congruence. }
  assert (O : forall ax n sw b x y, py_cmp sw (VOpcode ax n) b = Ok true -> py_hash h (VOpcode ax n) = Ok x -> py_hash h b = Ok y -> x = y).
  { intros ax n sw b x y. destruct b; cbn [py_cmp leaf_eqb]; try congruence; [|destruct sw; congruence].
    intros E. injection E as E. apply leaf_hash; [exact E|congruence]. }
  assert (N : forall ax n d sw m ks js, items_cmp sw [VOpcode ax n; data_val d] m = Ok true ->
    hashes h [VOpcode ax n; data_val d] = Ok ks -> hashes h m = Ok js -> ks = js).
  { intros ax n d. apply items_hash. constructor; [intros; eapply O; eauto|constructor; [intros; eapply D; eauto|constructor]]. }
  induction a as [|p|z|t|p|ax n|ax n d|t|c l IH|l IH] using pyv_ind2; intros sw b x y.
  1,2,3,4,5,8: destruct b; cbn [py_cmp]; try congruence; intros E; try (injection E as E); try discriminate E;
    apply leaf_hash; try exact E; congruence.
  - apply O.
  - destruct b as [| | | |q|bx m|bx m e|ty|c m|m]; cbn [py_cmp]; try (destruct sw; cbn [other_eq_instr]; congruence).
    + intros E. injection E as E. apply andb_true_iff in E. destruct E as (E & F). apply Z.eqb_eq in E. subst m.
      rewrite !hash_instr. apply (T K_tuple [VOpcode ax n; data_val d] K_tuple [VOpcode bx n; data_val e] x y (N ax n d) false).
      cbn [items_cmp]. rewrite cmp_opcode, Z.eqb_refl. cbn [bind].
      assert (C : py_cmp false (data_val d) (data_val e) = Ok (leaf_eqb (data_val d) (data_val e)))
        by (destruct d as [[]|], e as [[]|]; reflexivity).
      rewrite C, data_leaf, F. reflexivity.
    + destruct sw; [|congruence].
      assert (C : c = K_tuple \/ c <> K_tuple) by (destruct c; ((left; reflexivity) || (right; congruence))).
      destruct C as [->|C]; [cbn [other_eq_instr]; congruence|]. rewrite (other_instr_items c m ax) by exact C. intros E.
      rewrite hash_instr. apply (T K_tuple [VOpcode ax n; data_val d] c m x y (N ax n d) true).
      rewrite <- E. symmetry. rewrite (items_swap m); [reflexivity|]. apply Forall_forall. intros; apply cmp_swap.
  - destruct b as [| | | |q|bx m|bx m e|ty|d m|m]; try (cbn [py_cmp leaf_eqb]; congruence).
    + destruct sw; [cbn [py_cmp]; congruence|].
      assert (C : c = K_tuple \/ c <> K_tuple) by (destruct c; ((left; reflexivity) || (right; congruence))).
      destruct C as [->|C]; [cbn [py_cmp]; congruence|]. rewrite cmp_tuple_instr by exact C. intros E.
      rewrite hash_instr. apply (T c l K_tuple [VOpcode bx m; data_val e] x y (items_hash h l IH) false E).
    + rewrite cmp_tuples. apply (T c l d m x y (items_hash h l IH)).
  - cbn [py_hash]. congruence.
Qed.

Lemma hash_consistent h a b x y : py_eq a b = Ok true -> py_hash h a = Ok x -> py_hash h b = Ok y -> x = y.
Proof. apply cmp_hash. Qed.

(** networks, keys and addresses *)
Lemma network_mutable n : ~ immutable (network_val n).
Proof.
  intros X. inversion X as [| | | | | | | | |c l F]; subst.
  rewrite Forall_forall in F. specialize (F (VList (map text_val (n_seeds n)))).
  assert (I : immutable (VList (map text_val (n_seeds n)))) by (apply F; cbn [In]; tauto). inversion I.
Qed.
Lemma holds_network c l n : In (network_val n) l -> ~ immutable (VTuple c l).
Proof.
  intros I X. inversion X as [| | | | | | | | |c' l' F]; subst. rewrite Forall_forall in F. exact (network_mutable n (F _ I)).
Qed.
Lemma keys_unhashable h : (forall n, py_hash h (network_val n) = Err E_TypeError)
  /\ (forall k, py_hash h (privkey_val k) = Err E_TypeError) /\ (forall k, py_hash h (pubkey_val k) = Err E_TypeError)
  /\ (forall a, py_hash h (address_val a) = Err E_TypeError) /\ (forall k, py_hash h (hdpriv_val k) = Err E_TypeError)
  /\ (forall k, py_hash h (hdpub_val k) = Err E_TypeError).
Proof.
  split; [|split; [|split; [|split; [|split]]]]; intros k; apply hash_fail.
  - apply network_mutable.
  - apply (holds_network _ _ (k_network k)). cbn [In]. tauto.
  - apply (holds_network _ _ (pk_network k)). cbn [In]. tauto.
  - apply (holds_network _ _ (a_network k)). cbn [In]. tauto.
  - apply (holds_network _ _ (hv_network k)). cbn [In]. tauto.
  - apply (holds_network _ _ (hp_network k)). cbn [In]. tauto.
Qed.

(** scripts *)
Lemma instr_immutable v i : is_instr v i -> immutable v <-> data_str i.
Proof.
  intros (x & ->). unfold data_str. destruct (i_data i) as [[s|s]|].
  - split; [tauto|constructor].
  - split; [intros X; inversion X|tauto].
  - split; [tauto|constructor].
Qed.
Lemma instrs_immutable l is : Forall2 is_instr l is -> Forall immutable l <-> Forall data_str is.
Proof.
  induction 1 as [|v i l is V L IH]; [split; constructor|].
  rewrite !Forall_cons_iff, (instr_immutable v i V), IH. tauto.
Qed.
Lemma tuple_immutable c l : immutable (VTuple c l) <-> Forall immutable l.
Proof. split; [intros X; inversion X; assumption|constructor; assumption]. Qed.
Lemma script_immutable v s : is_script v s -> immutable v <-> Forall data_str (s_ins s).
Proof.
  intros (l & -> & L). rewrite tuple_immutable, Forall_cons_iff, tuple_immutable, (instrs_immutable l _ L).
  split; [tauto|]. intros X. split; [exact X|constructor].
Qed.

Lemma hash_script h v s : is_script v s -> (exists k, py_hash h v = Ok k) <-> Forall data_str (s_ins s).
Proof. intros S. rewrite hash_ok. apply script_immutable, S. Qed.

Lemma ba_str l : Forall data_ba l -> Forall data_str l <-> Forall (fun i => i_data i = None) l.
Proof.
  intros B. rewrite !Forall_forall in *. split; intros H i I; specialize (H i I); specialize (B i I);
    unfold data_ba, data_str in *; destruct (i_data i) as [[]|]; try tauto; congruence.
Qed.

Lemma hash_parsed h b s v : script_from_bytes b = Ok s -> is_script v s ->
  (exists k, py_hash h v = Ok k) <-> Forall (fun i => i_data i = None) (s_ins s).
Proof.
  intros P S. rewrite (hash_script h v s S). apply ba_str.
  unfold script_from_bytes in P. destruct (script_parse b) as [l|] eqn:E; cbn [bind] in P; [|discriminate].
  apply script_parse_ok in E. unfold script_create in P. destruct (classify l); cbn [bind] in P; [|discriminate].
  injection P as <-. apply E.
Qed.
Lemma hash_text_script h t s v : script_from_string t = Ok s -> is_script v s -> exists k, py_hash h v = Ok k.
Proof.
  intros P S. apply (hash_script h v s S). unfold script_from_string in P.
  destruct (text_loop (split_sp t)) as [l|] eqn:E; cbn [bind] in P; [|discriminate].
  apply text_loop_ok in E. unfold script_create in P. destruct (classify l); cbn [bind] in P; [|discriminate].
  injection P as <-. apply E.
Qed.

(** transactions *)
Lemma id_immutable v b : is_id v b -> immutable v.
Proof. intros [-> | ->]; constructor. Qed.
Lemma input_immutable v i : is_input v i -> immutable v <-> Forall data_str (s_ins (in_script i)).
Proof.
  intros (id & s & -> & I & S). rewrite tuple_immutable, !Forall_cons_iff, (script_immutable s _ S).
  apply id_immutable in I. split; [tauto|]. intros X. repeat split; try exact I; try exact X; constructor.
Qed.
Lemma output_immutable v o : is_output v o -> immutable v <-> Forall data_str (s_ins (out_script o)).
Proof.
  intros (s & -> & S). rewrite tuple_immutable, !Forall_cons_iff, (script_immutable s _ S).
  split; [tauto|]. intros X. repeat split; try exact X; constructor.
Qed.
Lemma forall_immutable {A} (R : pyv -> A -> Prop) (Q : A -> Prop) : (forall v a, R v a -> immutable v <-> Q a) ->
  forall l is, Forall2 R l is -> Forall immutable l <-> Forall Q is.
Proof.
  intros H. induction 1 as [|v i l is V L IH]; [split; constructor|]. rewrite !Forall_cons_iff, (H v i V), IH. tauto.
Qed.
Lemma hash_tx h v t : is_tx v t ->
  (exists k, py_hash h v = Ok k) <->
  Forall (fun i => Forall data_str (s_ins (in_script i))) (tx_inputs t)
  /\ Forall (fun o => Forall data_str (s_ins (out_script o))) (tx_outputs t).
Proof.
  intros (l & m & -> & L & M). rewrite hash_ok, tuple_immutable, !Forall_cons_iff, !tuple_immutable.
  rewrite (forall_immutable _ _ input_immutable _ _ L), (forall_immutable _ _ output_immutable _ _ M).
  split; [tauto|]. intros (X & Y). repeat split; try exact X; try exact Y; constructor.
Qed.

(** ** as stated in the properties *)
Lemma eq_network a b : decides (py_eq (network_val a) (network_val b)) (a = b).
Proof. apply cmp_network. Qed.
Lemma eq_privkey a b : decides (py_eq (privkey_val a) (privkey_val b)) (a = b).
Proof. apply cmp_privkey. Qed.
Lemma eq_pubkey a b : decides (py_eq (pubkey_val a) (pubkey_val b)) (a = b).
Proof. apply cmp_pubkey. Qed.
Lemma eq_address a b : decides (py_eq (address_val a) (address_val b)) (same_address a b).
Proof. apply cmp_address. Qed.
Lemma eq_hdpriv a b : decides (py_eq (hdpriv_val a) (hdpriv_val b)) (a = b).
Proof. apply cmp_hdpriv. Qed.
Lemma eq_hdpub a b : decides (py_eq (hdpub_val a) (hdpub_val b)) (a = b).
Proof. apply cmp_hdpub. Qed.
Lemma eq_instr u v i j : is_instr u i -> is_instr v j -> decides (py_eq u v) (same_instr i j).
Proof. apply cmp_instrs. Qed.
Lemma eq_script u v s t : is_script u s -> is_script v t -> decides (py_eq u v) (same_script s t).
Proof. apply cmp_script. Qed.
Lemma eq_input u v a b : is_input u a -> is_input v b -> ascii (in_tx_id a) -> decides (py_eq u v) (same_input a b).
Proof. apply cmp_input. Qed.
Lemma eq_output u v a b : is_output u a -> is_output v b -> decides (py_eq u v) (same_output a b).
Proof. apply cmp_output. Qed.
Lemma eq_tx u v a b : is_tx u a -> is_tx v b -> ascii_ids a -> decides (py_eq u v) (same_tx a b).
Proof. apply cmp_tx. Qed.

Lemma pubkey_eqb_val a b : known (pk_network a) -> known (pk_network b) -> py_eq (pubkey_val a) (pubkey_val b) = Ok (pubkey_eqb a b).
Proof.
  intros A B. destruct (eq_pubkey a b) as (x & -> & X). f_equal. apply bool_iff. rewrite X. symmetry. apply pubkey_eqb_spec; assumption.
Qed.

Definition one_push (p : pyb) : pyv := VTuple (K_Script None) [VTuple K_tuple [VInstr 0 1 (Some p)]].
Lemma hash_equal_refuted : exists b t s s' v v',
  script_from_bytes b = Ok s /\ script_from_string t = Ok s' /\ is_script v s /\ is_script v' s' /\ py_eq v v' = Ok true /\
  forall h, py_hash h v = Err E_TypeError /\ exists k, py_hash h v' = Ok k.
Proof.
  exists [x01; x05], [x31; x20; x30; x78; x30; x35], (Script None [Instr x01 (Some (BA [x05]))]),
    (Script None [Instr x01 (Some (Str [x05]))]), (one_push (BA [x05])), (one_push (Str [x05])).
  split; [reflexivity|]. split; [reflexivity|].
  split; [exists [VInstr 0 1 (Some (BA [x05]))]; split; [reflexivity|constructor; [exists 0; reflexivity|constructor]]|].
  split; [exists [VInstr 0 1 (Some (Str [x05]))]; split; [reflexivity|constructor; [exists 0; reflexivity|constructor]]|].
  split; [reflexivity|]. intros h. split; [reflexivity|]. eexists. reflexivity.
Qed.

(** examples *)
Definition ex_tx_val (id : pyv) (c : in_class) (p : pyb) : pyv :=
  VTuple K_Transaction
    [VTuple K_tuple [VTuple (K_Input c) [id; VInteger 0; one_push p; VInteger 4294967295]];
     VTuple K_tuple [VTuple (K_Output C_Output) [VInteger 5000; one_push p]]; VInteger 0; VInteger 1].
Definition ex_script (p : pyb) : script := Script None [Instr x01 (Some p)].
Definition ex_tx (c : in_class) (p : pyb) : tx :=
  Tx [Input c [x61; x62] 0 (ex_script p) 4294967295] [Output C_Output 5000 (ex_script p)] 0 1.
Lemma ex_script_val p : is_script (one_push p) (ex_script p).
Proof.
  exists [VInstr 0 1 (Some p)]. split; [reflexivity|]. constructor; [exists 0; reflexivity|constructor].
Qed.
Lemma ex_tx_is id c p : is_id id [x61; x62] -> is_tx (ex_tx_val id c p) (ex_tx c p).
Proof.
  intros I. eexists _, _. split; [reflexivity|]. split.
  - constructor; [|constructor]. exists id, (one_push p). split; [reflexivity|]. split; [exact I|apply ex_script_val].
  - constructor; [|constructor]. exists (one_push p). split; [reflexivity|apply ex_script_val].
Qed.
