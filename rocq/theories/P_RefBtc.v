(** Proofs comparing the two dialects of the reference semantics. *)
From Verif Require Import Base M_Hash M_Codec S_Codec P_Codec P_ScriptNum M_Keys S_Keys M_EC M_Script S_Script P_Script M_Interp S_Interp P_Interp S_Ref P_Ref.
Open Scope Z_scope.

Lemma operand_up {fl m} x n : operand_with (bitforge fl) m x = Some n -> operand_with (bitcoin fl) m x = Some n.
Proof. unfold operand_with. cbn [d_limit bitforge bitcoin]. destruct (blen x <=? 3) eqn:E; [|discriminate]. replace (blen x <=? 4) with true by lia. auto. Qed.
Lemma operand_down {fl m} x n : blen x <= 3 -> operand_with (bitcoin fl) m x = Some n -> operand_with (bitforge fl) m x = Some n.
Proof. intros L. unfold operand_with. cbn [d_limit bitforge bitcoin]. replace (blen x <=? 3) with true by lia. replace (blen x <=? 4) with true by lia. auto. Qed.
(** Under MINIMALDATA no short item is longer than necessary. *)
Definition neat (fl : Z) (l : bytes) : Prop := Z.testbit fl MINIMALDATA = true -> blen l <= 3 -> is_shortest l = true.
Lemma operand_neat {fl} x n : neat fl x -> operand_with (bitforge fl) false x = Some n -> operand_with (bitcoin fl) (Z.testbit fl MINIMALDATA) x = Some n.
Proof.
  unfold neat, operand_with. cbn [d_limit bitforge bitcoin negb orb]. destruct (blen x <=? 3) eqn:E; [|discriminate]. replace (blen x <=? 4) with true by lia.
  destruct (Z.testbit fl MINIMALDATA); [|auto]. intros N. rewrite N by (reflexivity || lia). auto.
Qed.
Lemma operand_loose {fl m} x n : blen x <= 3 -> operand_with (bitcoin fl) m x = Some n -> operand_with (bitforge fl) false x = Some n.
Proof.
  intros L. unfold operand_with. cbn [d_limit bitforge bitcoin negb orb]. replace (blen x <=? 3) with true by lia. replace (blen x <=? 4) with true by lia.
  cbn [andb]. destruct (_ || _); [auto|discriminate].
Qed.

Ltac opt H := repeat match type of H with
  | match operand_with (bitforge ?fl) ?m ?x with _ => _ end = _ => let E := fresh "E" in destruct (operand_with (bitforge fl) m x) eqn:E; [|discriminate H]
  | match operand_with (bitcoin ?fl) ?m ?x with _ => _ end = _ => let E := fresh "E" in destruct (operand_with (bitcoin fl) m x) eqn:E; [|discriminate H]
  end.
Ltac use_ops := repeat match goal with E : operand_with (bitforge ?fl) ?m ?x = Some _ |- context[operand_with (bitcoin ?fl) ?m ?x] => rewrite (operand_up x _ E) end.
Ltac use_down := repeat match goal with E : operand_with (bitcoin ?fl) ?m ?x = Some _ |- context[operand_with (bitforge ?fl) ?m ?x] => rewrite (operand_down x _ ltac:(assumption) E) end.
Ltac flat := unfold operand_of in *; cbn [d_minimal d_within bitforge bitcoin] in *; rewrite ?andb_true_r, ?andb_false_r in *; cbv zeta in *.

Lemma num1_up {fl} s f t : num1 (bitforge fl) s f = Some t -> num1 (bitcoin fl) s f = Some t.
Proof. unfold num1; flat. destruct s as [|x s]; cbn [need1]; [discriminate|]. intros H. opt H. use_ops. exact H. Qed.
Lemma num2_up {fl} s f t : num2 (bitforge fl) s f = Some t -> num2 (bitcoin fl) s f = Some t.
Proof. unfold num2; flat. destruct s as [|y [|x s]]; cbn [need2]; try discriminate. intros H. opt H. use_ops. exact H. Qed.
Lemma num1_down {fl} s f t : Forall (fun x => blen x <= 3) (firstn 1 s) -> num1 (bitcoin fl) s f = Some t -> num1 (bitforge fl) s f = Some t.
Proof. unfold num1; flat. destruct s as [|x s]; cbn [need1 firstn]; [discriminate|]. intros F H. inversion F; subst. opt H. use_down. exact H. Qed.
Lemma num2_down {fl} s f t : Forall (fun x => blen x <= 3) (firstn 2 s) -> num2 (bitcoin fl) s f = Some t -> num2 (bitforge fl) s f = Some t.
Proof. unfold num2; flat. destruct s as [|y [|x s]]; cbn [need2 firstn]; try discriminate. intros F H. inversion F as [|? ? F1 F2]; subst. inversion F2; subst. opt H. use_down. exact H. Qed.

Lemma word_up {fl} o s t : ~ In (bZ o) [117; 144] -> tests_clean [115] (bZ o) s -> Forall (neat fl) s ->
  ref_word (bitforge fl) (bZ o) s = Some t -> ref_word (bitcoin fl) (bZ o) s = Some t.
Proof.
  destruct o; intros N TC NE H; try exact H; try discriminate H; try (exfalso; apply N; cbn; tauto);
    try (apply num1_up; exact H); try (apply num2_up; exact H); cbn [ref_word bZ Z.of_N Byte.to_N] in *.
  - destruct s as [|x s]; [discriminate|]. cbn [need1] in *. cbn [d_true bitforge bitcoin] in *.
    destruct (first_bool x) eqn:F; [|discriminate]. rewrite (first_bitcoin _ F). exact H.
  - destruct s as [|x s]; [discriminate|]. cbn [need1] in *. cbn [d_true bitforge bitcoin] in *. rewrite <- clean_bool; [exact H|].
    eapply TC; [left; reflexivity|reflexivity].
  - destruct s as [|x [|y s]]; [discriminate|discriminate|]. cbn [need2] in *. flat. opt H. use_ops. exact H.
  - destruct s as [|x [|y s]]; [discriminate|discriminate|]. cbn [need2] in *. flat. opt H. use_ops. exact H.
  - destruct s as [|x [|y s]]; [discriminate|discriminate|]. cbn [need2] in *. flat. opt H. use_ops. exact H.
  - destruct s as [|x [|y [|w s]]]; [discriminate|discriminate|discriminate|]. cbn [need3] in *. flat.
    inversion NE as [|? ? N1 NE1]; subst. inversion NE1 as [|? ? N2 NE2]; subst. inversion NE2 as [|? ? N3 NE3]; subst.
    opt H. erewrite !operand_neat by eassumption. exact H.
Qed.
Lemma word_down {fl} o s t : ~ In (bZ o) [117; 144; 169; 177] -> tests_clean [105; 115] (bZ o) s -> short_operands (bZ o) s ->
  ref_word (bitcoin fl) (bZ o) s = Some t -> ref_word (bitforge fl) (bZ o) s = Some t.
Proof.
  destruct o; intros N TC SH H; try exact H; try discriminate H; try (exfalso; apply N; cbn; tauto);
    try (apply num1_down; [exact SH|exact H]); try (apply num2_down; [exact SH|exact H]); cbn [ref_word bZ Z.of_N Byte.to_N] in *.
  - destruct s as [|x s]; [discriminate|]. cbn [need1] in *. cbn [d_true bitforge bitcoin] in *. rewrite clean_bool; [exact H|].
    eapply TC; [left; reflexivity|reflexivity].
  - destruct s as [|x s]; [discriminate|]. cbn [need1] in *. cbn [d_true bitforge bitcoin] in *. rewrite clean_bool; [exact H|].
    eapply TC; [right; left; reflexivity|reflexivity].
  - destruct s as [|x [|y s]]; [discriminate|discriminate|]. cbn [need2] in *. inversion SH as [|? ? L1 SH1]; subst. flat. opt H. use_down. exact H.
  - destruct s as [|x [|y s]]; [discriminate|discriminate|]. cbn [need2] in *. inversion SH as [|? ? L1 SH1]; subst. flat. opt H. use_down. exact H.
  - destruct s as [|x [|y s]]; [discriminate|discriminate|]. cbn [need2] in *. inversion SH as [|? ? L1 SH1]; subst. inversion SH1; subst. flat. opt H. use_down. exact H.
  - destruct s as [|x [|y [|w s]]]; [discriminate|discriminate|discriminate|]. cbn [need3] in *. inversion SH as [|? ? L1 SH1]; subst. inversion SH1 as [|? ? L2 SH2]; subst. inversion SH2; subst. flat. opt H.
    erewrite !operand_loose by eassumption. exact H.
Qed.
Lemma multisig_up {fl} s t : no_signatures (bitforge fl) s = Some t -> no_signatures (bitcoin fl) s = Some t.
Proof.
  unfold no_signatures; flat. destruct s as [|x s]; [discriminate|]. cbn [need1]. intros H. opt H. use_ops. destruct (_ && _); [|discriminate].
  destruct (skipn _ s) as [|m [|d r]]; cbn [need2] in *; [discriminate|discriminate|]. opt H. use_ops. exact H.
Qed.

(** The opcodes treated apart from [ref_word]. *)
Lemma exec_word D o s a c n : ~ In (bZ o) [107; 108; 174; 175] ->
  ref_exec D (bZ o) (RState s a c n) = match ref_word D (bZ o) s with Some s => Some (RState s a c n) | None => None end.
Proof. destruct o; intros N; try reflexivity; exfalso; apply N; cbn; tauto. Qed.
Lemma special_dec z : {In z [107; 108; 174; 175]} + {~ In z [107; 108; 174; 175]}.
Proof. apply in_dec, Z.eq_dec. Qed.
Lemma exec_up {fl} o st t : ~ In (bZ o) [117; 144] -> tests_clean [115] (bZ o) (r_main st) -> Forall (neat fl) (r_main st) ->
  ref_exec (bitforge fl) (bZ o) st = Some t -> ref_exec (bitcoin fl) (bZ o) st = Some t.
Proof.
  destruct st as [s a c n]. cbn [r_main]. intros N TC NE. destruct (special_dec (bZ o)) as [S|S].
  - cbn [In] in S. destruct S as [<-|[<-|[<-|[<-|[]]]]]; cbn [ref_exec]; auto; intros H;
      (destruct (no_signatures (bitforge fl) s) as [[r k]|] eqn:E; [|discriminate]); rewrite (multisig_up _ _ E); exact H.
  - rewrite !exec_word by exact S. destruct (ref_word (bitforge fl) (bZ o) s) eqn:E; [|discriminate]. rewrite (word_up o s _ N TC NE E). auto.
Qed.
Lemma exec_down {fl} o st t : ~ In (bZ o) [117; 144; 169; 174; 175; 177] -> tests_clean [105; 115] (bZ o) (r_main st) -> short_operands (bZ o) (r_main st) ->
  ref_exec (bitcoin fl) (bZ o) st = Some t -> ref_exec (bitforge fl) (bZ o) st = Some t.
Proof.
  destruct st as [s a c n]. cbn [r_main]. intros N TC SH. destruct (special_dec (bZ o)) as [S|S].
  - cbn [In] in S. destruct S as [E|[E|[E|[E|[]]]]]; rewrite <- E in *; cbn [ref_exec]; auto; exfalso; apply N; cbn; tauto.
  - rewrite !exec_word by exact S. destruct (ref_word (bitcoin fl) (bZ o) s) eqn:E; [|discriminate]. rewrite (word_down o s _ (fun I => N ltac:(cbn in *; tauto)) TC SH E). auto.
Qed.

(** One instruction, by what it does. *)
Definition on (st : rstate) : bool := forallb (fun b => b) (r_cond st).
Lemma on_iff st : on st = true <-> ~ In false (r_cond st).
Proof.
  unfold on. rewrite forallb_forall. split; [intros H I; specialize (H _ I); discriminate|]. intros H [] I; [reflexivity|contradiction].
Qed.
Lemma step_dialect D D' z d st t :
  (on st = true -> z <= 78 -> let l := match d with Some d => d | None => [] end in d_push D z l = true -> d_push D' z l = true) ->
  (on st = true -> In z [99; 100] -> forall x r, r_main st = x :: r -> d_true D x = d_true D' x) ->
  (on st = true -> 79 <= z -> forall n t, ref_exec D z (RState (r_main st) (r_alt st) (r_cond st) n) = Some t ->
     ref_exec D' z (RState (r_main st) (r_alt st) (r_cond st) n) = Some t) ->
  ref_step D (z, d) st = Some t -> ref_step D' (z, d) st = Some t.
Proof.
  destruct st as [s a c n]. unfold on. cbn [r_main r_alt r_cond]. intros H0 H1 H2. unfold ref_step.
  generalize (if 96 <? z then n + 1 else n). clear n. intros n.
  destruct (520 <? _); [auto|]. destruct (_ && _); [auto|]. destruct (ref_disabled z); [auto|].
  destruct (Z_le_dec 99 z) as [L1|L1]; [destruct (Z_le_dec z 104) as [L2|L2]|].
  - assert (H : In z [99; 100; 101; 102; 103; 104]) by (cbn; lia).
    repeat (destruct H as [<-|H]; [first [solve [auto] | idtac]|]); [| |destruct H]; cbv zeta; destruct (forallb _ c); auto; destruct s as [|x s]; auto; cbn [need1];
      rewrite (H1 eq_refl ltac:(cbn; tauto) x s eq_refl); auto.
  - assert (G : forall x99 x100 x103 x104 (w : option rstate), match z with 99 => x99 | 100 => x100 | 101 | 102 => None | 103 => x103 | 104 => x104 | _ => w end = w).
    { clear - L1 L2. intros. destruct z as [|z|z]; try reflexivity. do 7 (destruct z as [z|z|]; try reflexivity; try (exfalso; apply L2; discriminate)). }
    rewrite !G. destruct (forallb _ c); auto. destruct (z <=? 78) eqn:E; [|apply H2; [reflexivity|lia]].
    destruct (d_push D z _) eqn:DP; [|discriminate]. rewrite H0; [auto|reflexivity|lia|reflexivity].
  - assert (G : forall x99 x100 x103 x104 (w : option rstate), match z with 99 => x99 | 100 => x100 | 101 | 102 => None | 103 => x103 | 104 => x104 | _ => w end = w).
    { clear - L1. intros. destruct z as [|z|z]; try reflexivity. do 7 (destruct z as [z|z|]; try reflexivity; try (exfalso; apply L1; discriminate)). }
    rewrite !G. destruct (forallb _ c); auto. destruct (z <=? 78) eqn:E; [|apply H2; [reflexivity|lia]].
    destruct (d_push D z _) eqn:DP; [|discriminate]. rewrite H0; [auto|reflexivity|lia|reflexivity].
Qed.
Lemma byte_of z : 0 <= z < 256 -> exists o, z = bZ o.
Proof. intros H. exists (Zb z). rewrite bZ_Zb; [reflexivity|lia]. Qed.
(** Data as a readable script has it. *)
Definition fitted (i : Z * option bytes) : Prop :=
  fst i <= 78 -> match snd i with Some d => 1 <= fst i <= 75 /\ blen d = fst i | None => fst i = 0 end.
Lemma step_up {fl} o d st t : ~ In (bZ o) [117; 144] -> fitted (bZ o, d) -> (on st = true -> tests_clean [99; 100; 115] (bZ o) (r_main st)) ->
  Forall (neat fl) (r_main st) -> ref_step (bitforge fl) (bZ o, d) st = Some t -> ref_step (bitcoin fl) (bZ o, d) st = Some t.
Proof.
  intros N FT TC NE. apply step_dialect.
  - intros O L l. specialize (FT L). cbn [fst snd] in FT. cbn [d_push bitforge bitcoin]. destruct (Z.testbit fl MINIMALDATA); [|auto].
    unfold l. clear l. destruct d as [d|]; [|rewrite FT; auto]. unfold empty_or_long_push. replace (blen d =? 0) with false by lia. replace (blen d <=? 75) with true by lia. discriminate.
  - intros O I x r E. apply clean_bool. eapply (TC O); [cbn in *; tauto|exact E].
  - intros O _ n t'. apply exec_up; [exact N| |exact NE]. cbn [r_main]. intros I. apply (TC O). cbn in *; tauto.
Qed.
Lemma step_down {fl} o d st t : ~ In (bZ o) [117; 144; 169; 174; 175; 177] -> fitted (bZ o, d) -> (on st = true -> tests_clean [99; 100; 105; 115] (bZ o) (r_main st)) ->
  (on st = true -> short_operands (bZ o) (r_main st)) -> (on st = true -> flag fl MINIMALDATA -> ~ 1 <= bZ o <= 78) ->
  ref_step (bitcoin fl) (bZ o, d) st = Some t -> ref_step (bitforge fl) (bZ o, d) st = Some t.
Proof.
  intros N FT TC SH MI. apply step_dialect.
  - intros O L l. specialize (FT L). cbn [fst snd] in FT. cbn [d_push bitforge bitcoin]. destruct (Z.testbit fl MINIMALDATA) eqn:FM; [|auto].
    unfold l. clear l. destruct d as [d|]; [|auto]. exfalso. apply (MI O FM). lia.
  - intros O I x r E. symmetry. apply clean_bool. eapply (TC O); [cbn in *; tauto|exact E].
  - intros O _ n t'. apply exec_down; [exact N| |exact (SH O)]. cbn [r_main]. intros I. apply (TC O). cbn in *; tauto.
Qed.

(** ** size of the stacks *)
Definition size (st : rstate) : Z := blen (r_main st) + blen (r_alt st).
Ltac sizes := repeat match goal with
  | H : Some _ = Some _ |- _ => injection H as <-
  | H : (if ?b then _ else _) = Some _ |- _ => destruct b; try discriminate H
  | H : match ?x with Some _ => _ | None => None end = Some _ |- _ => destruct x eqn:?; try discriminate H
  end; cbn [d_drop bitforge tl] in *; rewrite ?blen_cons in *; rewrite ?blen_app in *.
Lemma roll_size {A} k (l : list A) : blen (firstn k l ++ skipn (S k) l) <= blen l.
Proof. unfold blen. rewrite app_length, firstn_length, skipn_length. lia. Qed.
Lemma word_size {fl} o s t : ref_word (bitforge fl) (bZ o) s = Some t -> blen t <= blen s + 3.
Proof.
  pose proof (blen_nonneg s) as N0.
  destruct o; intros H; try discriminate H; cbn [ref_word bZ Z.of_N Byte.to_N] in H; unfold num1, num2, hashed in H;
  try (injection H as <-; rewrite ?blen_cons; lia).
  all: try (destruct s as [|x1 [|x2 [|x3 [|x4 [|x5 [|x6 s]]]]]]; cbn [need1 need2 need3 need4 need6 d_drop d_nop2 d_hash160 bitforge] in H; try discriminate H; sizes; lia).
  - destruct s as [|x1 s]; cbn [need1] in H; [discriminate H|]. injection H as <-. cbn [d_true bitforge]; destruct (first_bool x1); unfold blen; cbn [length]; lia.
  - destruct s as [|x1 [|x2 s]]; cbn [need2] in H; try discriminate H. repeat match goal with
      | H : (if ?b then _ else _) = Some _ |- _ => destruct b; try discriminate H
      | H : match ?x with Some _ => _ | None => None end = Some _ |- _ => destruct x eqn:?; try discriminate H
      end. injection H as <-. rewrite blen_cons. cbn [tl]. match goal with |- context[blen (firstn ?k ?l ++ ?r)] => assert (blen (firstn k l ++ r) <= blen l) by exact (roll_size k l) end.
    rewrite (blen_cons x1). lia.
Qed.
Lemma multisig_size {fl} s t k : no_signatures (bitforge fl) s = Some (t, k) -> blen t <= blen s.
Proof.
  unfold no_signatures; flat. destruct s as [|x s]; [discriminate|]. cbn [need1]. destruct (operand_with (bitforge fl) _ x) as [m|]; [|discriminate].
  destruct (_ && _); [|discriminate]. pose proof (skipn_length (Z.to_nat m) s) as L. destruct (skipn _ s) as [|y [|w r]]; cbn [need2]; [discriminate|discriminate|].
  destruct (operand_with (bitforge fl) _ y) as [[| |]|]; try discriminate. destruct (_ && _); [discriminate|]. intros [= <- _]. rewrite blen_cons. unfold blen. cbn [length] in L. lia.
Qed.
Lemma exec_size {fl} o st t : ref_exec (bitforge fl) (bZ o) st = Some t -> size t <= size st + 3.
Proof.
  destruct st as [s a c n]. destruct (special_dec (bZ o)) as [S|S].
  - cbn [In] in S. destruct S as [<-|[<-|[<-|[<-|[]]]]]; cbn [ref_exec]; unfold size; cbn [r_main r_alt].
    + destruct s as [|x s]; [discriminate|]. intros [= <-]. cbn [r_main r_alt]. rewrite !blen_cons. lia.
    + destruct a as [|x a]; [discriminate|]. intros [= <-]. cbn [r_main r_alt]. rewrite !blen_cons. lia.
    + destruct (no_signatures (bitforge fl) s) as [[r k]|] eqn:E; [|discriminate]. apply multisig_size in E. destruct (_ <=? _); [|discriminate]. intros [= <-]. cbn [r_main r_alt]. rewrite blen_cons. lia.
    + destruct (no_signatures (bitforge fl) s) as [[r k]|] eqn:E; [|discriminate]. apply multisig_size in E. destruct (_ <=? _); [|discriminate]. intros [= <-]. cbn [r_main r_alt]. lia.
  - rewrite exec_word by exact S. destruct (ref_word (bitforge fl) (bZ o) s) eqn:E; [|discriminate]. apply word_size in E. intros [= <-]. unfold size. cbn [r_main r_alt]. lia.
Qed.
Lemma step_cases D z d st t : ref_step D (z, d) st = Some t ->
  (z <= 78 /\ (let l := match d with Some d => d | None => [] end in d_push D z l = true /\ r_main t = l :: r_main st) /\ r_alt t = r_alt st) \/
  (exists n, ref_exec D z (RState (r_main st) (r_alt st) (r_cond st) n) = Some t) \/
  (r_main t = r_main st /\ r_alt t = r_alt st) \/
  (exists x, r_main st = x :: r_main t /\ r_alt t = r_alt st).
Proof.
  destruct st as [s a c n]. cbn [r_main r_alt r_cond]. unfold ref_step. generalize (if 96 <? z then n + 1 else n). clear n. intros n.
  destruct (520 <? _); [discriminate|]. destruct (_ && _); [discriminate|]. destruct (ref_disabled z); [discriminate|].
  generalize (forallb (fun b => b) c). intros b.
  assert (K : (if b then if z <=? 78 then (if d_push D z (match d with Some d => d | None => [] end) then Some (RState (match d with Some d => d | None => [] end :: s) a c n) else None) else ref_exec D z (RState s a c n) else Some (RState s a c n)) = Some t
     -> (z <= 78 /\ (let l := match d with Some d => d | None => [] end in d_push D z l = true /\ r_main t = l :: s) /\ r_alt t = a) \/
        (exists n, ref_exec D z (RState s a c n) = Some t) \/ (r_main t = s /\ r_alt t = a) \/ (exists x, s = x :: r_main t /\ r_alt t = a)).
  { destruct b; [destruct (z <=? 78) eqn:L|].
    - destruct (d_push _ _ _) eqn:DP; [|discriminate]. intros [= <-]. left. split; [lia|]. split; [split; [exact DP|reflexivity]|reflexivity].
    - intros H. right. left. exists n. exact H.
    - intros [= <-]. right. right. left. auto. }
  destruct (in_dec Z.eq_dec z [99; 100; 101; 102; 103; 104]) as [I|I].
  - clear K. intros H. right. right. cbn [In] in I. destruct I as [<-|[<-|[<-|[<-|[<-|[<-|[]]]]]]].
    + destruct b; [destruct s as [|x s]; cbn [need1] in H; [discriminate|]|]; injection H as <-; [right; exists x; auto|left; auto].
    + destruct b; [destruct s as [|x s]; cbn [need1] in H; [discriminate|]|]; injection H as <-; [right; exists x; auto|left; auto].
    + discriminate.
    + discriminate.
    + destruct c; [discriminate|]. injection H as <-. left; auto.
    + destruct c; [discriminate|]. injection H as <-. left; auto.
  - intros H. apply K. rewrite <- H. symmetry. revert I. clear. intros I.
    assert (G : forall x99 x100 x103 x104 (w : option rstate), match z with 99 => x99 | 100 => x100 | 101 | 102 => None | 103 => x103 | 104 => x104 | _ => w end = w).
    { intros. destruct z as [|z|z]; try reflexivity. do 7 (destruct z as [z|z|]; try reflexivity; try (exfalso; apply I; cbn; tauto)). }
    apply G.
Qed.
Lemma step_size {fl} o d st t : ref_step (bitforge fl) (bZ o, d) st = Some t -> size t <= size st + 3.
Proof.
  intros H. apply step_cases in H. unfold size. destruct H as [(_ & [_ M] & A)|[(n & E)|[(M & A)|(x & M & A)]]].
  - rewrite M, A, blen_cons. lia.
  - apply exec_size in E. exact E.
  - rewrite M, A. lia.
  - rewrite M, A, blen_cons. lia.
Qed.

(** ** items under MINIMALDATA *)
Lemma neat_num fl n : neat fl (script_num n).
Proof. intros _ _. apply is_shortest_iff, script_num_correct. Qed.
Lemma neat_long fl l : 3 < blen l -> neat fl l.
Proof. intros L _ S. lia. Qed.
Lemma neat_hash fl h x : h = ripemd160 \/ h = sha1 \/ h = sha256 -> neat fl (h x).
Proof. intros H. apply neat_long. exact (long_hash h x H). Qed.
Ltac neat_parts := repeat match goal with Q : Forall (neat _) (_ :: _) |- _ => inversion Q; clear Q; subst end.
Ltac neat_done := repeat match goal with
  | |- Forall (neat _) (_ :: _) => constructor
  | |- Forall (neat _) (_ ++ _) => apply Forall_app; split
  | |- Forall (neat _) (firstn _ _) => apply Forall_firstn
  | |- Forall (neat _) (skipn _ _) => apply Forall_skipn
  | |- Forall (neat _) (if ?b then _ else _) => destruct b
  | |- Forall (neat _) [] => constructor
  | |- neat _ (script_num _) => apply neat_num
  | |- neat _ (ripemd160 _) => apply neat_hash; tauto
  | |- neat _ (sha1 _) => apply neat_hash; tauto
  | |- neat _ (sha256 _) => apply neat_hash; tauto
  end; try assumption.
Lemma word_neat {fl} o s t : ref_word (bitforge fl) (bZ o) s = Some t -> Forall (neat fl) s -> Forall (neat fl) t.
Proof.
  destruct o; intros H N; try discriminate H; cbn [ref_word bZ Z.of_N Byte.to_N] in H; unfold num1, num2, hashed in H; cbv zeta in H;
  try (injection H as <-; neat_done; fail).
  all: destruct s as [|x1 [|x2 [|x3 [|x4 [|x5 [|x6 s]]]]]]; cbn [need1 need2 need3 need4 need6 d_drop d_nop2 d_hash160 bitforge] in H; try discriminate H;
    repeat match goal with
    | H : (if ?b then _ else _) = Some _ |- _ => destruct b; try discriminate H
    | H : match ?x with Some _ => _ | None => None end = Some _ |- _ => destruct x eqn:?; try discriminate H
    end; cbn [d_drop bitforge tl] in *; injection H as <-; neat_done; neat_parts; neat_done.
  all: try (match goal with H : nth_error _ _ = Some _ |- _ => refine (Forall_nth (neat fl) _ _ _ _ H) end; neat_done).
Qed.
Lemma multisig_neat {fl} s t k : no_signatures (bitforge fl) s = Some (t, k) -> Forall (neat fl) s -> Forall (neat fl) t.
Proof.
  unfold no_signatures. destruct s as [|x s]; [discriminate|]. cbn [need1]. intros H N. inversion N as [|? ? _ N1]; subst. destruct (operand_of (bitforge fl) x) as [m|]; [|discriminate].
  destruct (_ && _); [|discriminate]. pose proof (Forall_skipn _ (Z.to_nat m) s N1) as L. destruct (skipn _ s) as [|y [|w r]]; cbn [need2] in H; [discriminate|discriminate|].
  destruct (operand_of (bitforge fl) y) as [[| |]|]; try discriminate. destruct (_ && _); [discriminate|]. injection H as <- _. neat_parts. assumption.
Qed.
Definition neats (fl : Z) (st : rstate) : Prop := Forall (neat fl) (r_main st) /\ Forall (neat fl) (r_alt st).
Lemma exec_neat {fl} o st t : ref_exec (bitforge fl) (bZ o) st = Some t -> neats fl st -> neats fl t.
Proof.
  destruct st as [s a c n]. intros H [M A]. cbn [r_main r_alt] in *. destruct (special_dec (bZ o)) as [S|S].
  - cbn [In] in S. destruct S as [S|[S|[S|[S|[]]]]]; rewrite <- S in H; cbn [ref_exec] in H.
    + destruct s as [|x s]; [discriminate|]. injection H as <-. inversion M; subst. split; cbn [r_main r_alt]; auto.
    + destruct a as [|x a]; [discriminate|]. injection H as <-. inversion A; subst. split; cbn [r_main r_alt]; auto.
    + destruct (no_signatures (bitforge fl) s) as [[r k]|] eqn:E; [|discriminate]. apply multisig_neat in E; [|exact M]. destruct (_ <=? _); [|discriminate].
      injection H as <-. split; cbn [r_main r_alt]; [constructor; [apply neat_num|exact E]|exact A].
    + destruct (no_signatures (bitforge fl) s) as [[r k]|] eqn:E; [|discriminate]. apply multisig_neat in E; [|exact M]. destruct (_ <=? _); [|discriminate].
      injection H as <-. split; cbn [r_main r_alt]; assumption.
  - rewrite exec_word in H by exact S. destruct (ref_word (bitforge fl) (bZ o) s) eqn:E; [|discriminate]. apply word_neat in E; [|exact M].
    injection H as <-. split; cbn [r_main r_alt]; assumption.
Qed.
Lemma step_neat {fl} o d st t : ref_step (bitforge fl) (bZ o, d) st = Some t -> neats fl st -> neats fl t.
Proof.
  intros H [M A]. apply step_cases in H. unfold neats. destruct H as [(_ & [P E] & F)|[(n & E)|[(E & F)|(x & E & F)]]].
  - rewrite E, F. split; [|exact A]. constructor; [|exact M]. intros MI L. cbn [d_push bitforge] in P. rewrite MI in P. unfold empty_or_long_push in P.
    destruct (match d with Some d => d | None => [] end) as [|y l]; [reflexivity|]. exfalso. revert P.
    rewrite blen_cons in *. pose proof (blen_nonneg l). replace (1 + blen l =? 0) with false by lia. replace (1 + blen l <=? 75) with true by lia. discriminate.
  - exact (exec_neat o _ t E (conj M A)).
  - rewrite E, F. split; assumption.
  - rewrite F. rewrite E in M. inversion M; subst. split; assumption.
Qed.

(** ** whole scripts *)
Lemma throughout_cons D P i l st st1 : ref_step D i st = Some st1 -> negb (d_each D) || in_limit st1 = true ->
  throughout D P (i :: l) st -> throughout D P l st1.
Proof.
  intros S L H l1 z d l2 st2 E R. apply (H (i :: l1) z d l2 st2); [rewrite E; reflexivity|]. cbn [ref_run]. rewrite S, L. exact R.
Qed.
Definition coded (zs : list Z) (l : list (Z * option bytes)) : Prop := Forall (fun i => 0 <= fst i < 256 /\ ~ In (fst i) zs /\ fitted i) l.
Lemma coded_script zs s : readable s -> avoids zs s -> coded zs (ref_script s).
Proof.
  unfold avoids, coded, ref_script. intros R H. apply Forall_map. unfold readable in R. rewrite Forall_forall in *. intros i I. specialize (H i I). destruct (R i I) as (W & P & _).
  cbn [fst ref_instr]. split; [apply bZ_range|]. split; [exact H|]. unfold fitted, ref_instr. cbn [fst snd]. intros L. pose proof (bZ_range (i_op i)) as B.
  unfold well_formed in W. unfold pushdata in P. destruct (i_data i) as [d|]; cbn [option_map].
  - unfold push_length, pyb_len in W. unfold blen. lia.
  - unfold pushes in W. lia.
Qed.
Lemma blen_script s : blen (ref_script s) = blen (s_ins s).
Proof. apply blen_map. Qed.
Lemma run_up {fl} l : coded [117; 144] l -> forall st t, throughout (bitforge fl) (tests_clean [99; 100; 115]) l st -> size st + 3 * blen l <= 1000 -> neats fl st ->
  ref_run (bitforge fl) l st = Some t -> ref_run (bitcoin fl) l st = Some t /\ size t <= size st + 3 * blen l /\ neats fl t.
Proof.
  induction 1 as [|[z d] l (B & N & FT) C IH]; intros st t TH SZ NE; cbn [ref_run].
  - intros [= <-]. split; [reflexivity|]. split; [|exact NE]. pose proof (blen_nonneg (@nil (Z * option bytes))). lia.
  - cbn [fst] in *. destruct (byte_of z B) as [o ->]. rewrite blen_cons in *. pose proof (blen_nonneg l) as BN.
    destruct (ref_step (bitforge fl) (bZ o, d) st) as [st1|] eqn:S; [|discriminate]. cbn [d_each bitforge negb orb].
    assert (S2 : ref_step (bitcoin fl) (bZ o, d) st = Some st1).
    { apply step_up; [exact N|exact FT| |exact (proj1 NE)|exact S]. intros ON. apply (TH [] (bZ o) d l st eq_refl eq_refl). apply on_iff. exact ON. }
    rewrite S2. pose proof (step_size o d st st1 S) as SS. intros R.
    assert (IL : in_limit st1 = true) by (unfold in_limit, size in *; lia). rewrite IL. cbn [d_each bitcoin negb orb].
    destruct (IH st1 t) as (R2 & SZ2 & NE2); [eapply throughout_cons; [exact S|reflexivity|exact TH]|lia|exact (step_neat o d st st1 S NE)|exact R|].
    split; [exact R2|]. split; [lia|exact NE2].
Qed.
(** What completeness asks of the executed instructions. *)
Definition tame (fl : Z) (z : Z) (s : list bytes) : Prop :=
  tests_clean [99; 100; 105; 115] z s /\ short_operands z s /\ (flag fl MINIMALDATA -> ~ 1 <= z <= 78).
Lemma run_down {fl} l : coded [117; 144; 169; 174; 175; 177] l -> forall st t, throughout (bitcoin fl) (tame fl) l st ->
  ref_run (bitcoin fl) l st = Some t -> ref_run (bitforge fl) l st = Some t.
Proof.
  induction 1 as [|[z d] l (B & N & FT) C IH]; intros st t TH; cbn [ref_run]; [auto|].
  cbn [fst] in *. destruct (byte_of z B) as [o ->].
  destruct (ref_step (bitcoin fl) (bZ o, d) st) as [st1|] eqn:S; [|discriminate]. 
  destruct (negb (d_each (bitcoin fl)) || in_limit st1) eqn:L; [|discriminate].
  assert (S2 : ref_step (bitforge fl) (bZ o, d) st = Some st1).
  { apply step_down; [exact N|exact FT| | | |exact S]; intros ON; apply (TH [] (bZ o) d l st eq_refl eq_refl); apply on_iff; exact ON. }
  rewrite S2. cbn [d_each bitforge negb orb]. intros R. apply IH; [|exact R]. eapply throughout_cons; [exact S|exact L|exact TH].
Qed.
Lemma eval_up {fl} l s t : coded [117; 144] l -> throughout (bitforge fl) (tests_clean [99; 100; 115]) l (RState s [] [] 0) -> blen s + 3 * blen l <= 1000 -> Forall (neat fl) s ->
  ref_eval (bitforge fl) l s = Some t -> ref_eval (bitcoin fl) l s = Some t /\ blen t <= blen s + 3 * blen l /\ Forall (neat fl) t.
Proof.
  intros C TH SZ NE. unfold ref_eval. destruct (ref_run (bitforge fl) l (RState s [] [] 0)) as [st|] eqn:R; [|discriminate].
  destruct (run_up l C _ st TH) as (R2 & S2 & N2); [unfold size; cbn [r_main r_alt]; rewrite blen_nil; lia|split; [exact NE|constructor]|exact R|]. rewrite R2.
  destruct (r_cond st); [|discriminate]. destruct (in_limit st); [|discriminate]. intros [= <-]. split; [reflexivity|]. split; [|exact (proj1 N2)].
  unfold size in S2. cbn [r_main r_alt] in S2. rewrite (@blen_nil bytes) in S2. pose proof (blen_nonneg (r_alt st)). lia.
Qed.
Lemma eval_down {fl} l s t : coded [117; 144; 169; 174; 175; 177] l -> throughout (bitcoin fl) (tame fl) l (RState s [] [] 0) ->
  ref_eval (bitcoin fl) l s = Some t -> ref_eval (bitforge fl) l s = Some t.
Proof.
  intros C TH. unfold ref_eval. destruct (ref_run (bitcoin fl) l (RState s [] [] 0)) as [st|] eqn:R; [|discriminate]. rewrite (run_down l C _ _ TH R). auto.
Qed.

Lemma verify_sound self a b f e : readable a -> readable b -> avoids [117; 144] a -> avoids [117; 144] b ->
  3 * (blen (s_ins a) + blen (s_ins b)) <= 1000 -> during (bitforge f) (tests_clean [99; 100; 115]) (ref_script a) (ref_script b) ->
  verify self a b f = Ok (true, e) -> push_only f a /\ ref_accepts (bitcoin f) (ref_script a) (ref_script b).
Proof.
  intros RA RB AA AB SZ [DA DB] V. assert (E : e = IE_None) by (apply verify_iff in V; tauto). subst e.
  apply (verify_ref self a b f RA RB) in V. destruct V as (_ & PO & _ & _ & s & x & t & A & B & T). split; [exact PO|].
  pose proof (blen_nonneg (s_ins a)). pose proof (blen_nonneg (s_ins b)).
  destruct (eval_up _ _ s (coded_script _ _ RA AA) DA) as (A2 & S2 & N2); [rewrite blen_script, blen_nil; lia|constructor|exact A|].
  rewrite blen_script, (@blen_nil bytes) in S2.
  destruct (eval_up _ s (x :: t) (coded_script _ _ RB AB) (DB s A)) as (B2 & _); [rewrite blen_script; lia|exact N2|exact B|].
  exists s, x, t. split; [exact A2|]. split; [exact B2|]. apply first_bitcoin, T.
Qed.
Lemma avoids_sub zs zs' s : (forall z, In z zs' -> In z zs) -> avoids zs s -> avoids zs' s.
Proof. intros H. unfold avoids. apply Forall_impl. intros i N I. apply N, H, I. Qed.
Lemma avoids_in zs s l1 z d l2 : avoids zs s -> ref_script s = l1 ++ (z, d) :: l2 -> ~ In z zs.
Proof.
  intros A E. assert (F : Forall (fun i => ~ In (fst i) zs) (ref_script s)) by (unfold ref_script; apply Forall_map; exact A).
  rewrite E in F. apply Forall_app in F. destruct F as [_ F]. inversion F; subst. assumption.
Qed.
Lemma verify_sound_plain self a b f e : readable a -> readable b -> avoids five a -> avoids five b ->
  3 * (blen (s_ins a) + blen (s_ins b)) <= 1000 -> verify self a b f = Ok (true, e) -> push_only f a /\ ref_accepts (bitcoin f) (ref_script a) (ref_script b).
Proof.
  intros RA RB AA AB SZ. apply verify_sound; auto; try (eapply avoids_sub; [|eassumption]; cbn; tauto).
  split.
  - intros l1 z d l2 st1 E _ _ I. exfalso. apply (avoids_in _ _ _ _ _ _ AA E). cbn in *. tauto.
  - intros s _ l1 z d l2 st1 E _ _ I. exfalso. apply (avoids_in _ _ _ _ _ _ AB E). cbn in *. tauto.
Qed.
Lemma verify_complete self a b f : readable a -> readable b -> ~ flag f P2SH -> push_only f a -> sized a -> sized b ->
  avoids [117; 144; 169; 174; 175; 177] a -> avoids [117; 144; 169; 174; 175; 177] b ->
  during (bitcoin f) (fun z s => tests_clean [99; 100; 105; 115] z s /\ short_operands z s /\ (flag f MINIMALDATA -> ~ 1 <= z <= 78)) (ref_script a) (ref_script b) ->
  (forall x, result (bitcoin f) (ref_script a) (ref_script b) x -> clean x) ->
  ref_accepts (bitcoin f) (ref_script a) (ref_script b) -> verify self a b f = Ok (true, IE_None).
Proof.
  intros RA RB NP PO SA SB AA AB [DA DB] CL (s & x & t & A & B & T). apply (verify_ref self a b f RA RB).
  split; [exact NP|]. split; [exact PO|]. split; [exact SA|]. split; [exact SB|].
  exists s, x, t. split; [apply eval_down; auto using coded_script|]. split; [apply eval_down; auto using coded_script; apply DB; exact A|].
  cbn [d_true bitforge bitcoin] in *. rewrite clean_bool; [exact T|]. apply CL. exists s, t. auto.
Qed.
Lemma incl_check a b : forallb (fun z => existsb (Z.eqb z) b) a = true -> forall z, In z a -> In z b.
Proof. rewrite forallb_forall. intros H z I. specialize (H z I). apply existsb_exists in H. destruct H as (y & Y & E). apply Z.eqb_eq in E. subst y. exact Y. Qed.
Lemma takes_none z : ~ In z delicate -> takes z = 0%nat.
Proof.
  intros N. unfold takes.
  assert (E : forall l, forallb (fun z => existsb (Z.eqb z) delicate) l = true -> existsb (Z.eqb z) l = false).
  { intros l I. apply not_true_is_false. intros X. apply existsb_exists in X. destruct X as (y & Y & Q). apply Z.eqb_eq in Q. subst y. apply N. exact (incl_check _ _ I z Y). }
  rewrite (E (121 :: 122 :: unaries)), (E binaries) by reflexivity.
  destruct (z =? 165) eqn:Q; [|reflexivity]. apply Z.eqb_eq in Q. exfalso. apply N. subst z. apply (incl_check [165]); [reflexivity|left; reflexivity].
Qed.
Lemma verify_complete_plain self a b f : readable a -> readable b -> ~ flag f P2SH -> ~ flag f MINIMALDATA -> push_only f a -> sized a -> sized b -> avoids delicate a -> avoids delicate b ->
  (forall x, result (bitcoin f) (ref_script a) (ref_script b) x -> clean x) ->
  ref_accepts (bitcoin f) (ref_script a) (ref_script b) -> verify self a b f = Ok (true, IE_None).
Proof.
  intros RA RB NP NM PO SA SB AA AB CL. apply verify_complete; auto; try (eapply avoids_sub; [|eassumption]; apply incl_check; reflexivity).
  assert (K : forall z s, ~ In z delicate -> tests_clean [99; 100; 105; 115] z s /\ short_operands z s /\ (flag f MINIMALDATA -> ~ 1 <= z <= 78)).
  { intros z s N. split; [intros I; exfalso; apply N; revert I; apply incl_check; reflexivity|]. split; [|intros F; contradiction]. unfold short_operands. rewrite (takes_none z N). constructor. }
  split.
  - intros l1 z d l2 st1 E _ _. apply K. exact (avoids_in _ _ _ _ _ _ AA E).
  - intros s _ l1 z d l2 st1 E _ _. apply K. exact (avoids_in _ _ _ _ _ _ AB E).
Qed.

(** ** witnesses *)
Definition op (z : Z) : instr := Instr (Zb z) None.
Definition data (l : bytes) : instr := Instr (Zb (blen l)) (Some (BA l)).
Definition code (l : list instr) : script := Script None l.
Lemma readable_code l : forallb (fun i => match i_data i with
     | None => negb ((1 <=? bZ (i_op i)) && (bZ (i_op i) <=? 78))
     | Some (BA l) => (1 <=? bZ (i_op i)) && (bZ (i_op i) <=? 75) && (blen l =? bZ (i_op i)) | Some (Str _) => false end) l = true -> readable (code l).
Proof.
  rewrite forallb_forall. intros H. apply Forall_forall. intros i I. specialize (H i I). unfold well_formed, pushdata, pushes, push_length.
  destruct (i_data i) as [[d|d]|]; [discriminate| |].
  - split; [|split; [lia|intros x [= <-]; exact Logic.I]].
    unfold pyb_len, blen in *. cbn [pyb_bytes] in *. lia.
  - split; [lia|]. split; [lia|discriminate].
Qed.
Lemma avoids_code zs l : forallb (fun i => negb (existsb (Z.eqb (bZ (i_op i))) zs)) l = true -> avoids zs (code l).
Proof.
  rewrite forallb_forall. intros H. apply Forall_forall. intros i I X. specialize (H i I). apply negb_true_iff in H.
  assert (existsb (Z.eqb (bZ (i_op i))) zs = true) by (apply existsb_exists; eexists; split; [exact X|apply Z.eqb_refl]). congruence.
Qed.
Lemma not_accepted D l m : match ref_eval D l [] with Some s => match ref_eval D m s with Some (x :: _) => negb (d_true D x) | _ => true end | None => true end = true ->
  ~ ref_accepts D l m.
Proof. intros H (s & x & t & A & B & T). rewrite A, B, T in H. discriminate. Qed.
Lemma accepted D l m : match ref_eval D l [] with Some s => match ref_eval D m s with Some (x :: _) => d_true D x | _ => false end | None => false end = true ->
  ref_accepts D l m.
Proof.
  intros H. destruct (ref_eval D l []) as [s|] eqn:A; [|discriminate]. destruct (ref_eval D m s) as [[|x t]|] eqn:B; try discriminate.
  exists s, x, t. auto.
Qed.
Definition odd_true : instr := data [x00; x01].
Definition up_witness (z : Z) : list instr :=
  if z =? 99 then [odd_true; op 99; op 0; op 103; op 81; op 104]
  else if z =? 100 then [odd_true; op 100; op 81; op 104]
  else if z =? 115 then [odd_true; op 115; op 116; op 81; op 156]
  else if z =? 117 then [op 81; op 0; op 81; op 117]
  else [op 0; op 144].
Lemma five_needed z : In z five -> exists a b, readable a /\ readable b /\ avoids (others z five) a /\ avoids (others z five) b /\
  3 * (blen (s_ins a) + blen (s_ins b)) <= 1000 /\ (forall self, verify self a b 0 = Ok (true, IE_None)) /\ ~ ref_accepts (bitcoin 0) (ref_script a) (ref_script b).
Proof.
  intros H. exists (code []), (code (up_witness z)).
  destruct H as [<-|[<-|[<-|[<-|[<-|[]]]]]].
  all: split; [apply readable_code; reflexivity|]; split; [apply readable_code; vm_compute; reflexivity|];
    split; [apply avoids_code; reflexivity|]; split; [apply avoids_code; vm_compute; reflexivity|]; split; [vm_compute; discriminate|];
    split; [intros self; vm_compute; reflexivity|apply not_accepted; vm_compute; reflexivity].
Qed.
Definition down_witness (z : Z) : list instr :=
  if z =? 117 then [op 81; op 0; op 117]
  else if z =? 144 then [op 82; op 144; op 82; op 156]
  else if z =? 169 then [op 81; op 81; op 81; op 169; op 109]
  else [op 81; op 177].
Lemma four_needed z : In z four -> exists a b, readable a /\ readable b /\ sized a /\ sized b /\ avoids (others z four) a /\ avoids (others z four) b /\
  ref_accepts (bitcoin 0) (ref_script a) (ref_script b) /\ (forall self, verify self a b 0 <> Ok (true, IE_None)).
Proof.
  intros H. exists (code []), (code (down_witness z)).
  assert (R1 : readable (code [])) by (apply readable_code; reflexivity).
  assert (R2 : readable (code (down_witness z))) by (destruct H as [<-|[<-|[<-|[<-|[]]]]]; apply readable_code; vm_compute; reflexivity).
  split; [exact R1|]. split; [exact R2|]. split; [apply (sized_iff _ R1); exists []; split; [reflexivity|discriminate]|].
  split; [apply (sized_iff _ R2); destruct H as [<-|[<-|[<-|[<-|[]]]]]; eexists; (split; [vm_compute; reflexivity|vm_compute; discriminate])|].
  split; [apply avoids_code; reflexivity|].
  split; [destruct H as [<-|[<-|[<-|[<-|[]]]]]; apply avoids_code; vm_compute; reflexivity|].
  destruct H as [<-|[<-|[<-|[<-|[]]]]].
  all: split; [apply accepted; lazy; reflexivity|intros self; vm_compute; discriminate].
Qed.
Lemma truth_needed : exists a b, readable a /\ readable b /\ sized a /\ sized b /\ avoids delicate a /\ avoids delicate b /\
  ref_accepts (bitcoin 0) (ref_script a) (ref_script b) /\ (forall self, verify self a b 0 <> Ok (true, IE_None)).
Proof.
  exists (code []), (code [odd_true]). assert (R1 : readable (code [])) by (apply readable_code; reflexivity).
  assert (R2 : readable (code [odd_true])) by (apply readable_code; vm_compute; reflexivity).
  split; [exact R1|]. split; [exact R2|]. split; [apply (sized_iff _ R1); exists []; split; [reflexivity|discriminate]|].
  split; [apply (sized_iff _ R2); eexists; split; [vm_compute; reflexivity|vm_compute; discriminate]|].
  split; [apply avoids_code; reflexivity|]. split; [apply avoids_code; vm_compute; reflexivity|].
  split; [apply accepted; vm_compute; reflexivity|intros self; vm_compute; discriminate].
Qed.
Lemma short_needed : exists a b, readable a /\ readable b /\ sized a /\ sized b /\ avoids (others 139 delicate) a /\ avoids (others 139 delicate) b /\
  ref_accepts (bitcoin 0) (ref_script a) (ref_script b) /\ (forall self, verify self a b 0 <> Ok (true, IE_None)).
Proof.
  exists (code []), (code [data [x01; x00; x00; x01]; op 139]). assert (R1 : readable (code [])) by (apply readable_code; reflexivity).
  assert (R2 : readable (code [data [x01; x00; x00; x01]; op 139])) by (apply readable_code; vm_compute; reflexivity).
  split; [exact R1|]. split; [exact R2|]. split; [apply (sized_iff _ R1); exists []; split; [reflexivity|discriminate]|].
  split; [apply (sized_iff _ R2); eexists; split; [vm_compute; reflexivity|vm_compute; discriminate]|].
  split; [apply avoids_code; reflexivity|]. split; [apply avoids_code; vm_compute; reflexivity|].
  split; [apply accepted; vm_compute; reflexivity|intros self; vm_compute; discriminate].
Qed.

Lemma flags_needed f : In f [1; 64] -> exists a b, readable a /\ readable b /\ push_only f a /\ sized a /\ sized b /\ avoids delicate a /\ avoids delicate b /\
  (forall x, result (bitcoin f) (ref_script a) (ref_script b) x -> clean x) /\ ref_accepts (bitcoin f) (ref_script a) (ref_script b) /\ (forall self, verify self a b f <> Ok (true, IE_None)).
Proof.
  intros H. exists (code []), (code [data [x07; x08]; op 118; op 135]). assert (R1 : readable (code [])) by (apply readable_code; reflexivity).
  assert (R2 : readable (code [data [x07; x08]; op 118; op 135])) by (apply readable_code; vm_compute; reflexivity).
  split; [exact R1|]. split; [exact R2|]. split; [intros _; constructor|]. split; [apply (sized_iff _ R1); exists []; split; [reflexivity|discriminate]|].
  split; [apply (sized_iff _ R2); eexists; split; [vm_compute; reflexivity|vm_compute; discriminate]|].
  split; [apply avoids_code; reflexivity|]. split; [apply avoids_code; vm_compute; reflexivity|].
  destruct H as [<-|[<-|[]]]; (split; [|split; [apply accepted; vm_compute; reflexivity|intros self; vm_compute; discriminate]]);
  intros x (s & t & A & B); vm_compute in A; injection A as <-; vm_compute in B; injection B as <- <-; intros (r & E & _); discriminate.
Qed.

(** more than 1000 items on the way *)
Lemma push_run k : forall r s, ref_run (bitforge 0) (repeat (81, None) k ++ r) (RState s [] [] 0) = ref_run (bitforge 0) r (RState (repeat [x01] k ++ s) [] [] 0).
Proof.
  induction k as [|k IH]; intros r s; [reflexivity|]. cbn [repeat app]. change (ref_run (bitforge 0) ((81, None) :: repeat (81, None) k ++ r) (RState s [] [] 0))
    with (ref_run (bitforge 0) (repeat (81, None) k ++ r) (RState ([x01] :: s) [] [] 0)). rewrite IH. f_equal. f_equal.
  clear. change ([x01] :: s) with ([[x01]] ++ s). rewrite app_assoc, <- repeat_cons. reflexivity.
Qed.
Lemma push_full k : forall r s, 0 < Z.of_nat k -> 1000 < blen s + Z.of_nat k -> ref_run (bitcoin 0) (repeat (81, None) k ++ r) (RState s [] [] 0) = None.
Proof.
  induction k as [|k IH]; intros r s P H; [lia|]. cbn [repeat app ref_run]. change (ref_step (bitcoin 0) (81, None) (RState s [] [] 0)) with (Some (RState ([x01] :: s) [] [] 0)).
  cbv iota beta. destruct (_ || _) eqn:L; [|reflexivity]. cbn [d_each bitcoin negb orb] in L. unfold in_limit in L. cbn [r_main r_alt] in L.
  rewrite blen_cons, (@blen_nil bytes) in L. apply IH; [lia|]. rewrite blen_cons. lia.
Qed.
Lemma ops_wire l : Forall (fun i => i_data i = None /\ ~ pushes (i_op i)) l -> wire_script (map content l) (map i_op l).
Proof.
  induction 1 as [|[o d] l [E N] H IH]; cbn [map]; [constructor|]. cbn in E, N. subst d.
  apply (ws_cons (o, None) [o] _ (map i_op l)); [constructor; exact N|exact IH].
Qed.
Definition tall : list instr := repeat (op 81) 1002 ++ [op 109].
Lemma tall_ops : Forall (fun i => i_data i = None /\ ~ pushes (i_op i)) tall.
Proof.
  unfold tall. apply Forall_app. split.
  - apply Forall_forall. intros i I. apply repeat_spec in I. subst i. split; [reflexivity|]. unfold pushes. intros [_ K]. vm_compute in K. congruence.
  - constructor; [|constructor]. split; [reflexivity|]. unfold pushes. intros [_ K]. vm_compute in K. congruence.
Qed.
Lemma ones_ref n : map ref_instr (repeat (op 81) n) = repeat (81, None) n.
Proof. induction n as [|n IH]; [reflexivity|]. cbn [repeat map]. rewrite IH. reflexivity. Qed.
Lemma tall_ref : ref_script (code tall) = repeat (81, None) 1002 ++ [(109, None)].
Proof. unfold ref_script, code, tall. cbn [s_ins]. rewrite map_app, ones_ref. reflexivity. Qed.
Lemma limit_needed : exists a b, readable a /\ readable b /\ avoids five a /\ avoids five b /\
  (forall self, verify self a b 0 = Ok (true, IE_None)) /\ ~ ref_accepts (bitcoin 0) (ref_script a) (ref_script b).
Proof.
  exists (code []), (code tall). assert (R1 : readable (code [])) by (apply readable_code; reflexivity).
  assert (R2 : readable (code tall)).
  { apply Forall_forall. intros i I. pose proof tall_ops as T. rewrite Forall_forall in T. destruct (T i I) as [E N]. unfold well_formed. rewrite E.
    split; [exact N|]. split; [unfold pushdata; unfold pushes in N; lia|discriminate]. }
  split; [exact R1|]. split; [exact R2|]. split; [constructor|]. split.
  { apply Forall_forall. intros i I. cbn [s_ins code] in I. unfold tall in I. apply in_app_or in I. destruct I as [I|[I|[]]]; [apply repeat_spec in I|]; subst i; vm_compute; intuition congruence. }
  split.
  - intros self. apply verify_ref; [exact R1|exact R2|]. split; [discriminate|]. split; [discriminate|]. split; [apply (sized_iff _ R1); exists []; split; [reflexivity|discriminate]|].
    split. { exists (map i_op tall). split; [apply ops_wire, tall_ops|]. rewrite blen_map. unfold tall, blen. rewrite app_length, repeat_length. vm_compute. discriminate. }
    rewrite tall_ref. exists [], [x01], (repeat [x01] 999). split; [reflexivity|]. unfold ref_eval. rewrite push_run.
    change 1002%nat with (2 + 1000)%nat. rewrite repeat_app, <- app_assoc, app_nil_r. 
    change (ref_run (bitforge 0) [(109, None)] (RState (repeat [x01] 2 ++ repeat [x01] 1000) [] [] 0)) with (Some (RState (repeat [x01] 1000) [] [] 1)).
    cbv iota beta. cbn [r_cond]. unfold in_limit. cbn [r_main r_alt]. unfold blen at 1. rewrite repeat_length. split; reflexivity.
  - intros (s & x & t & A & B & T). rewrite tall_ref in B. cbn in A. injection A as <-. unfold ref_eval in B. rewrite push_full in B; [discriminate|lia|rewrite blen_nil; lia].
Qed.

(** ** for the examples *)
Fixpoint check_run (D : dialect) (p : Z -> list bytes -> bool) (l : list (Z * option bytes)) (st : rstate) : bool :=
  match l with
  | [] => true
  | (z, d) :: r => (existsb negb (r_cond st) || p z (r_main st)) &&
      match ref_step D (z, d) st with Some st1 => check_run D p r st1 | None => true end
  end.
Lemma check_throughout D (P : Z -> list bytes -> Prop) p : (forall z s, p z s = true -> P z s) -> forall l st, check_run D p l st = true -> throughout D P l st.
Proof.
  intros R. induction l as [|[z d] l IH]; intros st C l1 z1 d1 l2 st1 E Q N.
  - destruct l1; discriminate.
  - cbn [check_run] in C. apply andb_true_iff in C. destruct C as [C1 C2]. destruct l1 as [|i l1]; cbn [app] in E.
    + injection E as -> -> ->. cbn in Q. injection Q as <-. apply orb_true_iff in C1. destruct C1 as [C1|C1]; [|exact (R _ _ C1)].
      exfalso. apply N. apply existsb_exists in C1. destruct C1 as (x & I & X). destruct x; [discriminate|exact I].
    + injection E as <- ->. cbn [ref_run] in Q. destruct (ref_step D (z, d) st) as [st2|]; [|discriminate].
      destruct (negb (d_each D) || in_limit st2); [|discriminate]. exact (IH st2 C2 l1 z1 d1 l2 st1 eq_refl Q N).
Qed.
Definition clean_check (x : bytes) : bool := Bool.eqb (first_bool x) (bitcoin_bool x).
Lemma clean_check_ok x : clean_check x = true -> clean x.
Proof.
  unfold clean_check. intros H (r & -> & T). apply bitcoin_bool_spec in T. rewrite T in H. destruct r; vm_compute in H; discriminate.
Qed.
Definition both_check (fl : Z) (z : Z) (s : list bytes) : bool :=
  (negb (existsb (Z.eqb z) [99; 100; 105; 115]) || match s with x :: _ => clean_check x | [] => true end) && forallb (fun x => blen x <=? 3) (firstn (takes z) s)
  && (negb (Z.testbit fl MINIMALDATA) || negb ((1 <=? z) && (z <=? 78))).
Lemma both_check_ok fl z s : both_check fl z s = true -> tests_clean [99; 100; 105; 115] z s /\ short_operands z s /\ (flag fl MINIMALDATA -> ~ 1 <= z <= 78).
Proof.
  unfold both_check. intros H. apply andb_true_iff in H. destruct H as [H C]. apply andb_true_iff in H. destruct H as [A B]. split; [|split].
  - intros I x r ->. apply clean_check_ok. apply orb_true_iff in A. destruct A as [A|A]; [|exact A]. exfalso. apply negb_true_iff in A.
    assert (existsb (Z.eqb z) [99; 100; 105; 115] = true) by (apply existsb_exists; exists z; split; [exact I|apply Z.eqb_refl]). congruence.
  - apply Forall_forall. rewrite forallb_forall in B. intros x I. specialize (B x I). lia.
  - unfold flag. intros F. rewrite F in C. cbn [negb orb] in C. lia.
Qed.
(** 2 3 ADD 5 NUMEQUAL VERIFY under IF, then TRUE: fits both theorems with conditions *)
Definition ex_sig : script := code [op 82; op 83; op 81].
Definition ex_key : script := code [op 99; op 147; op 85; op 156; op 105; op 103; op 0; op 104; op 81].
Lemma ex_ref_conditions : readable ex_sig /\ readable ex_key /\ ~ flag 240 P2SH /\ push_only 240 ex_sig /\ sized ex_sig /\ sized ex_key /\
  avoids [117; 144; 169; 174; 175; 177] ex_sig /\ avoids [117; 144; 169; 174; 175; 177] ex_key /\
  during (bitcoin 240) (fun z s => tests_clean [99; 100; 105; 115] z s /\ short_operands z s /\ (flag 240 MINIMALDATA -> ~ 1 <= z <= 78)) (ref_script ex_sig) (ref_script ex_key) /\
  (forall x, result (bitcoin 240) (ref_script ex_sig) (ref_script ex_key) x -> clean x) /\ ref_accepts (bitcoin 240) (ref_script ex_sig) (ref_script ex_key).
Proof.
  assert (R1 : readable ex_sig) by (apply readable_code; vm_compute; reflexivity).
  assert (R2 : readable ex_key) by (apply readable_code; vm_compute; reflexivity).
  split; [exact R1|]. split; [exact R2|]. split; [discriminate|]. split; [intros _; repeat constructor; vm_compute; discriminate|].
  split; [apply (sized_iff _ R1); eexists; split; [vm_compute; reflexivity|vm_compute; discriminate]|].
  split; [apply (sized_iff _ R2); eexists; split; [vm_compute; reflexivity|vm_compute; discriminate]|].
  split; [apply avoids_code; vm_compute; reflexivity|]. split; [apply avoids_code; vm_compute; reflexivity|].
  split; [|split; [|apply accepted; vm_compute; reflexivity]].
  - split; [apply (check_throughout _ _ (both_check 240) (both_check_ok 240)); vm_compute; reflexivity|].
    intros s E. vm_compute in E. injection E as <-. apply (check_throughout _ _ (both_check 240) (both_check_ok 240)). vm_compute. reflexivity.
  - intros x (s & t & A & B). vm_compute in A. injection A as <-. vm_compute in B. injection B as <- <-. apply clean_check_ok. reflexivity.
Qed.
Lemma ex_ref_sound : avoids [117; 144] ex_sig /\ avoids [117; 144] ex_key /\ 3 * (blen (s_ins ex_sig) + blen (s_ins ex_key)) <= 1000 /\
  during (bitforge 240) (tests_clean [99; 100; 115]) (ref_script ex_sig) (ref_script ex_key) /\ forall self, verify self ex_sig ex_key 240 = Ok (true, IE_None).
Proof.
  split; [apply avoids_code; vm_compute; reflexivity|]. split; [apply avoids_code; vm_compute; reflexivity|]. split; [vm_compute; discriminate|].
  assert (W : forall z s, both_check 240 z s = true -> tests_clean [99; 100; 115] z s).
  { intros z s H I. apply (proj1 (both_check_ok 240 z s H)). cbn in *. tauto. }
  split; [|intros self; vm_compute; reflexivity].
  split; [apply (check_throughout _ _ (both_check 240) W); vm_compute; reflexivity|].
  intros s E. vm_compute in E. injection E as <-. apply (check_throughout _ _ (both_check 240) W). vm_compute. reflexivity.
Qed.
Definition ex_plain : script := code [data [x07; x08]; op 118; op 135].
Lemma ex_ref_plain : readable (code []) /\ readable ex_plain /\ ~ flag 160 P2SH /\ ~ flag 160 MINIMALDATA /\ push_only 160 (code []) /\ sized (code []) /\ sized ex_plain /\ avoids delicate ex_plain /\
  (forall x, result (bitcoin 160) [] (ref_script ex_plain) x -> clean x) /\ ref_accepts (bitcoin 160) [] (ref_script ex_plain) /\
  forall self, verify self (code []) ex_plain 160 = Ok (true, IE_None).
Proof.
  assert (R1 : readable (code [])) by (apply readable_code; reflexivity).
  assert (R2 : readable ex_plain) by (apply readable_code; vm_compute; reflexivity).
  split; [exact R1|]. split; [exact R2|]. split; [discriminate|]. split; [discriminate|]. split; [intros _; constructor|]. split; [apply (sized_iff _ R1); exists []; split; [reflexivity|discriminate]|].
  split; [apply (sized_iff _ R2); eexists; split; [vm_compute; reflexivity|vm_compute; discriminate]|].
  split; [apply avoids_code; vm_compute; reflexivity|].
  split; [|split; [apply accepted; vm_compute; reflexivity|intros self; vm_compute; reflexivity]].
  intros x (s & t & A & B). vm_compute in A. injection A as <-. vm_compute in B. injection B as <- <-. apply clean_check_ok. reflexivity.
Qed.
