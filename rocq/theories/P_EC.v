(** The elliptic-curve code computes the group law. *)
From Coq Require Import ZArith Znumtheory Lia Bool List Field.
From Verif Require Import Base M_EC S_EC P_Field P_NumTheory P_Group.
Import ListNotations.
Open Scope Z_scope.

Lemma order_assertion_vacuous c x y o : 0 < o -> p_mul c (PAff x y (Some o)) o = Ok PInf.
Proof.
  intros O. unfold p_mul. cbn zeta. destruct (Z.eqb_spec o 0); [lia|]. rewrite Z_mod_same_full. reflexivity.
Qed.

Section EC.
Context (c : curve).
Notation p := (c_p c).
Context (PR : prime p) (OD : p <> 2).
Notation a := (of p (c_a c)).
Notation b := (of p (c_b c)).
Notation F := (fp p).
Add Field Ffield3 : (fp_field PR).
Notation gadd := (gadd a).
Notation gon := (gon a b).

Lemma pp : 1 < p. Proof. exact (p_gt1 PR). Qed.
Definition emb (P : point) : gpt p := match P with PInf => GInf | PAff x y _ => GAff (of p x) (of p y) end.
Definition unemb (P : gpt p) : ecp := match P with GInf => EO | GAff x y => EA (fv x) (fv y) end.
Lemma unemb_emb P : unemb (emb P) = stands p P.
Proof. destruct P; reflexivity. Qed.
Lemma unemb_inj P Q : unemb P = unemb Q -> P = Q.
Proof. destruct P, Q; cbn; intros H; try discriminate; [reflexivity|]. injection H as H1 H2. f_equal; apply fp_eq; assumption. Qed.

Lemma on_of x y : (y * y) mod p = (x * x * x + c_a c * x + c_b c) mod p <-> gon (GAff (of p x) (of p y)).
Proof. cbn. rewrite <- !of_mul, <- !of_add. symmetry. apply of_eq. Qed.
Lemma contains_of x y : contains_point c x y = true <-> gon (GAff (of p x) (of p y)).
Proof.
  rewrite <- on_of. unfold contains_point. rewrite Z.eqb_eq. split; intros H.
  - apply (f_equal (fun z => (z + (x * x * x + c_a c * x + c_b c)) mod p)) in H.
    rewrite Zplus_mod_idemp_l in H. rewrite Z.add_0_l in H. rewrite <- H. f_equal. ring.
  - rewrite Zminus_mod, H, Z.sub_diag. apply Zmod_0_l.
Qed.
Lemma valid_on P : valid c P -> gon (emb P).
Proof. destruct P as [|x y o]; [exact (fun _ => I)|]. intros (_ & H). apply on_of, H. Qed.
Lemma valid_intro x y o : 0 <= x < p -> gon (GAff (of p x) (of p y)) -> valid c (PAff x y o).
Proof. intros R H. split; [exact R|]. apply on_of, H. Qed.
Lemma new_point_ok x y o : gon (GAff (of p x) (of p y)) -> new_point c x y o = Ok (PAff x y o).
Proof. intros H. unfold new_point. apply contains_of in H. rewrite H. reflexivity. Qed.

Lemma inv_ok z : of p z <> of p 0 -> exists r, inverse_mod z p = Ok r /\ fmul (of p z) (of p r) = of p 1.
Proof.
  intros N. pose proof pp. destruct (inverse_mod_spec z p pp) as (A & _). destruct A as (r & E & R & M).
  - assert (rel_prime p z) as G by (apply prime_rel_prime; [exact PR|]; intros D; apply N, (of_zero PR), D).
    apply Zgcd_1_rel_prime in G. rewrite Z.gcd_comm. exact G.
  - exists r. split; [exact E|]. rewrite <- of_mul. apply of_eq. rewrite M, Zmod_1_l; lia.
Qed.
Lemma inv_fail z : of p z = of p 0 -> inverse_mod z p = Err E_AssertionError.
Proof.
  intros N. pose proof pp. destruct (inverse_mod_spec z p pp) as (_ & A). apply A. apply (of_zero PR) in N.
  rewrite Z.gcd_comm. apply Z.divide_gcd_iff in N; [|lia]. rewrite N. lia.
Qed.
Lemma finv_unique (x y : F) : fmul x y = of p 1 -> y = finv x.
Proof.
  intros H. assert (x <> of p 0).
  { intros ->. apply (one_neq0 PR). rewrite <- H. ring. }
  apply (P_Group.fcancel PR x); [assumption|]. rewrite H. field. assumption.
Qed.

(** a result computed with all coordinates reduced *)
Lemma third_new x1 y1 x2 (l' : F) l : of p l = l' -> gon (third (of p x1) (of p y1) (of p x2) l') ->
  let x3 := (l * l - x1 - x2) mod p in
  let y3 := (l * (x1 - x3) - y1) mod p in
  new_point c x3 y3 None = Ok (PAff x3 y3 None) /\ valid c (PAff x3 y3 None) /\ reduced c (PAff x3 y3 None) /\
  emb (PAff x3 y3 None) = third (of p x1) (of p y1) (of p x2) l'.
Proof.
  intros E G x3 y3. pose proof pp. subst l'.
  assert (EE : emb (PAff x3 y3 None) = third (of p x1) (of p y1) (of p x2) (of p l)).
  { unfold third, emb, y3, x3. rewrite !(of_mod PR), !of_sub, !of_mul, !of_sub, !(of_mod PR), !of_sub, !of_mul. reflexivity. }
  pose proof (Z.mod_pos_bound (l * l - x1 - x2) p ltac:(lia)). pose proof (Z.mod_pos_bound (l * (x1 - x3) - y1) p ltac:(lia)).
  rewrite <- EE in G. repeat split; try (apply new_point_ok; exact G); try assumption; try (unfold x3, y3; lia).
  apply on_of, G.
Qed.

(** ** doubling *)
Lemma two_y y : of p y <> of p 0 -> of p (2 * y) <> of p 0.
Proof.
  intros N E. apply N. rewrite of_mul in E. apply (fmul_zero PR) in E. destruct E as [E|E]; [|exact E].
  exfalso. apply (two_neq0 PR OD). rewrite <- of_add. exact E.
Qed.
Lemma p_double_ok P : valid c P -> (forall x y o, P = PAff x y o -> of p y <> of p 0) ->
  exists R, p_double c P = Ok R /\ valid c R /\ reduced c R /\ emb R = gadd (emb P) (emb P).
Proof.
  intros V N. destruct P as [|x y o]; [exists PInf; repeat split|]. specialize (N _ _ _ eq_refl).
  cbn [p_double]. cbn zeta. destruct (inv_ok (2 * y) (two_y y N)) as (i & -> & I). cbn [bind].
  set (l := ((3 * x * x + c_a c) * i) mod p). pose proof (valid_on _ V) as ON. cbn [emb] in ON.
  assert (L : of p l = fdiv (fadd (fmul (fmul (fadd (fadd (of p 1) (of p 1)) (of p 1)) (of p x)) (of p x)) a) (fmul (fadd (of p 1) (of p 1)) (of p y))).
  { unfold l, fdiv. rewrite (of_mod PR), of_mul. apply finv_unique in I. rewrite I. f_equal.
    - rewrite of_add, !of_mul. change (of p 3) with (of p (1 + 1 + 1)). rewrite !of_add. reflexivity.
    - f_equal. rewrite of_mul. change (of p 2) with (of p (1 + 1)). rewrite of_add. reflexivity. }
  assert (GE : gadd (emb (PAff x y o)) (emb (PAff x y o)) = third (of p x) (of p y) (of p x) (of p l)).
  { cbn [emb P_Group.gadd]. destruct (fp_eq_dec p (of p x) (of p x)) as [_|K]; [|contradiction].
    destruct (fp_eq_dec p (fadd (of p y) (of p y)) (of p 0)) as [K|K]; [|rewrite L; reflexivity].
    exfalso. apply N. apply (half0 PR OD). exact K. }
  assert (ON2 : gon (third (of p x) (of p y) (of p x) (of p l))) by (rewrite <- GE; apply (gadd_on PR a b OD); exact ON).
  destruct (third_new x y x _ l eq_refl ON2) as (A1 & A2 & A3 & A4).
  replace (l * l - 2 * x) with (l * l - x - x) by ring. eexists. split; [exact A1|]. split; [exact A2|]. split; [exact A3|].
  rewrite GE. exact A4.
Qed.
Lemma p_double_fail x y o : of p y = of p 0 -> p_double c (PAff x y o) = Err E_AssertionError.
Proof.
  intros E. cbn [p_double]. cbn zeta. rewrite inv_fail; [reflexivity|]. rewrite of_mul, E. ring.
Qed.

(** ** addition *)
Lemma p_add_ok P Q : valid c P -> valid c Q ->
  exists R, p_add c P Q = Ok R /\ valid c R /\ emb R = gadd (emb P) (emb Q) /\ (P <> PInf -> Q <> PInf -> reduced c R).
Proof.
  intros VP VQ. destruct Q as [|x2 y2 o2].
  { exists P. split; [destruct P; reflexivity|]. split; [exact VP|]. split; [destruct P; reflexivity|]. intros _ K. contradiction. }
  destruct P as [|x1 y1 o1].
  { exists (PAff x2 y2 o2). split; [reflexivity|]. split; [exact VQ|]. split; [reflexivity|]. intros K. contradiction. }
  cbn [p_add]. cbn zeta. pose proof pp. pose proof (valid_on _ VP) as ON1. pose proof (valid_on _ VQ) as ON2.
  destruct VP as (R1 & VP), VQ as (R2 & VQ). destruct (Z.eqb_spec x1 x2) as [->|NX].
  - destruct (Z.eqb_spec ((y1 + y2) mod p) 0) as [S|S].
    + exists PInf. split; [reflexivity|]. split; [exact I|]. split; [|intros; exact I]. cbn [emb].
      symmetry. apply (gadd_opposite a). split; [reflexivity|]. rewrite <- of_add. apply of_eq. rewrite S, Zmod_0_l. reflexivity.
    + assert (Y : fadd (of p y1) (of p y2) <> of p 0).
      { rewrite <- of_add. intros E. apply of_eq in E. rewrite Zmod_0_l in E. contradiction. }
      pose proof (on_same_x PR a b _ _ _ ON1 ON2 Y) as YE.
      destruct (p_double_ok (PAff x2 y1 o1)) as (R & A1 & A2 & A3 & A4).
      * split; assumption.
      * intros x y o E. injection E as <- <- <-. intros E. apply Y. rewrite <- YE, E. ring.
      * exists R. split; [exact A1|]. split; [exact A2|]. split; [|intros; exact A3]. rewrite A4. cbn [emb]. rewrite YE. reflexivity.
  - assert (NX' : of p x1 <> of p x2) by (intros E; apply of_eq in E; rewrite !Z.mod_small in E by lia; contradiction).
    assert (NS : of p (x2 - x1) <> of p 0).
    { rewrite of_sub. apply (sub_neq PR). intros E. apply NX'. symmetry. exact E. }
    destruct (inv_ok (x2 - x1) NS) as (i & -> & I). cbn [bind]. set (l := ((y2 - y1) * i) mod p).
    assert (L : of p l = fdiv (fsub (of p y2) (of p y1)) (fsub (of p x2) (of p x1))).
    { unfold l, fdiv. rewrite (of_mod PR), of_mul. apply finv_unique in I. rewrite I, !of_sub. reflexivity. }
    assert (GE : gadd (emb (PAff x1 y1 o1)) (emb (PAff x2 y2 o2)) = third (of p x1) (of p y1) (of p x2) (of p l)).
    { cbn [emb P_Group.gadd]. destruct (fp_eq_dec p (of p x1) (of p x2)) as [K|_]; [contradiction|]. rewrite L. reflexivity. }
    assert (ON3 : gon (third (of p x1) (of p y1) (of p x2) (of p l))) by (rewrite <- GE; apply (gadd_on PR a b OD); assumption).
    destruct (third_new x1 y1 x2 _ l eq_refl ON3) as (A1 & A2 & A3 & A4).
    eexists. split; [exact A1|]. split; [exact A2|]. split; [|intros; exact A3]. rewrite GE. exact A4.
Qed.

(** ** the relation of the specification *)
Lemma fv_of (x : F) z : of p z = x <-> z mod p = fv x.
Proof. split; [intros <-; reflexivity|intros E; apply fp_eq; exact E]. Qed.
Lemma gadd_is_sum P Q : gon P -> gon Q -> is_sum p (c_a c) (unemb P) (unemb Q) (unemb (gadd P Q)).
Proof.
  intros A B. destruct P as [|x1 y1]; [apply sum_left|]. destruct Q as [|x2 y2]; [apply sum_right|].
  cbn [P_Group.gadd]. destruct (fp_eq_dec p x1 x2) as [->|NX].
  - destruct (fp_eq_dec p (fadd y1 y2) (of p 0)) as [S|S].
    + apply sum_vertical. assert (E : (fv y1 + fv y2) mod p = 0 mod p) by (apply of_eq; exact S). rewrite E. apply Zmod_0_l.
    + pose proof (on_same_x PR a b _ _ _ A B S) as ->. cbn [unemb third].
      set (l := fdiv _ _). assert (N : y2 <> of p 0) by (intros ->; apply S; ring).
      apply (sum_tangent _ _ _ _ (fv l)).
      * intros E. apply (two_y (fv y2)); [rewrite of_fv; exact N|]. apply of_eq. rewrite E, Zmod_0_l. reflexivity.
      * apply of_eq. rewrite of_add, !of_mul, !of_fv. change (of p 2) with (of p (1 + 1)). change (of p 3) with (of p (1 + 1 + 1)).
        rewrite !of_add. unfold l. field. split; [exact N|exact (two_neq0 PR OD)].
      * symmetry. apply fv_of. rewrite !of_sub, of_mul, !of_fv. reflexivity.
      * symmetry. apply fv_of. rewrite !of_sub, of_mul, of_sub, !of_fv. reflexivity.
  - cbn [unemb third]. set (l := fdiv _ _). apply (sum_chord _ _ _ _ _ _ (fv l)).
    + intros E. apply NX, fp_eq, E.
    + apply of_eq. rewrite of_mul, !of_sub, !of_fv. unfold l. field. apply (sub_neq PR). congruence.
    + symmetry. apply fv_of. rewrite !of_sub, of_mul, !of_fv. reflexivity.
    + symmetry. apply fv_of. rewrite !of_sub, of_mul, of_sub, !of_fv. reflexivity.
Qed.

(** ** multiples *)
Fixpoint gmul (n : nat) (P : gpt p) : gpt p := match n with O => GInf | S n => gadd (gmul n P) P end.
Lemma gmul_on n P : gon P -> gon (gmul n P).
Proof. intros A. induction n as [|n IH]; cbn [gmul]; [exact I|]. apply (gadd_on PR a b OD); assumption. Qed.
Lemma gmul_multiple n P : gon P -> multiple p (c_a c) (unemb P) (Z.of_nat n) (unemb (gmul n P)).
Proof.
  intros A. induction n as [|n IH]; [apply mult_0|]. rewrite Nat2Z.inj_succ. unfold Z.succ.
  eapply mult_S; [lia|exact IH|]. cbn [gmul]. apply gadd_is_sum; [apply gmul_on, A|exact A].
Qed.

Section Nonsing.
Context (NS : nonsingular c).
Lemma NSF : forall x : F, fadd (fmul (fmul (fadd (fadd (of p 1) (of p 1)) (of p 1)) x) x) a = of p 0 ->
  fadd (fadd (fmul (fmul x x) x) (fmul a x)) b <> of p 0.
Proof.
  intros x. rewrite <- (of_fv p x). generalize (fv x). clear x. intros x H K.
  repeat (rewrite <- of_add in H || rewrite <- of_mul in H). repeat (rewrite <- of_add in K || rewrite <- of_mul in K).
  change (1 + 1 + 1) with 3 in H.
  apply of_eq in H, K. rewrite Zmod_0_l in H, K. exact (NS x H K).
Qed.
Lemma gmul_add n m P : gon P -> gmul (n + m) P = gadd (gmul n P) (gmul m P).
Proof.
  intros A. induction m as [|m IH]; [rewrite Nat.add_0_r; cbn [gmul]; symmetry; apply (gadd_inf_r a)|].
  rewrite Nat.add_succ_r. cbn [gmul]. rewrite IH. apply (gadd_assoc PR a b OD NSF); try apply gmul_on; exact A.
Qed.
Lemma gmul_pred n P : gon P -> gadd (gmul (S n) P) (gneg P) = gmul n P.
Proof.
  intros A. cbn [gmul]. pose proof (gmul_on n P A). rewrite (gadd_comm PR a b OD);
    [|apply (gadd_on PR a b OD); assumption|apply (gneg_on PR a b), A].
  rewrite (gadd_comm PR a b OD (gmul n P)) by assumption. apply (gcancel PR a b OD NSF); assumption.
Qed.
Lemma gmul_mul n m P : gon P -> gmul (n * m) P = gmul n (gmul m P).
Proof.
  intros A. induction n as [|n IH]; [reflexivity|]. cbn [Nat.mul gmul]. rewrite Nat.add_comm, gmul_add by exact A. rewrite IH. reflexivity.
Qed.
Lemma gmul_inf n : gmul n (@GInf p) = GInf.
Proof. induction n as [|n IH]; cbn [gmul]; [reflexivity|]. rewrite IH. reflexivity. Qed.
End Nonsing.

Section NoTwo.
Context (N2 : no_two_torsion c).
Lemma no_two_nonsing : nonsingular c.
Proof. intros x _. apply N2. Qed.
Lemma y_neq0 x y : gon (GAff (of p x) (of p y)) -> of p y <> of p 0.
Proof.
  intros ON E. apply on_of in ON. apply (N2 x). rewrite <- ON. apply of_eq in E.
  rewrite Zmult_mod, E, Zmod_0_l. reflexivity.
Qed.
Lemma p_double_ok2 P : valid c P ->
  exists R, p_double c P = Ok R /\ valid c R /\ reduced c R /\ emb R = gadd (emb P) (emb P).
Proof. intros V. apply p_double_ok; [exact V|]. intros x y o ->. apply (y_neq0 x), (valid_on _ V). Qed.

Lemma shiftr_step x j : 0 <= j -> Z.shiftr x j = 2 * Z.shiftr x (j + 1) + Z.b2z (Z.testbit x j).
Proof.
  intros J. rewrite <- Z.shiftr_shiftr by lia. rewrite Z.testbit_odd. change (Z.shiftr (Z.shiftr x j) 1) with (Z.div2 (Z.shiftr x j)).
  apply Z.div2_odd.
Qed.
Definition naf (e j : Z) : Z := Z.shiftr (3 * e) j - Z.shiftr e j.
Lemma naf_nonneg e j : 0 <= e -> 0 <= j -> 0 <= naf e j.
Proof.
  intros E J. unfold naf. rewrite !Z.shiftr_div_pow2 by lia. pose proof (Z.pow_pos_nonneg 2 j ltac:(lia) J).
  assert (e / 2 ^ j <= 3 * e / 2 ^ j) by (apply Z.div_le_mono; lia). lia.
Qed.
Lemma naf_step e j : 0 <= j -> naf e j = 2 * naf e (j + 1) + Z.b2z (Z.testbit (3 * e) j) - Z.b2z (Z.testbit e j).
Proof. intros J. unfold naf. rewrite (shiftr_step (3 * e) j), (shiftr_step e j) by exact J. ring. Qed.
Lemma naf_1 e : 0 <= e -> naf e 1 = e.
Proof.
  intros E. unfold naf. change (Z.shiftr (3 * e) 1) with (Z.div2 (3 * e)). change (Z.shiftr e 1) with (Z.div2 e).
  pose proof (Z.div2_odd e) as D. pose proof (Z.div2_odd (3 * e)) as D3.
  assert (O : Z.odd (3 * e) = Z.odd e) by (rewrite Z.odd_mul; reflexivity). rewrite O in D3. lia.
Qed.
Lemma naf_top e : 0 < e -> naf e (Z.log2 (3 * e)) = 1 /\ 1 <= Z.log2 (3 * e).
Proof.
  intros E. pose proof (Z.log2_spec (3 * e) ltac:(lia)) as (A & B). pose proof (Z.log2_nonneg (3 * e)).
  assert (L : 1 <= Z.log2 (3 * e)) by (change 1 with (Z.log2 3); apply Z.log2_le_mono; lia). split; [|exact L].
  unfold naf. rewrite !Z.shiftr_div_pow2 by lia. rewrite Z.pow_succ_r in B by lia.
  assert (3 * e / 2 ^ Z.log2 (3 * e) = 1) by (symmetry; apply (Z.div_unique _ _ _ (3 * e - 2 ^ Z.log2 (3 * e))); lia).
  rewrite (Z.div_small e) by lia. lia.
Qed.

(** no subtraction of the point from INFINITY on the way to [e] *)
Definition no_wrap (P : gpt p) (e : Z) : Prop :=
  forall i, 1 <= i -> naf e i + 1 = 2 * naf e (i + 1) -> gmul (Z.to_nat (naf e i + 1)) P <> GInf.
Lemma mul_loop_ok P Q e : valid c P -> valid c Q -> emb Q = gneg (emb P) -> 0 <= e -> forall j result,
  valid c result -> emb result = gmul (Z.to_nat (naf e (Z.of_nat j + 1))) (emb P) ->
  exists R, mul_loop c P Q e j result = Ok R /\ valid c R /\ emb R = gmul (Z.to_nat e) (emb P) /\
    (reduced c P -> reduced c result -> no_wrap (emb P) e -> reduced c R).
Proof.
  intros VP VQ EQ E. pose proof (valid_on _ VP) as ONP. induction j as [|j IH]; intros result V ER.
  - cbn [mul_loop]. exists result. split; [reflexivity|]. split; [exact V|]. split; [|auto].
    rewrite ER. change (Z.of_nat 0 + 1) with 1. rewrite naf_1 by exact E. reflexivity.
  - cbn [mul_loop]. cbn zeta. destruct (p_double_ok2 result V) as (D & -> & VD & RD & ED). cbn [bind].
    set (i := Z.of_nat (S j)) in *. assert (I0 : 1 <= i) by (unfold i; lia).
    assert (ED2 : emb D = gmul (Z.to_nat (2 * naf e (i + 1))) (emb P)).
    { pose proof (naf_nonneg e (i + 1) E ltac:(lia)). rewrite ED, ER, <- (gmul_add no_two_nonsing) by exact ONP. f_equal. lia. }
    pose proof (naf_step e i ltac:(lia)) as ST. pose proof (naf_nonneg e (i + 1) E ltac:(lia)) as NN. pose proof (naf_nonneg e i E ltac:(lia)) as NN0.
    assert (IX : Z.of_nat j + 1 = i) by (unfold i; lia). rewrite IX in IH.
    assert (FIN : forall T, valid c T -> emb T = gmul (Z.to_nat (naf e i)) (emb P) -> (reduced c P -> no_wrap (emb P) e -> reduced c T) ->
      exists R, mul_loop c P Q e j T = Ok R /\ valid c R /\ emb R = gmul (Z.to_nat e) (emb P) /\
        (reduced c P -> reduced c result -> no_wrap (emb P) e -> reduced c R)).
    { intros T VT ET RT. destruct (IH T VT ET) as (R & R1 & R2 & R3 & R4). exists R. repeat (split; [assumption|]). auto. }
    destruct (Z.testbit (3 * e) i), (Z.testbit e i); cbn [andb negb bind Z.b2z] in *.
    + apply FIN; [exact VD| |auto]. rewrite ED2. f_equal. lia.
    + destruct (p_add_ok D P VD VP) as (R & RA & VR & RE & RR). rewrite RA. cbn [bind]. apply FIN; [exact VR| |].
      * rewrite RE, ED2. replace (Z.to_nat (naf e i)) with (S (Z.to_nat (2 * naf e (i + 1)))) by lia. reflexivity.
      * intros RP _. destruct D as [|dx dy do]; [destruct P; injection RA as <-; exact RP|]. destruct P as [|px py po]; [injection RA as <-; exact RD|].
        apply RR; discriminate.
    + destruct (p_add_ok D Q VD VQ) as (R & RA & VR & RE & RR). rewrite RA. cbn [bind]. apply FIN; [exact VR| |].
      * rewrite RE, ED2, EQ. replace (Z.to_nat (2 * naf e (i + 1))) with (S (Z.to_nat (naf e i))) by lia. apply (gmul_pred no_two_nonsing), ONP.
      * intros RP NW. destruct D as [|dx dy do].
        { exfalso. apply (NW i I0 ltac:(lia)). replace (naf e i + 1) with (2 * naf e (i + 1)) by lia. rewrite <- ED2. reflexivity. }
        destruct Q as [|qx qy qo]; [injection RA as <-; exact RD|]. apply RR; discriminate.
    + apply FIN; [exact VD| |auto]. rewrite ED2. f_equal. lia.
Qed.

Lemma p_mul_full P e : valid c P -> 0 <= exponent P e ->
  exists R, p_mul c P e = Ok R /\ valid c R /\ emb R = gmul (Z.to_nat (exponent P e)) (emb P) /\
    (reduced c P -> no_wrap (emb P) (exponent P e) -> reduced c R).
Proof.
  intros V E. assert (X : exponent P e = match match P with PInf => None | PAff _ _ o => o end with
      Some o => if o =? 0 then e else e mod o | None => e end) by (destruct P as [|x y [o|]]; reflexivity).
  unfold p_mul. cbn zeta. rewrite <- X. clear X. set (e' := exponent P e) in *. clearbody e'.
  destruct (Z.eqb_spec e' 0) as [->|N]; [exists PInf; repeat split|].
  destruct P as [|x y o]; [exists PInf; split; [reflexivity|]; split; [exact I|]; split; [cbn [emb]; symmetry; apply gmul_inf|intros; exact I]|].
  rewrite Z.gtb_ltb. destruct (Z.ltb_spec 0 e') as [LT|]; [|lia]. cbn [negb].
  pose proof (valid_on _ V) as ON. assert (ON2 : gon (GAff (of p x) (of p (- y)))).
  { rewrite of_opp. exact (gneg_on PR a b (GAff _ _) ON). }
  rewrite (new_point_ok x (- y) o ON2). cbn [bind]. destruct (naf_top e' LT) as (T1 & T2).
  destruct (mul_loop_ok (PAff x y o) (PAff x (- y) o) e') with (j := (Z.to_nat (Z.log2 (3 * e')) - 1)%nat) (result := PAff x y o) as (R & R1 & R2 & R3 & R4).
  - exact V.
  - destruct V as (VR & _). exact (valid_intro x (- y) o VR ON2).
  - cbn [emb gneg]. rewrite of_opp. reflexivity.
  - lia.
  - exact V.
  - replace (Z.of_nat (Z.to_nat (Z.log2 (3 * e')) - 1) + 1) with (Z.log2 (3 * e')) by lia. rewrite T1. cbn. symmetry. reflexivity.
  - exists R. repeat (split; [assumption|]). auto.
Qed.
Lemma p_mul_ok P e : valid c P -> 0 <= exponent P e ->
  exists R, p_mul c P e = Ok R /\ valid c R /\ emb R = gmul (Z.to_nat (exponent P e)) (emb P).
Proof. intros V E. destruct (p_mul_full P e V E) as (R & A & B & C & _). eauto. Qed.
End NoTwo.
End EC.
