(** Statements about number theory, curve arithmetic and ECDSA in terms of [S_EC]. *)
From Coq Require Import ZArith Znumtheory Lia Bool List Field.
From Verif Require Import Base M_Keys M_EC S_EC P_Field P_NumTheory P_Group P_EC P_SecpPrime P_SecpOrder.
Import ListNotations.
Open Scope Z_scope.

(** ** modular_sqrt *)
Lemma sqrt_sound p a r : 0 < p -> p mod 4 = 3 -> modular_sqrt a p = Ok r -> r <> 0 -> (r * r) mod p = a mod p.
Proof.
  intros P0 M E N. unfold modular_sqrt in E.
  destruct (Z.eqb_spec (legendre_symbol a p) 1) as [L|L]; cbn [negb] in E; [|injection E as <-; contradiction].
  destruct (Z.eqb_spec a 0); [injection E as <-; contradiction|].
  destruct (Z.eqb_spec p 2) as [->|_]; [discriminate M|]. rewrite M in E. cbn [Z.eqb Pos.eqb] in E. injection E as <-.
  assert (Q : exists q, p = 4 * q + 3 /\ (p + 1) / 4 = q + 1 /\ (p - 1) / 2 = 2 * q + 1 /\ 0 <= q).
  { exists (p / 4). pose proof (Z.div_mod p 4 ltac:(lia)). split; [lia|]. split; [|split; [|apply Z.div_pos; lia]].
    - symmetry. apply (Z.div_unique _ 4 _ 0); lia.
    - symmetry. apply (Z.div_unique _ 2 _ 0); lia. }
  destruct Q as (q & Q1 & Q2 & Q3 & Q4). rewrite Q2.
  assert (L1 : a ^ (2 * q + 1) mod p = 1).
  { unfold legendre_symbol in L. cbn zeta in L. rewrite Q3, powmod_eq in L by lia. destruct (_ =? p - 1); [discriminate|exact L]. }
  rewrite powmod_eq by lia. rewrite <- Zmult_mod, <- Z.pow_add_r by lia.
  replace (q + 1 + (q + 1)) with (2 * q + 1 + 1) by lia. rewrite Z.pow_add_r, Z.pow_1_r by lia.
  rewrite <- Zmult_mod_idemp_l, L1, Z.mul_1_l. reflexivity.
Qed.
Lemma legendre_spec p a : prime p -> p <> 2 ->
  (a mod p = 0 /\ legendre_symbol a p = 0) \/
  (a mod p <> 0 /\ is_square p a /\ legendre_symbol a p = 1) \/
  (a mod p <> 0 /\ ~ is_square p a /\ legendre_symbol a p = -1).
Proof.
  intros PR OD. pose proof (p_gt1 PR). destruct (legendre_cases PR OD a) as [(Z & E)|[(N & H1 & E)|(N & H1 & E)]].
  - left. apply of_eq in Z. rewrite Zmod_0_l in Z. auto.
  - right. left. split; [intros K; apply N, of_eq; rewrite K, Zmod_0_l; reflexivity|]. split; [|exact E].
    destruct (modular_sqrt_root PR OD a N H1) as (x & _ & X & _). exists x. apply of_eq, X.
  - right. right. split; [intros K; apply N, of_eq; rewrite K, Zmod_0_l; reflexivity|]. split; [|exact E].
    intros (x & X). apply of_eq in X. pose proof (square_half PR OD a x X N) as K. rewrite H1 in K. apply (minus_one PR OD). exact K.
Qed.
Lemma sqrt_complete p a : prime p -> p <> 2 -> exists r, modular_sqrt a p = Ok r /\ 0 <= r < p /\
  (r <> 0 <-> a mod p <> 0 /\ is_square p a) /\ (r <> 0 -> (r * r) mod p = a mod p).
Proof.
  intros PR OD. pose proof (p_gt1 PR). destruct (legendre_spec p a PR OD) as [(Z & E)|[(N & H1 & E)|(N & H1 & E)]].
  - exists 0. unfold modular_sqrt. rewrite E. cbn [Z.eqb negb]. repeat split; intros; tauto || lia.
  - destruct H1 as (x & X). assert (N0 : of p a <> of p 0) by (intros K; apply of_eq in K; rewrite Zmod_0_l in K; contradiction).
    destruct (modular_sqrt_root PR OD a N0) as (r & R1 & R2 & R3); [apply of_eq in X; exact (square_half PR OD a x X N0)|].
    exists r. split; [exact R1|]. split; [lia|]. split; [split; [intros _; split; [exact N|exists x; exact X]|lia]|]. intros _. apply of_eq, R2.
  - exists 0. unfold modular_sqrt. rewrite E. cbn [Z.eqb negb]. repeat split; intros; tauto || lia.
Qed.
Lemma sqrt_two a : modular_sqrt a 2 = Ok 0.
Proof. reflexivity. Qed.

(** ** points *)
Section EC.
Context (c : curve) (PR : prime (c_p c)) (OD : c_p c <> 2).
Notation p := (c_p c).

Lemma stands_emb P : stands p P = unemb c (emb c P).
Proof. destruct P; reflexivity. Qed.
Lemma add_spec P Q : valid c P -> valid c Q ->
  exists R, p_add c P Q = Ok R /\ valid c R /\ is_sum p (c_a c) (stands p P) (stands p Q) (stands p R) /\
            (P <> PInf -> Q <> PInf -> reduced c R).
Proof.
  intros VP VQ. destruct (p_add_ok c PR OD P Q VP VQ) as (R & E & V & G & RD). exists R. split; [exact E|]. split; [exact V|]. split; [|exact RD].
  rewrite !stands_emb, G. apply (gadd_is_sum c PR OD); apply valid_on; assumption.
Qed.
Lemma double_spec P : valid c P -> (forall x y o, P = PAff x y o -> y mod p <> 0) ->
  exists R, p_double c P = Ok R /\ valid c R /\ is_sum p (c_a c) (stands p P) (stands p P) (stands p R) /\ reduced c R.
Proof.
  intros VP N. destruct (p_double_ok c PR OD P VP) as (R & E & V & RD & G).
  { intros x y o K. specialize (N _ _ _ K). intros Z. apply of_eq in Z. rewrite Zmod_0_l in Z. contradiction. }
  exists R. split; [exact E|]. split; [exact V|]. split; [|exact RD].
  rewrite !stands_emb, G. apply (gadd_is_sum c PR OD); apply valid_on; assumption.
Qed.
Lemma double_fail x y o : y mod p = 0 -> p_double c (PAff x y o) = Err E_AssertionError.
Proof. intros H. apply (p_double_fail c PR OD). apply of_eq. rewrite H, Zmod_0_l. reflexivity. Qed.
Lemma add_unreduced x1 y1 o1 x2 y2 o2 : x1 <> x2 -> x1 mod p = x2 mod p ->
  p_add c (PAff x1 y1 o1) (PAff x2 y2 o2) = Err E_AssertionError.
Proof.
  intros N E. cbn [p_add]. cbn zeta. destruct (Z.eqb_spec x1 x2); [contradiction|]. rewrite (inv_fail c PR OD); [reflexivity|].
  rewrite of_sub. apply of_eq in E. rewrite E, <- of_sub, Z.sub_diag. reflexivity.
Qed.
Lemma new_point_spec x y o : new_point c x y o =
  (if (y * y) mod p =? (x * x * x + c_a c * x + c_b c) mod p then Ok (PAff x y o) else Err E_NoSuchPoint).
Proof.
  unfold new_point. destruct (contains_point c x y) eqn:C.
  - apply (contains_of c) in C. apply on_of in C. rewrite C, Z.eqb_refl. reflexivity.
  - destruct (Z.eqb_spec ((y * y) mod p) ((x * x * x + c_a c * x + c_b c) mod p)) as [E|]; [|reflexivity].
    apply on_of, (contains_of c) in E. congruence.
Qed.

(** the specification relation is a function *)
Lemma is_sum_gadd P Q R : gon (of p (c_a c)) (of p (c_b c)) P -> gon (of p (c_a c)) (of p (c_b c)) Q ->
  is_sum p (c_a c) (unemb c P) (unemb c Q) R -> R = unemb c (gadd (of p (c_a c)) P Q).
Proof.
  intros A B S. pose proof (p_gt1 PR). remember (unemb c P) as P' eqn:EP. remember (unemb c Q) as Q' eqn:EQ.
  destruct S as [Q'|P'|x y y' V|x y l x3 y3 T L X3 Y3|x1 y1 x2 y2 l x3 y3 N L X3 Y3].
  - destruct P; [|discriminate]. exact EQ.
  - destruct Q; [|discriminate]. rewrite EP. f_equal. symmetry. apply gadd_inf_r.
  - destruct P as [|px py]; [discriminate|]. destruct Q as [|qx qy]; [discriminate|]. cbn [unemb] in EP, EQ.
    injection EP as -> ->. injection EQ as E ->. apply fp_eq in E. subst qx. rewrite gadd_opposite; [reflexivity|].
    split; [reflexivity|]. apply of_eq. rewrite V, Zmod_0_l. reflexivity.
  - destruct P as [|px py]; [discriminate|]. destruct Q as [|qx qy]; [discriminate|]. cbn [unemb] in EP, EQ.
    injection EP as -> ->. injection EQ as E1 E2. apply fp_eq in E1, E2. subst qx qy.
    rewrite (gadd_slope PR _ (of p (c_b c)) OD px py px py (of p l) A A).
    + unfold third. cbn [unemb]. assert (E3 : x3 = fv (fsub (fsub (fmul (of p l) (of p l)) px) px)).
      { rewrite X3. apply fv_of. rewrite !of_sub, of_mul, !of_fv. reflexivity. }
      f_equal; [exact E3|]. rewrite Y3, E3. apply fv_of. rewrite !of_sub, of_mul, of_sub, !of_fv. reflexivity.
    + intros (_ & O). apply T. replace (2 * fv py) with (fv py + fv py) by lia.
      assert (E : (fv py + fv py) mod p = 0 mod p) by (apply of_eq; exact O). rewrite E. apply Zmod_0_l.
    + split.
      * rewrite <- (of_fv p px), <- (of_fv p py), <- !of_sub, <- of_mul. apply of_eq. f_equal. lia.
      * rewrite <- (of_fv p px), <- (of_fv p py). repeat (rewrite <- of_mul || rewrite <- of_add). apply of_eq.
        etransitivity; [|etransitivity; [exact L|]]; f_equal; ring.
  - destruct P as [|px py]; [discriminate|]. destruct Q as [|qx qy]; [discriminate|]. cbn [unemb] in EP, EQ.
    injection EP as -> ->. injection EQ as -> ->.
    assert (NE : px <> qx) by congruence.
    assert (SL : slope (of p (c_a c)) px py qx qy (of p l)).
    { assert (S1 : fsub py qy = fmul (of p l) (fsub px qx)).
      { rewrite <- (of_fv p px), <- (of_fv p py), <- (of_fv p qx), <- (of_fv p qy), <- !of_sub, <- of_mul. apply of_eq.
        replace (fv py - fv qy) with (- (fv qy - fv py)) by lia. replace (l * (fv px - fv qx)) with (- (l * (fv qx - fv px))) by lia.
        apply of_eq. rewrite !of_opp. f_equal. apply of_eq. symmetry. exact L. }
      destruct (gadd_slope_ex PR _ _ OD px py qx qy A B) as (m & (M1 & M2) & _); [intros (K & _); contradiction|].
      replace (of p l) with m; [split; assumption|].
      apply (P_Group.fcancel PR (fsub px qx)); [apply (sub_neq PR), NE|].
      transitivity (fmul m (fsub px qx)); [apply (Rmul_comm (fp_ring p))|]. rewrite <- M1, S1. apply (Rmul_comm (fp_ring p)). }
    rewrite (gadd_slope PR _ _ OD px py qx qy (of p l) A B (fun O => NE (proj1 O)) SL).
    unfold third. cbn [unemb]. assert (E3 : x3 = fv (fsub (fsub (fmul (of p l) (of p l)) px) qx)).
    { rewrite X3. apply fv_of. rewrite !of_sub, of_mul, !of_fv. reflexivity. }
    f_equal; [exact E3|]. rewrite Y3, E3. apply fv_of. rewrite !of_sub, of_mul, of_sub, !of_fv. reflexivity.
Qed.
Lemma multiple_gmul P n R : gon (of p (c_a c)) (of p (c_b c)) P -> multiple p (c_a c) (unemb c P) n R ->
  0 <= n /\ R = unemb c (gmul c (Z.to_nat n) P).
Proof.
  intros A M. induction M as [|n Q R N0 M (IH1 & IH2) S]; [split; [lia|reflexivity]|]. split; [lia|]. subst Q.
  apply is_sum_gadd in S; [|apply (gmul_on c PR OD), A|exact A]. rewrite S.
  replace (Z.to_nat (n + 1)) with (Datatypes.S (Z.to_nat n)) by lia. reflexivity.
Qed.
Lemma multiple_fun P n R R' : valid c P -> multiple p (c_a c) (stands p P) n R -> multiple p (c_a c) (stands p P) n R' -> R = R'.
Proof.
  intros V M M'. rewrite stands_emb in M, M'. apply multiple_gmul in M, M'; try (apply valid_on, V). destruct M as (_ & ->), M' as (_ & ->). reflexivity.
Qed.

(** ** group laws, on the code itself *)
Lemma xy_emb P Q : reduced c P -> reduced c Q -> emb c P = emb c Q -> xy P = xy Q.
Proof.
  intros RP RQ E. apply (f_equal (unemb c)) in E. rewrite !unemb_emb in E.
  destruct P as [|x y o], Q as [|x' y' o']; cbn in *; try discriminate; [reflexivity|].
  injection E as E1 E2. rewrite !Z.mod_small in E1, E2 by lia. congruence.
Qed.
Lemma add_reduced P Q R : valid c P -> valid c Q -> reduced c P -> reduced c Q -> p_add c P Q = Ok R -> reduced c R.
Proof.
  intros VP VQ RP RQ E. destruct (p_add_ok c PR OD P Q VP VQ) as (R' & E' & _ & _ & H). rewrite E in E'. injection E' as <-.
  destruct P as [|x y o]; [destruct Q; injection E as <-; assumption|]. destruct Q as [|x' y' o']; [injection E as <-; exact RP|].
  apply H; discriminate.
Qed.
Lemma add_comm P Q : valid c P -> valid c Q -> reduced c P -> reduced c Q ->
  exists R S, p_add c P Q = Ok R /\ p_add c Q P = Ok S /\ xy R = xy S.
Proof.
  intros VP VQ RP RQ. destruct (p_add_ok c PR OD P Q VP VQ) as (R & E & V & G & _). destruct (p_add_ok c PR OD Q P VQ VP) as (S & E' & V' & G' & _).
  exists R, S. split; [exact E|]. split; [exact E'|]. apply xy_emb; [eapply (add_reduced P Q); eassumption|eapply (add_reduced Q P); eassumption|].
  rewrite G, G'. apply (gadd_comm PR _ (of p (c_b c)) OD); apply valid_on; assumption.
Qed.
Lemma add_inf P : p_add c P PInf = Ok P /\ p_add c PInf P = Ok P.
Proof. destruct P; split; reflexivity. Qed.
Lemma add_neg x y o o' : p_add c (PAff x y o) (PAff x (- y) o') = Ok PInf.
Proof. cbn [p_add]. cbn zeta. rewrite Z.eqb_refl. replace (y + - y) with 0 by lia. rewrite Zmod_0_l. reflexivity. Qed.
Lemma add_assoc P Q R : nonsingular c -> valid c P -> valid c Q -> valid c R -> reduced c P -> reduced c Q -> reduced c R ->
  exists PQ QR S T, p_add c P Q = Ok PQ /\ p_add c PQ R = Ok S /\ p_add c Q R = Ok QR /\ p_add c P QR = Ok T /\ xy S = xy T.
Proof.
  intros NS VP VQ VR RP RQ RR.
  destruct (p_add_ok c PR OD P Q VP VQ) as (PQ & E1 & V1 & G1 & _). destruct (p_add_ok c PR OD PQ R V1 VR) as (S & E2 & V2 & G2 & _).
  destruct (p_add_ok c PR OD Q R VQ VR) as (QR & E3 & V3 & G3 & _). destruct (p_add_ok c PR OD P QR VP V3) as (T & E4 & V4 & G4 & _).
  exists PQ, QR, S, T. repeat (split; [assumption|]).
  apply xy_emb.
  - eapply (add_reduced PQ R); try eassumption. eapply (add_reduced P Q); eassumption.
  - eapply (add_reduced P QR); try eassumption. eapply (add_reduced Q R); eassumption.
  - rewrite G2, G1, G4, G3. apply (gadd_assoc PR _ _ OD (NSF c NS)); apply valid_on; assumption.
Qed.

(** ** scalar multiplication *)
Lemma mul_spec P e : no_two_torsion c -> valid c P -> 0 <= exponent P e ->
  exists R, p_mul c P e = Ok R /\ valid c R /\ multiple p (c_a c) (stands p P) (exponent P e) (stands p R).
Proof.
  intros N2 V E. destruct (p_mul_ok c PR OD N2 P e V E) as (R & A & B & G). exists R. split; [exact A|]. split; [exact B|].
  rewrite !stands_emb, G. rewrite <- (Z2Nat.id (exponent P e)) at 1 by exact E. apply (gmul_multiple c PR OD). apply valid_on, V.
Qed.
Lemma mul_negative x y e : e < 0 -> p_mul c (PAff x y None) e = Err E_AssertionError.
Proof. intros N. unfold p_mul. cbn zeta. destruct (Z.eqb_spec e 0); [lia|]. rewrite Z.gtb_ltb. destruct (Z.ltb_spec 0 e); [lia|]. reflexivity. Qed.
Lemma mul_plus x y e f : no_two_torsion c -> valid c (PAff x y None) -> reduced c (PAff x y None) -> 0 <= e -> 0 <= f ->
  exists A B C D, p_mul c (PAff x y None) e = Ok A /\ p_mul c (PAff x y None) f = Ok B /\ p_add c A B = Ok C /\
    p_mul c (PAff x y None) (e + f) = Ok D /\ stands p C = stands p D.
Proof.
  intros N2 V RD E F. set (P := PAff x y None) in *.
  destruct (p_mul_ok c PR OD N2 P e V E) as (A & A1 & A2 & A3). destruct (p_mul_ok c PR OD N2 P f V F) as (B & B1 & B2 & B3).
  destruct (p_mul_ok c PR OD N2 P (e + f) V ltac:(cbn; lia)) as (D & D1 & D2 & D3). destruct (p_add_ok c PR OD A B A2 B2) as (C & C1 & C2 & C3 & _).
  exists A, B, C, D. repeat (split; [assumption|]). rewrite !stands_emb. f_equal. rewrite C3, A3, B3, D3. cbn [exponent P].
  rewrite <- (gmul_add c PR OD (no_two_nonsing c N2)) by (apply valid_on, V). f_equal. lia.
Qed.
End EC.
