(** Sums, negatives and products of keys, and the curve as a whole (lemmas). *)
From Coq Require Import ZArith Znumtheory Lia Bool List.
From Verif Require Import Base M_Keys M_EC S_EC P_Field P_NumTheory P_Group P_EC P_ECProps P_ECDSA P_DSA P_Cofactor.
Import ListNotations.
Open Scope Z_scope.

Section W.
Context (c : curve) (gx gy n : Z) (D : dsa_group c gx gy n).
Notation G := (PAff gx gy (Some n)).
Notation p := (c_p c).
Notation ca := (of p (c_a c)).
Notation cb := (of p (c_b c)).
Notation zG := (zG c gx gy n).
Let PR : prime p := proj1 D.
Let OD : p <> 2 := proj1 (proj2 D).
Let N2 : no_two_torsion c := proj1 (proj2 (proj2 D)).
Let PN : prime n := proj1 (proj2 (proj2 (proj2 D))).
Let N3 : 2 < n := proj1 (proj2 (proj2 (proj2 (proj2 D)))).
Let V : valid c G := dg_valid c gx gy n D.
Let RG : reduced c G := dg_reduced c gx gy n D.
Let ORD : gmul c (Z.to_nat n) (emb c G) = GInf := dg_order c gx gy n D.

Lemma dmul e : exists R, p_mul c G e = Ok R /\ valid c R /\ reduced c R /\ emb c R = zG e.
Proof.
  destruct (mul_G c PR OD N2 gx gy n PN V e) as (R & A & B & C). exists R. repeat (split; [assumption|]).
  split; [exact (mul_G_reduced c PR OD N2 gx gy n PN V ORD e R N3 RG A)|exact C].
Qed.
Lemma dmul_emb e R : p_mul c G e = Ok R -> valid c R /\ reduced c R /\ emb c R = zG e.
Proof. intros E. destruct (dmul e) as (R' & A & H). rewrite E in A. injection A as <-. exact H. Qed.
Lemma same_xy P Q : reduced c P -> reduced c Q -> emb c P = emb c Q -> xy P = xy Q.
Proof. exact (xy_emb c P Q). Qed.

(** ** sums *)
Lemma key_add a b A B : p_mul c G a = Ok A -> p_mul c G b = Ok B ->
  exists S T, p_add c A B = Ok S /\ p_mul c G (a + b) = Ok T /\ xy S = xy T.
Proof.
  intros EA EB. destruct (dmul_emb a A EA) as (VA & RA & CA). destruct (dmul_emb b B EB) as (VB & RB & CB).
  destruct (p_add_ok c PR OD A B VA VB) as (S & ES & VS & CS & _). destruct (dmul (a + b)) as (T & ET & VT & RT & CT).
  exists S, T. split; [exact ES|]. split; [exact ET|]. apply same_xy; [exact (P_ECProps.add_reduced c PR OD A B S VA VB RA RB ES)|exact RT|].
  rewrite CS, CA, CB, CT. apply (zG_add c PR OD N2 gx gy n PN V ORD).
Qed.
(** ** negatives *)
Lemma key_neg a x y o : p_mul c G a = Ok (PAff x y o) -> exists o', p_mul c G (- a) = Ok (PAff x (p - y) o').
Proof.
  intros E. destruct (dmul_emb a _ E) as (VA & RA & CA). destruct (dmul (- a)) as (R & ER & VR & RR & CR). rewrite ER.
  rewrite <- (zG_neg c PR OD N2 gx gy n PN V ORD), <- CA in CR.
  assert (Y : y <> 0).
  { intros ->. apply valid_on in VA. apply (y_neq0 c N2) in VA. apply VA. reflexivity. }
  destruct R as [|x' y' o']; [discriminate CR|]. exists o'. cbn [reduced] in *.
  assert (X : xy (PAff x' y' o') = xy (PAff x (p - y) o')).
  { apply same_xy; [exact RR|cbn; lia|]. rewrite CR. cbn [emb gneg]. f_equal. rewrite <- of_opp. apply of_eq.
    replace (p - y) with (- y + 1 * p) by lia. rewrite Z_mod_plus_full. reflexivity. }
  cbn [xy] in X. injection X as -> ->. reflexivity.
Qed.
Lemma same_x a b x y y' o o' : p_mul c G a = Ok (PAff x y o) -> p_mul c G b = Ok (PAff x y' o') -> b mod n = a mod n \/ b mod n = (- a) mod n.
Proof.
  intros EA EB. destruct (dmul_emb a _ EA) as (VA & RA & CA). destruct (dmul_emb b _ EB) as (VB & RB & CB).
  pose proof (valid_on c _ VA) as OA. pose proof (valid_on c _ VB) as OB. cbn [emb] in *.
  destruct (fp_eq_dec p (fadd (of p y) (of p y')) (of p 0)) as [S|S].
  - right. apply (P_ECDSA.zG_inj c PR OD N2 gx gy n PN V ORD). rewrite <- CB, <- (zG_neg c PR OD N2 gx gy n PN V ORD), <- CA. cbn [gneg]. f_equal.
    rewrite <- of_opp. apply of_eq. rewrite <- of_add in S. apply of_eq in S. rewrite Zmod_0_l in S. pose proof (p_pos PR).
    apply Z.mod_divide in S; [|lia]. destruct S as (q & S). replace y' with (- y + q * p) by lia. apply Z_mod_plus_full.
  - left. apply (P_ECDSA.zG_inj c PR OD N2 gx gy n PN V ORD). rewrite <- CB, <- CA. f_equal. symmetry. exact (on_same_x PR ca cb _ _ _ OA OB S).
Qed.
(** ** products *)
Lemma key_mul a e x y o : p_mul c G a = Ok (PAff x y o) -> 0 <= e < n ->
  exists R S, p_mul c (PAff x y None) e = Ok R /\ p_mul c G (a * e) = Ok S /\ xy R = xy S.
Proof.
  intros EA B. destruct (dmul_emb a _ EA) as (VA & RA & CA). pose proof (n_gt1 n PN) as N1.
  assert (A0 : a mod n <> 0).
  { intros K. apply (zG_inf c PR OD N2 gx gy n PN V ORD) in K. rewrite K in CA. discriminate CA. }
  destruct (mul_reduced c PR OD N2 gx gy n PN V ORD N3 (PAff x y None) a e VA RA CA A0 B) as (R & ER & VR & RR & CR).
  destruct (dmul (a * e)) as (S & ES & VS & RS & CS). exists R, S. split; [exact ER|]. split; [exact ES|]. apply same_xy; [exact RR|exact RS|].
  rewrite CR, CS. f_equal. cbn [exponent]. lia.
Qed.
Lemma key_mul_any a e x y o : p_mul c G a = Ok (PAff x y o) -> 0 <= e ->
  exists R, p_mul c (PAff x y None) e = Ok R /\ multiple p (c_a c) (EA gx gy) ((a * e) mod n) (stands p R).
Proof.
  intros EA B. destruct (dmul_emb a _ EA) as (VA & RA & CA).
  destruct (p_mul_ok c PR OD N2 (PAff x y None) e VA B) as (R & ER & VR & CR). exists R. split; [exact ER|].
  destruct (dg_mul c gx gy n D (a * e)) as (S & ES & _ & _ & M & _). destruct (dmul_emb _ _ ES) as (_ & _ & CS).
  replace (stands p R) with (stands p S); [exact M|]. rewrite !stands_emb. f_equal. rewrite CR, CS. cbn [exponent].
  change (emb c (PAff x y None)) with (emb c (PAff x y o)). rewrite CA, (zG_mul c PR OD N2 gx gy n PN V ORD) by exact B. f_equal. lia.
Qed.

(** ** signatures *)
Lemma sign_iff d val k r s : 0 < k < n -> (ecdsa_sign_k c G d val k = Ok (r, s) <->
  (exists y o, p_mul c G k = Ok (PAff r y o)) /\ r <> 0 /\ 1 <= s < n /\ (s * k) mod n = (val + d * r) mod n).
Proof.
  intros K. pose proof (n_gt1 n PN) as N1. unfold ecdsa_sign_k. cbn [point_order]. cbn zeta.
  destruct (dmul k) as (R & E & VR & RR & CR). rewrite E. cbn [bind].
  destruct R as [|x y o].
  { exfalso. symmetry in CR. apply (zG_inf c PR OD N2 gx gy n PN V ORD) in CR. rewrite Z.mod_small in CR; lia. }
  cbn [point_x]. destruct (inverse_mod_spec k n N1) as (I & _). destruct (I (gcd_n n PN k ltac:(lia))) as (ki & EK & _ & KI). rewrite EK. cbn [bind].
  pose proof (Z.mod_pos_bound (ki * (val + (d * x) mod n)) n ltac:(lia)) as SB.
  assert (SE : forall t, 0 <= t < n -> (t = (ki * (val + (d * x) mod n)) mod n <-> (t * k) mod n = (val + d * x) mod n)).
  { intros t T. rewrite <- Zmult_mod_idemp_r, Zplus_mod_idemp_r, Zmult_mod_idemp_r. split.
    - intros ->. rewrite Zmult_mod_idemp_l. replace (ki * (val + d * x) * k) with (k * ki * (val + d * x)) by ring.
      rewrite <- Zmult_mod_idemp_l, KI, Z.mul_1_l. reflexivity.
    - intros H. rewrite <- (Z.mod_small t n T). rewrite <- (Z.mul_1_l t) at 1. rewrite <- KI, Zmult_mod_idemp_l.
      replace (k * ki * t) with (ki * (t * k)) by ring. rewrite <- Zmult_mod_idemp_r, H, Zmult_mod_idemp_r. reflexivity. }
  destruct (Z.eqb_spec x 0) as [->|X0].
  { split; [discriminate|]. intros ((y' & o' & H) & R0 & _). congruence. }
  destruct (Z.eqb_spec ((ki * (val + (d * x) mod n)) mod n) 0) as [S0|S0].
  - split; [discriminate|]. intros ((y' & o' & H) & R0 & S1 & H2). exfalso. assert (r = x) as -> by congruence.
    apply SE in H2; [|lia]. lia.
  - split.
    + intros H. assert (r = x /\ s = (ki * (val + (d * x) mod n)) mod n) as (-> & ES) by (split; congruence). clear H.
      split; [eauto|]. split; [exact X0|]. rewrite <- ES in SB, S0. split; [lia|]. apply SE; [lia|exact ES].
    + intros ((y' & o' & H) & R0 & S1 & H2). assert (r = x) as -> by congruence. apply SE in H2; [|lia]. rewrite H2. reflexivity.
Qed.
Lemma pair_emb d x y : public_pair_for_secret c G d = Ok (Some (x, y)) -> valid c (PAff x y None) /\ emb c (PAff x y None) = zG d /\ reduced c (PAff x y None).
Proof.
  unfold public_pair_for_secret. destruct (dmul d) as (R & E & VR & RR & CR). rewrite E. cbn [bind]. destruct R as [|x' y' o']; [discriminate|].
  intros H. assert (x' = x /\ y' = y) as (-> & ->) by (split; congruence). split; [exact VR|]. split; [exact CR|exact RR].
Qed.
(** a signature verifies exactly if signing with some nonce gives it *)
Lemma signatures_made x y d val r s : public_pair_for_secret c G d = Ok (Some (x, y)) ->
  (ecdsa_verify c G (x, y) val (r, s) = Ok true <->
   1 <= r < n /\ exists k r', 0 < k < n /\ ecdsa_sign_k c G d val k = Ok (r', s) /\ r' mod n = r).
Proof.
  intros PP. destruct (pair_emb d x y PP) as (VQ & CQ & RQ). pose proof (n_gt1 n PN) as N1.
  assert (RS : (1 <= r < n /\ 1 <= s < n) \/ ~ (1 <= r < n /\ 1 <= s < n)) by lia. destruct RS as [(R & S)|NR].
  - destruct (verify_cases c PR OD N2 gx gy n PN V x y val r s R S VQ) as (w & PT & W & VT & CT & EV). rewrite EV. rewrite CQ in CT.
    pose proof (Z.mod_pos_bound (r * w) n ltac:(lia)) as RB.
    rewrite (zG_mul c PR OD N2 gx gy n PN V ORD), (zG_add c PR OD N2 gx gy n PN V ORD) in CT by lia.
    set (t := (val * w) mod n + (r * w) mod n * d) in *.
    assert (M1 : 1 = 1 mod n) by (symmetry; apply Z.mod_1_l; lia).
    split.
    + destruct PT as [|x' y' o']; [discriminate|]. intros H. assert (X : x' mod n = r) by (apply Z.eqb_eq; congruence). clear H. split; [exact R|].
      assert (T0 : t mod n <> 0).
      { intros K. apply (zG_inf c PR OD N2 gx gy n PN V ORD) in K. rewrite K in CT. discriminate CT. }
      pose proof (Z.mod_pos_bound t n ltac:(lia)) as TB. exists (t mod n), x'. split; [lia|]. split; [|exact X]. apply sign_iff; [lia|].
      destruct (dmul (t mod n)) as (P & EP & VP & RP & CP). rewrite (zG_mod c gx gy n (t mod n) t) in CP by (apply Z.mod_mod; lia). rewrite <- CT in CP.
      destruct P as [|x'' y'' o'']; [discriminate CP|]. pose proof (emb_x c x'' y'' o'' x' y' o' (proj1 RP) (proj1 VT) CP) as ->.
      split; [rewrite EP; eauto|]. split; [intros ->; rewrite Zmod_0_l in X; lia|]. split; [exact S|].
      (* s t = val + r d *)
      rewrite Zmult_mod_idemp_r. unfold t. rewrite M1 in W. apply (mod_eq n PN N3) in W. destruct W as (q & W).
      rewrite <- X in *. clear X. rewrite <- Zmult_mod_idemp_r. rewrite <- (Zplus_mod_idemp_r ((x' mod n * w) mod n * d)), Zmult_mod_idemp_l, <- Zplus_mod, Zmult_mod_idemp_r.
      replace (s * (val * w + x' mod n * w * d)) with ((s * w) * (val + d * (x' mod n))) by ring. rewrite W.
      replace ((1 + q * n) * (val + d * (x' mod n))) with (val + d * (x' mod n) + q * (val + d * (x' mod n)) * n) by ring. rewrite Z_mod_plus_full.
      rewrite <- Zplus_mod_idemp_r, Zmult_mod_idemp_r, Zplus_mod_idemp_r. reflexivity.
    + intros (_ & k & r' & K & SG & RR). apply sign_iff in SG; [|exact K]. destruct SG as ((y' & o' & EK) & R0 & _ & SK).
      destruct (dmul_emb k _ EK) as (VK & RK & CK).
      assert (T : t mod n = k mod n).
      { apply (verify_eq n PN N3 val r s k d w W). rewrite <- RR, Zmult_mod_idemp_l. rewrite Zminus_mod, SK, Zminus_mod_idemp_r, Zminus_mod_idemp_l. f_equal. ring. }
      rewrite (zG_mod c gx gy n t k T), <- CK in CT. destruct PT as [|x' y'' o'']; [discriminate CT|].
      pose proof (emb_x c x' y'' o'' r' y' o' (proj1 VT) (proj1 RK) CT) as ->. rewrite RR, Z.eqb_refl. reflexivity.
  - rewrite (verify_range c gx gy n (x, y) val r s NR). split; [discriminate|]. intros (R & k & r' & K & SG & _). exfalso. apply sign_iff in SG; [|exact K]. apply NR. tauto.
Qed.

(** ** public pairs *)
Lemma pps_xy e : exists R, p_mul c G e = Ok R /\ reduced c R /\ emb c R = zG e /\ public_pair_for_secret c G e = Ok (xy R).
Proof.
  destruct (dmul e) as (R & E & _ & RR & CR). exists R. split; [exact E|]. split; [exact RR|]. split; [exact CR|].
  unfold public_pair_for_secret. rewrite E. destruct R; reflexivity.
Qed.
Lemma pairs_sum a b x y x' y' : public_pair_for_secret c G a = Ok (Some (x, y)) -> public_pair_for_secret c G b = Ok (Some (x', y')) ->
  exists S, p_add c (PAff x y None) (PAff x' y' None) = Ok S /\ public_pair_for_secret c G (a + b) = Ok (xy S).
Proof.
  intros A B. apply pair_emb in A, B. destruct A as (VA & CA & RA), B as (VB & CB & RB).
  destruct (p_add_ok c PR OD _ _ VA VB) as (S & ES & VS & CS & _). exists S. split; [exact ES|].
  destruct (pps_xy (a + b)) as (T & ET & RT & CT & ->). f_equal. apply same_xy; [exact RT|exact (P_ECProps.add_reduced c PR OD _ _ S VA VB RA RB ES)|].
  rewrite CS, CA, CB, CT. symmetry. apply (zG_add c PR OD N2 gx gy n PN V ORD).
Qed.
Lemma pairs_neg a x y : public_pair_for_secret c G a = Ok (Some (x, y)) ->
  public_pair_for_secret c G (- a) = Ok (Some (x, p - y)) /\ public_pair_for_secret c G (n - a) = Ok (Some (x, p - y)).
Proof.
  intros A. unfold public_pair_for_secret in A. destruct (dmul a) as (R & E & _). rewrite E in A. cbn [bind] in A.
  destruct R as [|x1 y1 o1]; [discriminate A|]. assert (x1 = x /\ y1 = y) as (-> & ->) by (split; congruence).
  destruct (key_neg a x y o1 E) as (o' & E'). destruct (pps_xy (- a)) as (S & ES & RS & CS & PS). rewrite E' in ES. assert (S = PAff x (p - y) o') as -> by congruence.
  split; [exact PS|]. destruct (pps_xy (n - a)) as (T & ET & RT & CT & ->). f_equal. cbn [xy] in PS.
  change (Some (x, p - y)) with (xy (PAff x (p - y) o')). apply same_xy; [exact RT|exact RS|]. rewrite CT, CS. apply zG_mod.
  replace (n - a) with (- a + 1 * n) by lia. apply Z_mod_plus_full.
Qed.
Lemma pairs_same_x a b x y y' : public_pair_for_secret c G a = Ok (Some (x, y)) -> public_pair_for_secret c G b = Ok (Some (x, y')) ->
  b mod n = a mod n \/ b mod n = (- a) mod n.
Proof.
  unfold public_pair_for_secret. intros A B. destruct (dmul a) as (R & E & _). destruct (dmul b) as (S & F & _). rewrite E in A. rewrite F in B. cbn [bind] in A, B.
  destruct R as [|x1 y1 o1]; [discriminate A|]. destruct S as [|x2 y2 o2]; [discriminate B|].
  assert (x1 = x /\ x2 = x) as (-> & ->) by (split; congruence). exact (same_x a b x y1 y2 o1 o2 E F).
Qed.
Lemma pairs_mul a e x y : public_pair_for_secret c G a = Ok (Some (x, y)) -> 0 <= e < n ->
  exists R, p_mul c (PAff x y None) e = Ok R /\ public_pair_for_secret c G (a * e) = Ok (xy R).
Proof.
  intros A B. destruct (pps_xy a) as (P & EP & _ & _ & X). rewrite A in X. destruct P as [|x1 y1 o1]; [discriminate X|]. cbn [xy] in X.
  assert (x1 = x /\ y1 = y) as (-> & ->) by (split; congruence). destruct (key_mul a e x y o1 EP B) as (R & S & ER & ES & XY). exists R. split; [exact ER|].
  destruct (pps_xy (a * e)) as (T & ET & _ & _ & ->). congruence.
Qed.
Lemma pps_none e : public_pair_for_secret c G e = Ok None <-> e mod n = 0.
Proof.
  destruct (pps_xy e) as (R & E & _ & C & ->). rewrite <- (mul_G_inf c PR OD N2 gx gy n PN V ORD e), E. destruct R; cbn [xy]; split; congruence.
Qed.
Lemma shared a b xa ya xb yb : 0 < a < n -> 0 < b < n -> public_pair_for_secret c G a = Ok (Some (xa, ya)) -> public_pair_for_secret c G b = Ok (Some (xb, yb)) ->
  exists x y o o', p_mul c (PAff xb yb None) a = Ok (PAff x y o) /\ p_mul c (PAff xa ya None) b = Ok (PAff x y o') /\
    public_pair_for_secret c G (a * b) = Ok (Some (x, y)).
Proof.
  intros A B PA PB. destruct (pairs_mul a b xa ya PA ltac:(lia)) as (R & ER & PR1). destruct (pairs_mul b a xb yb PB ltac:(lia)) as (S & ES & PS).
  rewrite (Z.mul_comm b a) in PS. rewrite PR1 in PS. assert (X : xy R = xy S) by congruence.
  destruct R as [|x y o].
  - exfalso. apply pps_none in PR1. apply Z.mod_divide in PR1; [|lia]. apply prime_mult in PR1; [|exact PN].
    destruct PR1 as [K|K]; apply Z.divide_pos_le in K; lia.
  - destruct S as [|x' y' o']; [discriminate X|]. cbn [xy] in X. assert (x' = x /\ y' = y) as (-> & ->) by (split; congruence).
    exists x, y, o', o. split; [exact ES|]. split; [exact ER|]. exact PR1.
Qed.

(** ** the whole curve *)
Context (BIG : 2 * p + 1 < 3 * n).
Lemma zG_multiple k P : multiple p (c_a c) (EA gx gy) (k mod n) (unemb c P) <-> P = zG k.
Proof.
  pose proof (n_gt1 n PN) as N1. pose proof (Z.mod_pos_bound k n ltac:(lia)) as B. rewrite <- (dg_stands c gx gy n D), stands_emb. split.
  - intros M. apply (multiple_gmul c PR OD) in M; [|apply valid_on, V]. destruct M as (_ & M). apply unemb_inj in M. exact M.
  - intros ->. pose proof (gmul_multiple c PR OD (Z.to_nat (k mod n)) (emb c G) (valid_on c _ V)) as M. rewrite Z2Nat.id in M by lia. exact M.
Qed.
Lemma on_unemb P : on_curve p (c_a c) (c_b c) P -> exists Q, P = unemb c Q /\ gon ca cb Q.
Proof.
  destruct P as [|x y]; [exists GInf; split; [reflexivity|exact I]|]. intros (X & Y & E). exists (GAff (of p x) (of p y)). split.
  - cbn [unemb of fv]. rewrite !Z.mod_small by assumption. reflexivity.
  - apply on_of, E.
Qed.
Lemma unemb_on_curve Q : gon ca cb Q -> on_curve p (c_a c) (c_b c) (unemb c Q).
Proof.
  destruct Q as [|x y]; [intros; exact I|]. intros O. pose proof (p_pos PR). cbn [unemb on_curve].
  split; [apply fv_range; lia|]. split; [apply fv_range; lia|]. apply on_of. rewrite !of_fv. exact O.
Qed.
Lemma whole_curve P : on_curve p (c_a c) (c_b c) P ->
  exists k, 0 <= k < n /\ multiple p (c_a c) (EA gx gy) k P /\ forall k', 0 <= k' < n -> multiple p (c_a c) (EA gx gy) k' P -> k' = k.
Proof.
  intros O. pose proof (n_gt1 n PN) as N1. destruct (on_unemb P O) as (Q & -> & OQ).
  destruct (all_multiples c PR OD N2 gx gy n PN V ORD N3 BIG Q OQ) as (k & EQ). exists (k mod n). split; [apply Z.mod_pos_bound; lia|].
  split; [apply zG_multiple, EQ|]. intros k' B M. rewrite <- (Z.mod_small k' n B) in M. apply zG_multiple in M. rewrite EQ in M.
  apply (P_ECDSA.zG_inj c PR OD N2 gx gy n PN V ORD) in M. rewrite M, Z.mod_small by exact B. reflexivity.
Qed.
Lemma curve_count : exists l, NoDup l /\ Z.of_nat (length l) = n /\ forall P, In P l <-> on_curve p (c_a c) (c_b c) P.
Proof.
  exists (map (unemb c) (sub c gx gy n)). split; [|split].
  - apply NoDup_map_on; [exact (sub_nodup c PR OD N2 gx gy n PN V ORD)|]. intros x y _ _. apply unemb_inj.
  - rewrite map_length. exact (sub_length c gx gy n PN).
  - intros P. rewrite in_map_iff. split.
    + intros (Q & <- & I). apply (sub_in c gx gy n PN) in I. destruct I as (k & ->). apply unemb_on_curve, (zG_on c PR OD gx gy n V).
    + intros O. destruct (on_unemb P O) as (Q & -> & OQ). exists Q. split; [reflexivity|]. apply (sub_in c gx gy n PN).
      exact (all_multiples c PR OD N2 gx gy n PN V ORD N3 BIG Q OQ).
Qed.
Lemma every_order P : valid c P -> (forall x y o, P = PAff x y o -> o = None) -> p_mul c P n = Ok PInf.
Proof.
  intros VP O. pose proof (n_gt1 n PN) as N1. assert (X : exponent P n = n).
  { destruct P as [|x y o]; [reflexivity|]. rewrite (O x y o eq_refl). reflexivity. }
  destruct (p_mul_ok c PR OD N2 P n VP ltac:(lia)) as (R & E & _ & C). rewrite E. f_equal. apply (emb_inf c). rewrite C, X.
  destruct (all_multiples c PR OD N2 gx gy n PN V ORD N3 BIG (emb c P) (valid_on c _ VP)) as (k & ->).
  rewrite (zG_mul c PR OD N2 gx gy n PN V ORD) by lia. apply (zG_inf c PR OD N2 gx gy n PN V ORD). rewrite Z.mul_comm. apply Z_mod_mult.
Qed.
(** the secret of a pair *)
Lemma pair_secret x y : on_curve p (c_a c) (c_b c) (EA x y) -> exists d, 0 < d < n /\ public_pair_for_secret c G d = Ok (Some (x, y)) /\
  emb c (PAff x y None) = zG d.
Proof.
  intros O. destruct (whole_curve _ O) as (d & B & M & _). exists d. destruct (dmul d) as (R & E & VR & RR & CR).
  rewrite <- (Z.mod_small d n B) in M. destruct (on_unemb _ O) as (Q & EQ & OQ). rewrite EQ in M. apply zG_multiple in M.
  assert (X : emb c (PAff x y None) = Q).
  { apply (unemb_inj c). rewrite <- EQ, unemb_emb. cbn [stands]. destruct O as (X & Y & _). rewrite !Z.mod_small by assumption. reflexivity. }
  rewrite X. split; [|split; [|exact M]].
  - destruct (Z.eq_dec d 0) as [->|]; [|lia]. rewrite (zG_0 c gx gy n) in M. subst Q. discriminate EQ.
  - unfold public_pair_for_secret. rewrite E. cbn [bind]. rewrite <- M, <- X in CR. apply same_xy in CR; [|exact RR|destruct O as (A & B' & _); split; assumption].
    destruct R as [|x' y' o']; [discriminate CR|]. cbn [xy] in CR. congruence.
Qed.
(** public key recovery finds every key, except those whose nonce has the abscissa r + n *)
Lemma recover_complete x y val r s l : on_curve p (c_a c) (c_b c) (EA x y) -> ecdsa_verify c G (x, y) val (r, s) = Ok true ->
  (forall y', ~ on_curve p (c_a c) (c_b c) (EA (r + n) y')) -> recover c G val (r, s) = Ok l -> In (x, y) l.
Proof.
  intros O E NA EL. destruct (pair_secret x y O) as (d & B & PP & _). apply (signatures_made x y d val r s PP) in E.
  destruct E as (R & k & r' & K & SG & RR). pose proof (proj1 (sign_iff d val k r' s K) SG) as ((y' & o' & EK) & _).
  destruct (dmul_emb k _ EK) as (VK & RK & _). pose proof (n_gt1 n PN) as N1.
  assert (r' = r) as ->.
  { pose proof (Z.div_mod r' n ltac:(lia)) as DM. rewrite RR in DM. cbn [reduced] in RK. assert (Q : r' / n = 0 \/ r' / n = 1) by nia.
    destruct Q as [Q|Q]; rewrite Q in DM; [lia|]. exfalso. apply (NA y'). replace (r + n) with r' by lia.
    split; [exact (proj1 RK)|]. split; [exact (proj2 RK)|exact (proj2 VK)]. }
  destruct (recover_sign c PR OD N2 gx gy n PN V ORD RG N3 d val k r s x y SG (proj2 R) PP) as (A & Bd).
  destruct (Z.eq_dec ((2 * val + d * r) mod n) 0) as [Z|Z]; [rewrite (Bd Z) in EL; discriminate|]. destruct (A Z) as (l' & EL' & I). congruence.
Qed.
(** the abscissas *)
Lemma abscissas : exists l, NoDup l /\ 2 * Z.of_nat (length l) + 1 = n /\ forall x, In x l <-> exists y, on_curve p (c_a c) (c_b c) (EA x y).
Proof.
  pose proof (n_gt1 n PN) as N1. assert (OD2 : exists h, n = 2 * h + 1 /\ 0 < h).
  { pose proof (Z.mod_pos_bound n 2 ltac:(lia)). destruct (Z.eq_dec (n mod 2) 0) as [Z|Z].
    - exfalso. assert (Dv : (2 | n)) by (apply Z.mod_divide; lia). pose proof (prime_divisors n PN 2 Dv). lia.
    - exists (n / 2). pose proof (Z.div_mod n 2 ltac:(lia)). lia. }
  destruct OD2 as (h & EH & H0). set (f := fun i => match public_pair_for_secret c G (Z.of_nat i) with Ok (Some (x, _)) => x | _ => 0 end).
  assert (F : forall i, In i (seq 1 (Z.to_nat h)) -> 0 < Z.of_nat i <= h /\ exists y, public_pair_for_secret c G (Z.of_nat i) = Ok (Some (f i, y)) /\
            on_curve p (c_a c) (c_b c) (EA (f i) y)).
  { intros i I. apply List.in_seq in I. split; [lia|]. destruct (pps_xy (Z.of_nat i)) as (R & E & RR & CR & PP).
    destruct R as [|x y o]; [exfalso; apply pps_none in PP; rewrite Z.mod_small in PP; lia|]. cbn [xy] in PP. unfold f. rewrite PP. exists y. split; [reflexivity|].
    destruct (pair_emb _ _ _ PP) as (VP & _ & RP). split; [exact (proj1 RP)|]. split; [exact (proj2 RP)|exact (proj2 VP)]. }
  exists (map f (seq 1 (Z.to_nat h))). split; [|split].
  - apply NoDup_map_on; [apply seq_NoDup|]. intros i j I J E. destruct (F i I) as (BI & yi & PI & _), (F j J) as (BJ & yj & PJ & _). rewrite <- E in PJ.
    pose proof (pairs_same_x _ _ _ _ _ PI PJ) as X. rewrite (Z.mod_small (Z.of_nat j)), (Z.mod_small (Z.of_nat i)) in X by lia. destruct X as [X|X]; [lia|exfalso].
    replace (- Z.of_nat i) with (n - Z.of_nat i + (-1) * n) in X by lia. rewrite Z_mod_plus_full, Z.mod_small in X by lia. lia.
  - rewrite map_length, seq_length. lia.
  - intros x. rewrite in_map_iff. split.
    + intros (i & <- & I). destruct (F i I) as (_ & y & _ & O). eauto.
    + intros (y & O). destruct (pair_secret x y O) as (d & B & PP & _). destruct (Z.leb_spec d h) as [L|L].
      * exists (Z.to_nat d). split; [|apply List.in_seq; lia]. unfold f. rewrite Z2Nat.id by lia. rewrite PP. reflexivity.
      * exists (Z.to_nat (n - d)). split; [|apply List.in_seq; lia]. unfold f. rewrite Z2Nat.id by lia. rewrite (proj2 (pairs_neg d x y PP)). reflexivity.
Qed.
End W.
