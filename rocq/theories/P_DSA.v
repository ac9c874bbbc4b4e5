(** The signature lemmas of [P_ECDSA] under the hypothesis [dsa_group], which secp256k1
    (and a small curve used in the examples) satisfies. *)
From Coq Require Import ZArith Znumtheory Lia Bool List.
From Verif Require Import Base M_Hash M_Keys M_EC S_EC P_Field P_NumTheory P_Group P_EC P_ECProps P_Prime P_SecpPrime P_SecpOrder P_ECDSA.
Import ListNotations.
Open Scope Z_scope.

Section W.
Context (c : curve) (gx gy n : Z) (D : dsa_group c gx gy n).
Notation G := (PAff gx gy (Some n)).
Notation p := (c_p c).
Let PR : prime p := proj1 D.
Let OD : p <> 2 := proj1 (proj2 D).
Let N2 : no_two_torsion c := proj1 (proj2 (proj2 D)).
Let PN : prime n := proj1 (proj2 (proj2 (proj2 D))).
Let N3 : 2 < n := proj1 (proj2 (proj2 (proj2 (proj2 D)))).
Lemma dg_on : on_curve p (c_a c) (c_b c) (EA gx gy).
Proof. exact (proj1 (proj2 (proj2 (proj2 (proj2 (proj2 D)))))). Qed.
Lemma dg_mult : multiple p (c_a c) (EA gx gy) n EO.
Proof. exact (proj2 (proj2 (proj2 (proj2 (proj2 (proj2 D)))))). Qed.
Lemma dg_valid : valid c G.
Proof. destruct dg_on as (X & Y & E). split; assumption. Qed.
Lemma dg_reduced : reduced c G.
Proof. destruct dg_on as (X & Y & E). split; assumption. Qed.
Lemma dg_stands : stands p G = EA gx gy.
Proof. destruct dg_on as (X & Y & E). cbn [stands]. rewrite !Z.mod_small by assumption. reflexivity. Qed.
Lemma dg_order : gmul c (Z.to_nat n) (emb c G) = GInf.
Proof.
  pose proof dg_mult as M. rewrite <- dg_stands, stands_emb in M. apply (multiple_gmul c PR OD) in M; [|apply valid_on, dg_valid].
  destruct M as (_ & M). destruct (gmul _ _ _); [reflexivity|discriminate].
Qed.

Lemma dg_mul e : exists R, p_mul c G e = Ok R /\ valid c R /\ reduced c R /\
  multiple p (c_a c) (EA gx gy) (e mod n) (stands p R) /\ (R = PInf <-> e mod n = 0).
Proof.
  destruct (mul_G_spec c PR OD N2 gx gy n PN dg_valid dg_order e) as (R & A & B & M & I). exists R. rewrite dg_stands in M.
  repeat (split; [first [exact A|exact B|exact M|exact (mul_G_reduced c PR OD N2 gx gy n PN dg_valid dg_order e R N3 dg_reduced A)]|]). exact I.
Qed.
Lemma dg_order_spec k R : multiple p (c_a c) (EA gx gy) k R -> (R = EO <-> k mod n = 0).
Proof. rewrite <- dg_stands. apply (order_spec c PR OD N2 gx gy n PN dg_valid dg_order). Qed.
Lemma dg_mul_inj e f R S : p_mul c G e = Ok R -> p_mul c G f = Ok S -> xy R = xy S -> e mod n = f mod n.
Proof.
  intros A B E. apply (mul_G_inj c PR OD N2 gx gy n PN dg_valid dg_order e f R S A B). destruct R, S; cbn in *; congruence.
Qed.
Lemma dg_sign_total secret val k : 1 <= k < n ->
  (exists r s, ecdsa_sign_k c G secret val k = Ok (r, s) /\ 1 <= r < p /\ 1 <= s < n) \/ ecdsa_sign_k c G secret val k = Err E_RuntimeError.
Proof. exact (sign_total c PR OD N2 gx gy n PN dg_valid dg_order secret val k). Qed.
Lemma dg_sign_values secret val k r s : 1 <= k < n -> ecdsa_sign_k c G secret val k = Ok (r, s) ->
  exists y, multiple p (c_a c) (EA gx gy) k (EA r y) /\ (s * k) mod n = (val + secret * r) mod n.
Proof.
  intros K E. unfold ecdsa_sign_k in E. cbn [point_order] in E. cbn zeta in E. destruct (dg_mul k) as (R & A & VR & RR & M & _). rewrite A in E. cbn [bind] in E.
  destruct R as [|x y o]; [cbn [point_x] in E; destruct (inverse_mod k n); discriminate|]. cbn [point_x] in E. destruct (Z.eqb_spec x 0); [discriminate|]. pose proof (n_gt1 n PN) as N1.
  destruct (inverse_mod_spec k n N1) as (I & _). destruct (I (gcd_n n PN k K)) as (ki & EK & _ & KI). rewrite EK in E. cbn [bind] in E.
  destruct (_ =? 0) in E; [discriminate|]. injection E as -> ES. exists y. cbn [stands] in M. destruct RR as (R1 & R2). rewrite (Z.mod_small k), !Z.mod_small in M by assumption || lia.
  split; [exact M|]. rewrite <- ES. rewrite Zmult_mod_idemp_l.
  replace (ki * (val + (secret * r) mod n) * k) with (k * ki * (val + (secret * r) mod n)) by ring. rewrite <- Zmult_mod_idemp_l, KI, Z.mul_1_l, Zplus_mod_idemp_r. reflexivity.
Qed.
Lemma dg_sign_zero secret val k : k mod n = 0 -> ecdsa_sign_k c G secret val k = Err E_AssertionError.
Proof. exact (sign_k_zero c PR OD N2 gx gy n PN dg_valid dg_order secret val k). Qed.
Lemma dg_verify_sign_k secret val k r s : ecdsa_sign_k c G secret val k = Ok (r, s) -> secret mod n <> 0 -> r < n ->
  exists x y, public_pair_for_secret c G secret = Ok (Some (x, y)) /\ ecdsa_verify c G (x, y) val (r, s) = Ok true.
Proof. exact (verify_sign c PR OD N2 gx gy n PN dg_valid dg_order secret val k r s). Qed.
Lemma sign_uses_k fuel secret val q : ecdsa_sign fuel c G secret val = Ok q ->
  exists k, deterministic_generate_k fuel n secret val = Some k /\ 1 <= k < n /\ ecdsa_sign_k c G secret val k = Ok q.
Proof.
  unfold ecdsa_sign. cbn [point_order]. destruct (deterministic_generate_k fuel n secret val) as [k|] eqn:E; [|discriminate].
  intros H. exists k. split; [reflexivity|]. split; [exact (generate_k_range _ _ _ _ _ E)|exact H].
Qed.
Lemma dg_verify_sign fuel secret val r s : ecdsa_sign fuel c G secret val = Ok (r, s) -> secret mod n <> 0 -> r < n ->
  exists x y, public_pair_for_secret c G secret = Ok (Some (x, y)) /\ ecdsa_verify c G (x, y) val (r, s) = Ok true.
Proof. intros H. destruct (sign_uses_k _ _ _ _ H) as (k & _ & _ & K). exact (dg_verify_sign_k _ _ _ _ _ K). Qed.
Lemma dg_verify_large_r pair val r s : n <= r -> ecdsa_verify c G pair val (r, s) = Ok false.
Proof. intros R. apply (verify_range c gx gy n). lia. Qed.
Lemma dg_verify_range pair val r s : ~ (1 <= r < n /\ 1 <= s < n) -> ecdsa_verify c G pair val (r, s) = Ok false.
Proof. exact (verify_range c gx gy n pair val r s). Qed.
Lemma dg_verify_spec x y val r s : on_curve p (c_a c) (c_b c) (EA x y) ->
  (ecdsa_verify c G (x, y) val (r, s) = Ok true <-> sig_valid p (c_a c) n (EA gx gy) (EA x y) val r s).
Proof.
  intros (X & Y & E). assert (VQ : valid c (PAff x y None)) by (split; assumption).
  pose proof (verify_spec c PR OD N2 gx gy n PN dg_valid x y val r s VQ) as H. rewrite dg_stands in H. cbn [stands] in H.
  rewrite !Z.mod_small in H by assumption. exact H.
Qed.
Lemma dg_verify_raises x y val r s : on_curve p (c_a c) (c_b c) (EA x y) ->
  (ecdsa_verify c G (x, y) val (r, s) = Err E_TypeError <-> sig_infinite p (c_a c) n (EA gx gy) (EA x y) val r s).
Proof.
  intros (X & Y & E). assert (VQ : valid c (PAff x y None)) by (split; assumption).
  pose proof (verify_raises c PR OD N2 gx gy n PN dg_valid x y val r s VQ) as H. rewrite dg_stands in H. cbn [stands] in H.
  rewrite !Z.mod_small in H by assumption. exact H.
Qed.
Lemma dg_verify_total x y val r s : on_curve p (c_a c) (c_b c) (EA x y) ->
  (exists b, ecdsa_verify c G (x, y) val (r, s) = Ok b) \/ ecdsa_verify c G (x, y) val (r, s) = Err E_TypeError.
Proof. intros (X & Y & E). apply (verify_total c PR OD N2 gx gy n PN dg_valid). split; assumption. Qed.
Lemma dg_verify_infinity secret x y val r s : public_pair_for_secret c G secret = Ok (Some (x, y)) ->
  1 <= r < n -> 1 <= s < n -> (val + r * secret) mod n = 0 -> ecdsa_verify c G (x, y) val (r, s) = Err E_TypeError.
Proof. exact (verify_infinity c PR OD N2 gx gy n PN dg_valid dg_order secret x y val r s). Qed.
Lemma dg_verify_off_curve x y val r s : 1 <= r < n -> 1 <= s < n -> (y * y) mod p <> (x * x * x + c_a c * x + c_b c) mod p ->
  ecdsa_verify c G (x, y) val (r, s) = Err E_NoSuchPoint.
Proof. exact (verify_off_curve c PR OD N2 gx gy n PN dg_valid x y val r s). Qed.
Lemma dg_recover_sign fuel secret val r s x y : ecdsa_sign fuel c G secret val = Ok (r, s) -> r < n ->
  public_pair_for_secret c G secret = Ok (Some (x, y)) ->
  ((2 * val + secret * r) mod n <> 0 -> exists l, recover c G val (r, s) = Ok l /\ In (x, y) l) /\
  ((2 * val + secret * r) mod n = 0 -> recover c G val (r, s) = Err E_TypeError).
Proof.
  intros H. destruct (sign_uses_k _ _ _ _ H) as (k & _ & _ & K).
  exact (recover_sign c PR OD N2 gx gy n PN dg_valid dg_order dg_reduced N3 secret val k r s x y K).
Qed.
Lemma dg_recover_off_curve val r s : Z.gcd r n = 1 -> ~ is_square p (r * r * r + c_a c * r + c_b c) -> recover c G val (r, s) = Err E_NoSuchPoint.
Proof. exact (recover_off_curve c PR OD gx gy n PN val r s). Qed.
End W.

(** ** secp256k1 *)
Lemma secp_group : dsa_group secp256k1 secp_gx secp_gy key_max.
Proof.
  split; [exact PRp|]. split; [exact ODp|]. split; [exact secp_no_two|]. split; [exact key_max_prime|]. split; [reflexivity|]. split.
  - split; [split; vm_compute; congruence|]. split; [split; vm_compute; congruence|vm_compute; reflexivity].
  - pose proof (gmul_multiple secp256k1 PRp ODp (Z.to_nat key_max) (emb secp256k1 secp_G) (valid_on secp256k1 _ G_valid)) as M.
    pose proof order_G as OG. assert (E : forall m z, Z.to_nat m = z -> 0 <= m -> Z.of_nat z = m) by (intros; lia).
    rewrite (E key_max _ eq_refl) in M by (vm_compute; discriminate).
    match type of OG with ?l = _ => match type of M with multiple _ _ _ _ (unemb _ ?r) => change r with l in M end end. rewrite OG in M.
    rewrite <- stands_emb in M. exact M.
Qed.
(** 7 is not a square: no point has abscissa 0, so [sign] never meets [r == 0] *)
Lemma seven_check : (zpow fold_p 7 ((secp_p - 1) / 2) mod secp_p =? 1) = false.
Proof. vm_compute. reflexivity. Qed.
Lemma seven_not_square : ~ is_square secp_p 7.
Proof.
  intros (x & X). pose proof (p_gt1 PRp) as P1. assert (Q : of (c_p secp256k1) (x * x) = of (c_p secp256k1) 7) by (apply of_eq; exact X).
  assert (NZ : of (c_p secp256k1) 7 <> of (c_p secp256k1) 0) by (intros E; apply of_eq in E; vm_compute in E; discriminate).
  pose proof (square_half PRp ODp 7 x Q NZ) as H. apply of_eq in H. pose proof seven_check as SC. apply Z.eqb_neq in SC. apply SC.
  rewrite (zpow_ok fold_p secp_p P1 fold_p_ok) by reflexivity. etransitivity; [exact H|]. apply Zmod_1_l. exact P1.
Qed.
Lemma secp_x_nonzero x y : secp_on x y -> x mod secp_p <> 0.
Proof.
  intros H K. apply seven_not_square. exists y. rewrite H. rewrite Zplus_mod. rewrite (Zmult_mod (x * x)), K, Z.mul_0_r, Zmod_0_l. apply Zmod_mod.
Qed.
Lemma secp_sign secret val k : 1 <= k < key_max -> exists r y, multiple secp_p 0 (EA secp_gx secp_gy) k (EA r y) /\ 1 <= r < secp_p /\
  (((val + secret * r) mod key_max <> 0 /\ exists s, ecdsa_sign_k secp256k1 secp_G secret val k = Ok (r, s) /\ 1 <= s < key_max /\ (s * k) mod key_max = (val + secret * r) mod key_max) \/
   ((val + secret * r) mod key_max = 0 /\ ecdsa_sign_k secp256k1 secp_G secret val k = Err E_RuntimeError)).
Proof.
  intros K. destruct (dg_mul secp256k1 secp_gx secp_gy key_max secp_group k) as (R & A & VR & RR & M & I).
  rewrite (Z.mod_small k) in M, I by (clear -K; lia). destruct R as [|x y o]; [exfalso; destruct I as (I & _); specialize (I eq_refl); clear -K I; lia|].
  cbn [stands] in M. destruct RR as (R1 & R2). rewrite !Z.mod_small in M by assumption. exists x, y. split; [exact M|].
  assert (X0 : x <> 0). { intros ->. destruct VR as (_ & VR). apply (secp_x_nonzero 0 y); [|reflexivity]. exact VR. }
  split; [change (c_p secp256k1) with secp_p in R1; clear -R1 X0; lia|].
  assert (S1 : ecdsa_sign_k secp256k1 secp_G secret val k = (let! ki := inverse_mod k key_max in
     let s := (ki * (val + (secret * x) mod key_max)) mod key_max in if s =? 0 then Err E_RuntimeError else Ok (x, s))).
  { unfold ecdsa_sign_k. cbn [point_order secp_G]. cbn zeta. fold secp_G. unfold secp_G at 1. rewrite A. cbn [bind point_x]. destruct (Z.eqb_spec x 0); [contradiction|reflexivity]. }
  rewrite S1. pose proof (n_gt1 _ key_max_prime) as N1. destruct (inverse_mod_spec k key_max N1) as (J & _). destruct (J (gcd_n _ key_max_prime k K)) as (ki & EK & KB & KI).
  rewrite EK. cbn [bind]. cbn zeta. set (s := (ki * (val + (secret * x) mod key_max)) mod key_max).
  assert (SK : (s * k) mod key_max = (val + secret * x) mod key_max).
  { unfold s. rewrite Zmult_mod_idemp_l. replace (ki * (val + (secret * x) mod key_max) * k) with (k * ki * (val + (secret * x) mod key_max)) by ring.
    rewrite <- Zmult_mod_idemp_l, KI, Z.mul_1_l, Zplus_mod_idemp_r. reflexivity. }
  assert (SB : 0 <= s < key_max) by (apply Z.mod_pos_bound; clear -N1; lia).
  assert (S0 : s = 0 <-> (val + secret * x) mod key_max = 0).
  { split; intros H.
    - rewrite <- SK, H. reflexivity.
    - unfold s. rewrite <- Zmult_mod_idemp_r, Zplus_mod_idemp_r, H, Z.mul_0_r. reflexivity. }
  clearbody s. destruct (Z.eqb_spec s 0) as [E|E].
  - right. split; [apply S0, E|reflexivity].
  - left. split; [intros H; apply E, S0, H|]. exists s. split; [reflexivity|]. split; [clear -SB E; lia|exact SK].
Qed.

(** ** a small curve: y^2 = x^3 + 7 modulo 43, whose 31 points are generated by (2, 12) *)
Definition toy : curve := Curve 43 0 7.
Lemma toy_group : dsa_group toy 2 12 31.
Proof.
  assert (P43 : prime 43) by (apply (trial_prime 10); [reflexivity|vm_compute; reflexivity]).
  assert (N2 : no_two_torsion toy).
  { intros x. cbn [toy c_p c_a c_b]. assert (H : forallb (fun i => negb ((Z.of_nat i * Z.of_nat i * Z.of_nat i + 7) mod 43 =? 0)) (seq 0 43) = true) by (vm_compute; reflexivity).
    rewrite forallb_forall in H. pose proof (Z.mod_pos_bound x 43 ltac:(lia)) as B. specialize (H (Z.to_nat (x mod 43)) ltac:(apply in_seq; lia)).
    rewrite Z2Nat.id in H by lia. apply negb_true_iff, Z.eqb_neq in H. intros K. apply H. rewrite <- K.
    rewrite Zplus_mod, (Zmult_mod (x mod 43 * (x mod 43))), (Zmult_mod (x mod 43)), !Zmod_mod, <- (Zmult_mod x x), <- (Zmult_mod (x * x) x), <- Zplus_mod. f_equal. ring. }
  split; [exact P43|]. split; [discriminate|]. split; [exact N2|]. split; [apply (trial_prime 10); [reflexivity|vm_compute; reflexivity]|]. split; [reflexivity|].
  split; [cbn; split; [lia|split; [lia|reflexivity]]|].
  destruct (mul_spec toy P43 ltac:(discriminate) (PAff 2 12 None) 31 N2) as (R & A & _ & M).
  - split; [cbn; lia|reflexivity].
  - cbn; lia.
  - assert (E : p_mul toy (PAff 2 12 None) 31 = Ok PInf) by (vm_compute; reflexivity). rewrite E in A. injection A as <-. exact M.
Qed.

(** ** refutations and small facts *)
Lemma sqrt_two_incomplete : ~ (forall a, exists r, modular_sqrt a 2 = Ok r /\ (r <> 0 <-> a mod 2 <> 0 /\ is_square 2 a)).
Proof.
  intros H. destruct (H 1) as (r & E & I). rewrite sqrt_two in E. injection E as <-. destruct I as (_ & I).
  apply I; [|reflexivity]. split; [discriminate|]. exists 1. reflexivity.
Qed.
Lemma new_point_any c x y o : new_point c x y o =
  (if (y * y) mod c_p c =? (x * x * x + c_a c * x + c_b c) mod c_p c then Ok (PAff x y o) else Err E_NoSuchPoint).
Proof.
  unfold new_point, contains_point. set (s := x * x * x + c_a c * x + c_b c). f_equal.
  destruct (Z.eq_dec (c_p c) 0) as [->|N].
  - rewrite !Zmod_0_r. destruct (Z.eqb_spec (y * y - s) 0), (Z.eqb_spec (y * y) s); reflexivity || lia.
  - destruct (Z.eqb_spec ((y * y - s) mod c_p c) 0) as [E|E], (Z.eqb_spec ((y * y) mod c_p c) (s mod c_p c)) as [F|F]; try reflexivity; exfalso.
    + apply F. replace (y * y) with (y * y - s + s) by ring. rewrite <- Zplus_mod_idemp_l, E. reflexivity.
    + apply E. rewrite Zminus_mod, F, Z.sub_diag. apply Zmod_0_l.
Qed.
Lemma secp_curve : prime (c_p secp256k1) /\ c_p secp256k1 <> 2 /\ no_two_torsion secp256k1 /\ nonsingular secp256k1.
Proof. exact (conj PRp (conj ODp (conj secp_no_two secp_nonsing))). Qed.
Lemma secp_y_nonzero x y : secp_on x y -> y mod secp_p <> 0.
Proof.
  intros H K. apply (secp_no_two x). change (c_p secp256k1) with secp_p. change (c_a secp256k1) with 0. change (c_b secp256k1) with 7.
  rewrite Z.mul_0_l, Z.add_0_r, <- H, Zmult_mod, K. reflexivity.
Qed.
Lemma large_r_rejected : ~ (forall c gx gy n, dsa_group c gx gy n -> forall fuel secret val r s x y,
  1 <= secret < n -> ecdsa_sign fuel c (PAff gx gy (Some n)) secret val = Ok (r, s) ->
  public_pair_for_secret c (PAff gx gy (Some n)) secret = Ok (Some (x, y)) ->
  ecdsa_verify c (PAff gx gy (Some n)) (x, y) val (r, s) = Ok true).
Proof.
  intros H. specialize (H toy 2 12 31 toy_group 2%nat 5 (2 ^ 251) 34 30 12 12 ltac:(lia)).
  discriminate H; vm_compute; reflexivity.
Qed.
Lemma verify_not_boolean : ~ (forall x y val r s, on_curve secp_p 0 7 (EA x y) -> exists b, ecdsa_verify secp256k1 secp_G (x, y) val (r, s) = Ok b).
Proof.
  intros H. destruct (H secp_gx secp_gy (key_max - 1) 1 1) as (b & E).
  - split; [split; vm_compute; congruence|]. split; [split; vm_compute; congruence|vm_compute; reflexivity].
  - unfold secp_G in E. rewrite (dg_verify_infinity secp256k1 secp_gx secp_gy key_max secp_group 1) in E; [discriminate|vm_compute; reflexivity| | |vm_compute; reflexivity];
      split; vm_compute; congruence.
Qed.
