(** ECDSA over any curve without points of order two and a generator of prime order. *)
From Coq Require Import ZArith Znumtheory Lia Bool List Field.
From Verif Require Import Base M_Keys M_EC S_EC P_Field P_NumTheory P_Group P_EC P_ECProps.
Import ListNotations.
Open Scope Z_scope.

Section DSA.
Context (c : curve) (PR : prime (c_p c)) (OD : c_p c <> 2) (N2 : no_two_torsion c).
Notation p := (c_p c).
Context (gx gy n : Z) (PN : prime n).
Notation G := (PAff gx gy (Some n)).
Context (V : valid c G).
Notation g := (emb c G).
Notation ca := (of p (c_a c)).
Notation cb := (of p (c_b c)).
Context (ORD : gmul c (Z.to_nat n) g = GInf).

Lemma n_gt1 : 1 < n. Proof. destruct PN. assumption. Qed.
Lemma g_on : gon ca cb g. Proof. exact (valid_on c _ V). Qed.
Let NS := no_two_nonsing c N2.

Definition zG (k : Z) := gmul c (Z.to_nat (k mod n)) g.
Lemma zG_on k : gon ca cb (zG k). Proof. apply (gmul_on c PR OD), g_on. Qed.
Lemma gmul_zG k : 0 <= k -> gmul c (Z.to_nat k) g = zG k.
Proof.
  intros K. pose proof n_gt1. unfold zG. pose proof (Z.div_mod k n ltac:(lia)) as D. pose proof (Z.mod_pos_bound k n ltac:(lia)).
  assert (Q : 0 <= k / n) by (apply Z.div_pos; lia).
  replace (Z.to_nat k) with (Z.to_nat (k / n) * Z.to_nat n + Z.to_nat (k mod n))%nat.
  - rewrite (gmul_add c PR OD NS) by exact g_on. rewrite (gmul_mul c PR OD NS) by exact g_on. rewrite ORD, gmul_inf. reflexivity.
  - rewrite <- Z2Nat.inj_mul, <- Z2Nat.inj_add by nia. f_equal. lia.
Qed.
Lemma zG_mod j k : j mod n = k mod n -> zG j = zG k.
Proof. unfold zG. intros ->. reflexivity. Qed.
Lemma zG_add j k : gadd ca (zG j) (zG k) = zG (j + k).
Proof.
  pose proof n_gt1. unfold zG at 1 2. rewrite <- (gmul_add c PR OD NS) by exact g_on.
  pose proof (Z.mod_pos_bound j n ltac:(lia)). pose proof (Z.mod_pos_bound k n ltac:(lia)).
  rewrite <- Z2Nat.inj_add by lia. rewrite gmul_zG by lia. apply zG_mod. rewrite <- Zplus_mod. reflexivity.
Qed.
Lemma zG_mul m k : 0 <= m -> gmul c (Z.to_nat m) (zG k) = zG (m * k).
Proof.
  intros M. pose proof n_gt1. unfold zG at 1. rewrite <- (gmul_mul c PR OD NS) by exact g_on.
  pose proof (Z.mod_pos_bound k n ltac:(lia)).
  rewrite <- Z2Nat.inj_mul by lia. rewrite gmul_zG by nia. apply zG_mod. apply Zmult_mod_idemp_r.
Qed.
Lemma zG_0 : zG 0 = GInf. Proof. unfold zG. rewrite Zmod_0_l. reflexivity. Qed.
Lemma zG_1 : zG 1 = g. Proof. pose proof n_gt1. unfold zG. rewrite Z.mod_1_l by lia. reflexivity. Qed.
Lemma zG_inf k : zG k = GInf <-> k mod n = 0.
Proof.
  pose proof n_gt1. split.
  - intros E. destruct (Z.eq_dec (k mod n) 0) as [|NZ]; [assumption|exfalso].
    assert (RP : rel_prime n k) by (apply prime_rel_prime; [exact PN|intros D; apply NZ; apply Zdivide_mod; exact D]).
    apply rel_prime_bezout in RP. destruct RP as [u v B].
    assert (K : zG (v mod n * k) = GInf).
    { rewrite <- zG_mul by (apply Z.mod_pos_bound; lia). rewrite E. apply gmul_inf. }
    rewrite (zG_mod _ 1) in K; [rewrite zG_1 in K; discriminate|].
    rewrite Zmult_mod_idemp_l. replace (v * k) with (1 + (- u) * n) by lia. apply Z_mod_plus_full.
  - intros E. rewrite (zG_mod k 0); [exact zG_0|]. rewrite E, Zmod_0_l. reflexivity.
Qed.

Lemma mul_G e : exists R, p_mul c G e = Ok R /\ valid c R /\ emb c R = zG e.
Proof.
  pose proof n_gt1. assert (X : exponent G e = e mod n) by (cbn; destruct (Z.eqb_spec n 0); [lia|reflexivity]).
  destruct (p_mul_ok c PR OD N2 G e V) as (R & A & B & C); [rewrite X; apply Z.mod_pos_bound; lia|]. rewrite X in C. eauto.
Qed.
Lemma naf_bound e i : 0 <= e < n -> 1 <= i -> 2 < n -> naf e i + 1 = 2 * naf e (i + 1) -> 0 < naf e i + 1 < n.
Proof.
  intros E I N3 H. pose proof (naf_nonneg e i ltac:(lia) ltac:(lia)). split; [lia|].
  destruct (Z.eq_dec i 1) as [->|I2].
  - rewrite naf_1 in H |- * by lia. destruct (p_odd PN ltac:(lia)) as (h & O & _). lia.
  - unfold naf in *. rewrite !Z.shiftr_div_pow2 in * by lia. 
    replace (2 ^ i) with (4 * 2 ^ (i - 2)) in * by (change 4 with (2 ^ 2); rewrite <- Z.pow_add_r by lia; f_equal; lia).
    pose proof (Z.pow_pos_nonneg 2 (i - 2) ltac:(lia) ltac:(lia)) as W. set (w := 2 ^ (i - 2)) in *. clearbody w. clear H.
    pose proof (Z.div_mod (3 * e) (4 * w) ltac:(lia)). pose proof (Z.mod_pos_bound (3 * e) (4 * w) ltac:(lia)).
    pose proof (Z.div_mod e (4 * w) ltac:(lia)). pose proof (Z.mod_pos_bound e (4 * w) ltac:(lia)). nia.
Qed.
Lemma mul_G_reduced e R : 2 < n -> reduced c G -> p_mul c G e = Ok R -> reduced c R.
Proof.
  intros N3 RG E. pose proof n_gt1. assert (X : exponent G e = e mod n) by (cbn; destruct (Z.eqb_spec n 0); [lia|reflexivity]).
  pose proof (Z.mod_pos_bound e n ltac:(lia)) as B.
  destruct (p_mul_full c PR OD N2 G e V) as (R' & A & _ & _ & D); [lia|]. rewrite E in A. injection A as <-. apply D; [exact RG|].
  rewrite X. intros i I H1 K. pose proof (naf_bound (e mod n) i B I N3 H1) as NB. rewrite gmul_zG in K by lia. apply zG_inf in K.
  rewrite Z.mod_small in K by exact (conj (Z.lt_le_incl _ _ (proj1 NB)) (proj2 NB)). lia.
Qed.
Lemma zG_inj j k : zG j = zG k -> j mod n = k mod n.
Proof.
  intros E. pose proof n_gt1. assert (H0 : zG (j - k) = GInf).
  { replace (j - k) with (j + - k) by lia. rewrite <- zG_add, E, zG_add. replace (k + - k) with 0 by lia. apply zG_0. }
  apply zG_inf in H0. apply Z.mod_divide in H0; [|lia]. destruct H0 as (q & Q). replace j with (k + q * n) by lia. apply Z_mod_plus_full.
Qed.
Lemma emb_inf R : emb c R = GInf <-> R = PInf.
Proof. destruct R; split; intros; try discriminate; reflexivity. Qed.
Lemma mul_G_inf e : p_mul c G e = Ok PInf <-> e mod n = 0.
Proof.
  destruct (mul_G e) as (R & A & B & C). rewrite A, <- zG_inf, <- C, emb_inf. split; [intros K; injection K; auto|intros ->; reflexivity].
Qed.
Lemma mul_G_spec e : exists R, p_mul c G e = Ok R /\ valid c R /\ multiple p (c_a c) (stands p G) (e mod n) (stands p R) /\ (R = PInf <-> e mod n = 0).
Proof.
  pose proof n_gt1. destruct (mul_G e) as (R & A & B & C). exists R. split; [exact A|]. split; [exact B|]. split.
  - rewrite !stands_emb, C. unfold zG. rewrite <- (Z2Nat.id (e mod n)) at 1 by (apply Z.mod_pos_bound; lia).
    apply (gmul_multiple c PR OD). exact g_on.
  - rewrite <- emb_inf, C. apply zG_inf.
Qed.
Lemma mul_G_inj e f R S : p_mul c G e = Ok R -> p_mul c G f = Ok S -> stands p R = stands p S -> e mod n = f mod n.
Proof.
  intros A B E. destruct (mul_G e) as (R' & A1 & _ & A2), (mul_G f) as (S' & B1 & _ & B2). rewrite A in A1. rewrite B in B1. injection A1 as <-. injection B1 as <-.
  apply zG_inj. rewrite <- A2, <- B2. apply (unemb_inj c). rewrite !unemb_emb. exact E.
Qed.
(** the order of the generator, in the words of the specification *)
Lemma order_spec k R : multiple p (c_a c) (stands p G) k R -> (R = EO <-> k mod n = 0).
Proof.
  intros M. rewrite stands_emb in M. apply (multiple_gmul c PR OD) in M; [|exact g_on]. destruct M as (K & ->).
  rewrite gmul_zG by exact K. rewrite <- zG_inf. split; [|intros ->; reflexivity].
  intros E. apply (unemb_inj c). exact E.
Qed.
Lemma multiple_period k R : 0 <= k -> (multiple p (c_a c) (stands p G) k R <-> multiple p (c_a c) (stands p G) (k mod n) R).
Proof.
  pose proof n_gt1. assert (L : forall k, 0 <= k -> multiple p (c_a c) (stands p G) k (unemb c (zG k))).
  { intros j J. rewrite stands_emb. rewrite <- (gmul_zG j J). rewrite <- (Z2Nat.id j) at 1 by exact J. apply (gmul_multiple c PR OD), g_on. }
  assert (Z1 : zG (k mod n) = zG k) by (apply zG_mod, Zmod_mod).
  intros K. assert (KB : 0 <= k mod n) by (apply Z.mod_pos_bound; lia). split; intros M.
  - rewrite (multiple_fun c PR OD G _ _ _ V M (L k K)). rewrite <- Z1. apply L, KB.
  - rewrite (multiple_fun c PR OD G _ _ _ V M (L (k mod n) KB)). rewrite Z1. apply L, K.
Qed.

(** ** the nonce *)
Lemma det_k_range fuel m k v r : det_k_loop fuel m k v = Some r -> 1 <= r < m.
Proof.
  revert k v. induction fuel as [|f IH]; intros k v E; [discriminate|]. cbn [det_k_loop] in E. cbn zeta in E.
  destruct (grow_t _ k v [] _) as (t & v'). destruct (_ && _) eqn:B; [|eapply IH; exact E].
  apply andb_true_iff in B. destruct B as (B1 & B2). apply Z.leb_le in B1. apply Z.ltb_lt in B2. injection E as <-. lia.
Qed.
Lemma generate_k_range fuel m secret val r : deterministic_generate_k fuel m secret val = Some r -> 1 <= r < m.
Proof. apply det_k_range. Qed.

(** ** signing *)
Lemma mod_n z : 0 <= z mod n < n.
Proof. pose proof n_gt1. apply Z.mod_pos_bound. lia. Qed.
Lemma exp_small x y u : 0 <= u < n -> exponent (PAff x y (Some n)) u = u.
Proof. intros U. cbn. destruct (Z.eqb_spec n 0); [lia|apply Z.mod_small, U]. Qed.
Lemma gcd_n k : 1 <= k < n -> Z.gcd k n = 1.
Proof. intros K. apply Zgcd_1_rel_prime, rel_prime_sym, prime_rel_prime; [exact PN|]. intros D. apply Z.divide_pos_le in D; lia. Qed.
Lemma sign_total secret val k : 1 <= k < n ->
  (exists r s, ecdsa_sign_k c G secret val k = Ok (r, s) /\ 1 <= r < p /\ 1 <= s < n) \/ ecdsa_sign_k c G secret val k = Err E_RuntimeError.
Proof.
  intros K. unfold ecdsa_sign_k. cbn [point_order]. cbn zeta. destruct (mul_G k) as (R & A & B & C). rewrite A. cbn [bind].
  destruct R as [|x y o].
  { exfalso. symmetry in C. apply zG_inf in C. rewrite Z.mod_small in C; lia. }
  cbn [point_x]. destruct B as (X & _). destruct (Z.eqb_spec x 0); [right; reflexivity|].
  destruct (inverse_mod_spec k n n_gt1) as (I & _). destruct (I (gcd_n k K)) as (ki & E & _ & _). rewrite E. cbn [bind].
  set (s := (ki * (val + (secret * x) mod n)) mod n). pose proof n_gt1. pose proof (Z.mod_pos_bound (ki * (val + (secret * x) mod n)) n ltac:(lia)) as SB. fold s in SB.
  destruct (Z.eqb_spec s 0); [right; reflexivity|]. left. exists x, s. split; [reflexivity|]. lia.
Qed.
Lemma sign_k_unit secret val k r s : ecdsa_sign_k c G secret val k = Ok (r, s) -> k mod n <> 0.
Proof.
  intros E K. unfold ecdsa_sign_k in E. apply mul_G_inf in K. rewrite K in E. cbn [bind point_x point_order] in E. destruct (inverse_mod k n); discriminate.
Qed.
Lemma sign_k_zero secret val k : k mod n = 0 -> ecdsa_sign_k c G secret val k = Err E_AssertionError.
Proof.
  intros K. pose proof n_gt1 as N1. unfold ecdsa_sign_k. rewrite (proj2 (mul_G_inf k) K). cbn [bind point_x point_order]. cbn zeta.
  destruct (inverse_mod_spec k n N1) as (_ & I). rewrite I; [reflexivity|]. rewrite Z.gcd_comm, <- Z.gcd_mod, K, Z.gcd_0_l by lia. lia.
Qed.

Lemma emb_x x y o x' y' o' : 0 <= x < p -> 0 <= x' < p -> emb c (PAff x y o) = emb c (PAff x' y' o') -> x = x'.
Proof.
  intros X X' E. apply (f_equal (unemb c)) in E. rewrite !unemb_emb in E. cbn in E. injection E as E _. rewrite !Z.mod_small in E by lia. exact E.
Qed.

Lemma dsa_eq secret val k r s ki ci : (k * ki) mod n = 1 -> (s * ci) mod n = 1 ->
  s = (ki * (val + (secret * r) mod n)) mod n ->
  ((val * ci) mod n + (r * ci) mod n * secret) mod n = k mod n.
Proof.
  intros K C S. pose proof n_gt1. assert (W : forall a b, a mod n = b mod n <-> (exists t, a = b + t * n)).
  { intros a b. split.
    - intros E. exists (a / n - b / n). pose proof (Z.div_mod a n ltac:(lia)). pose proof (Z.div_mod b n ltac:(lia)). lia.
    - intros (t & ->). apply Z_mod_plus_full. }
  assert (M1 : 1 = 1 mod n) by (symmetry; apply Z.mod_1_l; lia).
  rewrite M1 in K, C. apply W in K, C. destruct K as (t1 & K), C as (t2 & C).
  assert (S' : exists t3, s = ki * (val + secret * r) + t3 * n).
  { apply W. rewrite S. rewrite Zmod_mod. rewrite <- Zmult_mod_idemp_r, Zplus_mod_idemp_r, Zmult_mod_idemp_r. reflexivity. }
  destruct S' as (t3 & S'). rewrite <- Zplus_mod_idemp_r, Zmult_mod_idemp_l, <- Zplus_mod. apply W.
  (* val ci + r ci secret = ci (val + r secret); times (k ki): = k (s - t3 n) ci *)
  exists (ci * (val + r * secret) * (- t1) + k * t2 - k * t3 * ci).
  assert (A : ci * (val + r * secret) * (k * ki) = k * ((s - t3 * n) * ci)) by (rewrite S'; ring).
  assert (B : ci * (val + r * secret) * (1 + t1 * n) = k * ((1 + t2 * n) - t3 * n * ci)).
  { rewrite <- K, A, <- C. ring. }
  lia.
Qed.

Lemma verify_sign secret val k r s : ecdsa_sign_k c G secret val k = Ok (r, s) -> secret mod n <> 0 -> r < n ->
  exists x y, public_pair_for_secret c G secret = Ok (Some (x, y)) /\ ecdsa_verify c G (x, y) val (r, s) = Ok true.
Proof.
  intros E NS0 RN. pose proof n_gt1 as N1. pose proof (sign_k_unit _ _ _ _ _ E) as KU. unfold ecdsa_sign_k in E. cbn [point_order] in E. cbn zeta in E.
  destruct (mul_G k) as (P1 & A & VP & C). rewrite A in E. cbn [bind] in E. destruct P1 as [|rx ry ro]; [cbn [point_x] in E; destruct (inverse_mod k n); discriminate|]. cbn [point_x] in E.
  destruct (Z.eqb_spec rx 0) as [|RX]; [discriminate|]. destruct (inverse_mod k n) as [ki|] eqn:EK; [|discriminate]. cbn [bind] in E.
  assert (GK : Z.gcd k n = 1).
  { destruct (inverse_mod_spec k n N1) as (_ & I). destruct (Z.eq_dec (Z.gcd k n) 1); [assumption|]. rewrite I in EK by assumption. discriminate. }
  destruct (inverse_mod_spec k n N1) as (I & _). destruct (I GK) as (ki' & EK' & _ & KI). rewrite EK in EK'. injection EK' as <-. clear I.
  destruct (_ =? 0) eqn:S0 in E; [discriminate|]. apply Z.eqb_neq in S0. injection E as -> ES. destruct VP as (XB & _).
  pose proof (Z.mod_pos_bound (ki * (val + (secret * r) mod n)) n ltac:(lia)) as SB. rewrite ES in SB, S0.
  destruct (mul_G secret) as (Q & AQ & VQ & CQ). unfold public_pair_for_secret. rewrite AQ. cbn [bind].
  destruct Q as [|x y o]; [exfalso; symmetry in CQ; apply zG_inf in CQ; contradiction|]. exists x, y. split; [reflexivity|].
  unfold ecdsa_verify. cbn [point_order]. cbn zeta.
  destruct (Z.ltb_spec r 1); [lia|]. destruct (Z.gtb_spec r (n - 1)); [lia|]. cbn [orb].
  destruct (Z.ltb_spec s 1); [lia|]. destruct (Z.gtb_spec s (n - 1)); [lia|]. cbn [orb].
  destruct (inverse_mod_spec s n N1) as (I & _). destruct (I (gcd_n s ltac:(lia))) as (ci & EC & _ & CI). clear I. rewrite EC. cbn [bind].
  set (u1 := (val * ci) mod n). set (u2 := (r * ci) mod n).
  destruct (mul_G u1) as (PA & A1 & V1 & C1). rewrite A1. cbn [bind fst snd].
  assert (VQ' : valid c (PAff x y (Some n))) by exact VQ.
  rewrite (new_point_ok c x y (Some n)) by (exact (valid_on c _ VQ)). cbn [bind].
  assert (U2 : 0 <= u2 < n) by (apply mod_n).
  assert (X2 : exponent (PAff x y (Some n)) u2 = u2) by (apply exp_small, U2).
  destruct (p_mul_ok c PR OD N2 (PAff x y (Some n)) u2 VQ') as (PB & A2 & V2 & C2); [rewrite X2; exact (proj1 U2)|]. rewrite A2. cbn [bind].
  rewrite X2 in C2. change (emb c (PAff x y (Some n))) with (emb c (PAff x y o)) in C2. rewrite CQ, zG_mul in C2 by (exact (proj1 U2)).
  destruct (p_add_ok c PR OD PA PB V1 V2) as (PT & A3 & V3 & C3 & _). rewrite A3. cbn [bind].
  rewrite C1, C2, zG_add in C3.
  rewrite (zG_mod _ k) in C3 by (exact (dsa_eq secret val k r s ki ci KI CI (eq_sym ES))).
  rewrite <- C in C3. destruct PT as [|x' y' o']; [discriminate|]. cbn [point_x].
  destruct V3 as (XB' & _). rewrite (emb_x _ _ _ _ _ _ XB' XB C3). rewrite Z.mod_small by lia. rewrite Z.eqb_refl. reflexivity.
Qed.

(** ** verification is the ECDSA equation *)
Lemma verify_range pair val r s : ~ (1 <= r < n /\ 1 <= s < n) -> ecdsa_verify c G pair val (r, s) = Ok false.
Proof.
  intros H. unfold ecdsa_verify. cbn [point_order]. cbn zeta.
  destruct (Z.ltb_spec r 1); [reflexivity|]. destruct (Z.gtb_spec r (n - 1)); [reflexivity|]. cbn [orb].
  destruct (Z.ltb_spec s 1); [reflexivity|]. destruct (Z.gtb_spec s (n - 1)); [reflexivity|]. exfalso. lia.
Qed.
Lemma verify_cases x y val r s : 1 <= r < n -> 1 <= s < n -> valid c (PAff x y None) ->
  exists w PT, (s * w) mod n = 1 /\ valid c PT /\
    emb c PT = gadd ca (zG ((val * w) mod n)) (gmul c (Z.to_nat ((r * w) mod n)) (emb c (PAff x y None))) /\
    ecdsa_verify c G (x, y) val (r, s) = match PT with PInf => Err E_TypeError | PAff x' _ _ => Ok (x' mod n =? r) end.
Proof.
  intros R S VQ. pose proof n_gt1 as N1. unfold ecdsa_verify. cbn [point_order]. cbn zeta.
  destruct (Z.ltb_spec r 1); [lia|]. destruct (Z.gtb_spec r (n - 1)); [lia|]. cbn [orb].
  destruct (Z.ltb_spec s 1); [lia|]. destruct (Z.gtb_spec s (n - 1)); [lia|]. cbn [orb].
  destruct (inverse_mod_spec s n N1) as (I & _). destruct (I (gcd_n s ltac:(lia))) as (ci & EC & _ & CI). clear I. rewrite EC. cbn [bind].
  set (u1 := (val * ci) mod n). set (u2 := (r * ci) mod n).
  destruct (mul_G u1) as (PA & A1 & V1 & C1). rewrite A1. cbn [bind fst snd].
  assert (VQ' : valid c (PAff x y (Some n))) by exact VQ.
  rewrite (new_point_ok c x y (Some n)) by (exact (valid_on c _ VQ)). cbn [bind].
  assert (U2 : 0 <= u2 < n) by (apply mod_n).
  assert (X2 : exponent (PAff x y (Some n)) u2 = u2) by (apply exp_small, U2).
  destruct (p_mul_ok c PR OD N2 (PAff x y (Some n)) u2 VQ') as (PB & A2 & V2 & C2); [rewrite X2; exact (proj1 U2)|]. rewrite A2. cbn [bind].
  rewrite X2 in C2. destruct (p_add_ok c PR OD PA PB V1 V2) as (PT & A3 & V3 & C3 & _). rewrite A3. cbn [bind].
  exists ci, PT. split; [exact CI|]. split; [exact V3|]. split; [|destruct PT; reflexivity].
  rewrite C3, C1, C2. reflexivity.
Qed.
Lemma inv_unique s w w' : (s * w) mod n = 1 -> (s * w') mod n = 1 -> w mod n = w' mod n.
Proof.
  intros A B. pose proof n_gt1.
  transitivity ((w * (s * w')) mod n); [rewrite <- Zmult_mod_idemp_r, B, Z.mul_1_r; reflexivity|].
  replace (w * (s * w')) with (s * w * w') by ring. rewrite <- Zmult_mod_idemp_l, A, Z.mul_1_l. reflexivity.
Qed.
Lemma verify_spec x y val r s : valid c (PAff x y None) ->
  (ecdsa_verify c G (x, y) val (r, s) = Ok true <-> sig_valid p (c_a c) n (stands p G) (stands p (PAff x y None)) val r s).
Proof.
  intros VQ. pose proof n_gt1 as N1.
  destruct (Z_le_dec 1 r) as [R1|R1]; [destruct (Z_lt_dec r n) as [R2|R2]; [destruct (Z_le_dec 1 s) as [S1|S1]; [destruct (Z_lt_dec s n) as [S2|S2]|]|]|].
  2-5: rewrite verify_range by lia; split; [discriminate|intros (A & B & _); lia].
  destruct (verify_cases x y val r s (conj R1 R2) (conj S1 S2) VQ) as (w & PT & W & VT & ET & ->).
  set (Q := PAff x y None) in *. set (B := gmul c (Z.to_nat ((r * w) mod n)) (emb c Q)) in *.
  assert (QO : gon ca cb (emb c Q)) by (apply valid_on, VQ).
  assert (BO : gon ca cb B) by (apply (gmul_on c PR OD), QO).
  pose proof (Z.mod_pos_bound (val * w) n ltac:(lia)) as U1. pose proof (Z.mod_pos_bound (r * w) n ltac:(lia)) as U2.
  assert (MA : multiple p (c_a c) (stands p G) ((val * w) mod n) (unemb c (zG ((val * w) mod n)))).
  { rewrite stands_emb. unfold zG. rewrite Zmod_mod. rewrite <- (Z2Nat.id ((val * w) mod n)) at 1 by lia. apply (gmul_multiple c PR OD), g_on. }
  assert (MB : multiple p (c_a c) (stands p Q) ((r * w) mod n) (unemb c B)).
  { rewrite stands_emb. unfold B. rewrite <- (Z2Nat.id ((r * w) mod n)) at 1 by lia. apply (gmul_multiple c PR OD), QO. }
  pose proof (gadd_is_sum c PR OD _ _ (zG_on ((val * w) mod n)) BO) as SM. rewrite <- ET in SM.
  split.
  - destruct PT as [|x' y' o']; [discriminate|]. intros E. injection E as E. apply Z.eqb_eq in E.
    split; [lia|]. split; [lia|]. exists w, (unemb c (zG ((val * w) mod n))), (unemb c B), x', (y' mod p).
    repeat (split; [assumption|]). split; [|exact E].
    destruct VT as (XB & _). rewrite unemb_emb in SM. cbn [stands] in SM. rewrite (Z.mod_small x' p) in SM by lia. exact SM.
  - intros (_ & _ & w' & A' & B' & x' & y' & W' & MA' & MB' & SM' & E).
    pose proof (inv_unique s w w' W W') as WW.
    rewrite <- (Zmult_mod_idemp_r w' val), <- WW, Zmult_mod_idemp_r in MA'. rewrite <- (Zmult_mod_idemp_r w' r), <- WW, Zmult_mod_idemp_r in MB'.
    pose proof (multiple_fun c PR OD G _ _ _ V MA' MA) as ->. pose proof (multiple_fun c PR OD Q _ _ _ VQ MB' MB) as ->.
    apply (is_sum_gadd c PR OD) in SM'; [|apply zG_on|exact BO]. rewrite <- ET, unemb_emb in SM'.
    destruct PT as [|x3 y3 o3]; [discriminate|]. cbn [stands] in SM'. injection SM' as SX SY. destruct VT as (XB & _).
    rewrite Z.mod_small in SX by lia. subst x3. rewrite E, Z.eqb_refl. reflexivity.
Qed.
Lemma verify_raises x y val r s : valid c (PAff x y None) ->
  (ecdsa_verify c G (x, y) val (r, s) = Err E_TypeError <-> sig_infinite p (c_a c) n (stands p G) (stands p (PAff x y None)) val r s).
Proof.
  intros VQ. pose proof n_gt1 as N1.
  destruct (Z_le_dec 1 r) as [R1|R1]; [destruct (Z_lt_dec r n) as [R2|R2]; [destruct (Z_le_dec 1 s) as [S1|S1]; [destruct (Z_lt_dec s n) as [S2|S2]|]|]|].
  2-5: rewrite verify_range by lia; split; [discriminate|intros (A & B & _); lia].
  destruct (verify_cases x y val r s (conj R1 R2) (conj S1 S2) VQ) as (w & PT & W & VT & ET & ->).
  set (Q := PAff x y None) in *. set (B := gmul c (Z.to_nat ((r * w) mod n)) (emb c Q)) in *.
  assert (QO : gon ca cb (emb c Q)) by (apply valid_on, VQ).
  assert (BO : gon ca cb B) by (apply (gmul_on c PR OD), QO).
  pose proof (Z.mod_pos_bound (val * w) n ltac:(lia)) as U1. pose proof (Z.mod_pos_bound (r * w) n ltac:(lia)) as U2.
  assert (MA : multiple p (c_a c) (stands p G) ((val * w) mod n) (unemb c (zG ((val * w) mod n)))).
  { rewrite stands_emb. unfold zG. rewrite Zmod_mod. rewrite <- (Z2Nat.id ((val * w) mod n)) at 1 by lia. apply (gmul_multiple c PR OD), g_on. }
  assert (MB : multiple p (c_a c) (stands p Q) ((r * w) mod n) (unemb c B)).
  { rewrite stands_emb. unfold B. rewrite <- (Z2Nat.id ((r * w) mod n)) at 1 by lia. apply (gmul_multiple c PR OD), QO. }
  pose proof (gadd_is_sum c PR OD _ _ (zG_on ((val * w) mod n)) BO) as SM. rewrite <- ET in SM.
  split.
  - destruct PT as [|x' y' o']; [|discriminate]. intros _.
    split; [lia|]. split; [lia|]. exists w, (unemb c (zG ((val * w) mod n))), (unemb c B).
    repeat (split; [assumption|]). exact SM.
  - intros (_ & _ & w' & A' & B' & W' & MA' & MB' & SM').
    pose proof (inv_unique s w w' W W') as WW.
    rewrite <- (Zmult_mod_idemp_r w' val), <- WW, Zmult_mod_idemp_r in MA'. rewrite <- (Zmult_mod_idemp_r w' r), <- WW, Zmult_mod_idemp_r in MB'.
    pose proof (multiple_fun c PR OD G _ _ _ V MA' MA) as ->. pose proof (multiple_fun c PR OD Q _ _ _ VQ MB' MB) as ->.
    apply (is_sum_gadd c PR OD) in SM'; [|apply zG_on|exact BO]. rewrite <- ET, unemb_emb in SM'.
    destruct PT as [|x3 y3 o3]; [reflexivity|discriminate].
Qed.
(** the only exceptions of [verify] *)
Lemma verify_total x y val r s : valid c (PAff x y None) ->
  (exists b, ecdsa_verify c G (x, y) val (r, s) = Ok b) \/ ecdsa_verify c G (x, y) val (r, s) = Err E_TypeError.
Proof.
  intros VQ. destruct (Z_le_dec 1 r) as [R1|R1]; [destruct (Z_lt_dec r n) as [R2|R2]; [destruct (Z_le_dec 1 s) as [S1|S1]; [destruct (Z_lt_dec s n) as [S2|S2]|]|]|].
  2-5: rewrite verify_range by lia; left; exists false; reflexivity.
  destruct (verify_cases x y val r s (conj R1 R2) (conj S1 S2) VQ) as (w & [|x' y' o'] & _ & _ & _ & ->); eauto.
Qed.
Lemma verify_infinity secret x y val r s : public_pair_for_secret c G secret = Ok (Some (x, y)) ->
  1 <= r < n -> 1 <= s < n -> (val + r * secret) mod n = 0 -> ecdsa_verify c G (x, y) val (r, s) = Err E_TypeError.
Proof.
  intros E R S Z0. pose proof n_gt1. unfold public_pair_for_secret in E. destruct (mul_G secret) as (Q & AQ & VQ & CQ). rewrite AQ in E. cbn [bind] in E.
  destruct Q as [|x' y' o]; [discriminate|]. injection E as -> ->.
  destruct (verify_cases x y val r s R S VQ) as (w & PT & W & VT & ET & ->).
  change (emb c (PAff x y None)) with (emb c (PAff x y o)) in ET. rewrite CQ, zG_mul, zG_add in ET by (apply Z.mod_pos_bound; lia).
  rewrite (proj2 (zG_inf _)) in ET; [apply emb_inf in ET; subst; reflexivity|].
  rewrite <- Zplus_mod_idemp_r, Zmult_mod_idemp_l, <- Zplus_mod. replace (val * w + r * w * secret) with ((val + r * secret) * w) by ring.
  rewrite <- Zmult_mod_idemp_l, Z0. reflexivity.
Qed.
Lemma verify_off_curve x y val r s : 1 <= r < n -> 1 <= s < n -> (y * y) mod p <> (x * x * x + c_a c * x + c_b c) mod p ->
  ecdsa_verify c G (x, y) val (r, s) = Err E_NoSuchPoint.
Proof.
  intros R S NC. pose proof n_gt1 as N1. unfold ecdsa_verify. cbn [point_order]. cbn zeta.
  destruct (Z.ltb_spec r 1); [lia|]. destruct (Z.gtb_spec r (n - 1)); [lia|]. cbn [orb].
  destruct (Z.ltb_spec s 1); [lia|]. destruct (Z.gtb_spec s (n - 1)); [lia|]. cbn [orb].
  destruct (inverse_mod_spec s n N1) as (I & _). destruct (I (gcd_n s ltac:(lia))) as (ci & EC & _ & CI). clear I. rewrite EC. cbn [bind].
  destruct (mul_G ((val * ci) mod n)) as (PA & A1 & V1 & C1). rewrite A1. cbn [bind fst snd].
  rewrite new_point_spec by exact PR. destruct (Z.eqb_spec ((y * y) mod p) ((x * x * x + c_a c * x + c_b c) mod p)); [contradiction|reflexivity].
Qed.

(** ** recovery *)
Context (RG : reduced c G) (N3 : 2 < n).

Lemma mod_eq a b : a mod n = b mod n <-> (exists t, a = b + t * n).
Proof.
  pose proof n_gt1. split.
  - intros E. exists (a / n - b / n). pose proof (Z.div_mod a n ltac:(lia)). pose proof (Z.div_mod b n ltac:(lia)). lia.
  - intros (t & ->). apply Z_mod_plus_full.
Qed.
(** multiplication by a scalar below the order keeps coordinates reduced, for any point of the group *)
Lemma mul_reduced P t e : valid c P -> reduced c P -> emb c P = zG t -> t mod n <> 0 -> 0 <= exponent P e < n ->
  exists R, p_mul c P e = Ok R /\ valid c R /\ reduced c R /\ emb c R = zG (exponent P e * t).
Proof.
  intros VP RP EP T E. destruct (p_mul_full c PR OD N2 P e VP (proj1 E)) as (R & A & B & C & D). exists R. split; [exact A|]. split; [exact B|].
  split; [|rewrite C, EP; apply zG_mul, E]. apply D; [exact RP|]. intros i I H1 K. pose proof (naf_bound _ i E I N3 H1) as NB.
  rewrite EP, zG_mul in K by lia. apply zG_inf in K. apply Z.mod_divide in K; [|lia]. apply prime_mult in K; [|exact PN].
  destruct K as [K|K]; [apply Z.divide_pos_le in K; lia|]. apply T, Z.mod_divide; [lia|exact K].
Qed.
Lemma add_reduced_xy P Q R : valid c P -> valid c Q -> reduced c P -> reduced c Q -> p_add c P Q = Ok R -> reduced c R.
Proof. apply (add_reduced c PR OD). Qed.

(** orders declared on the way *)
Definition ord_ok (P : point) : Prop := match P with PAff _ _ (Some o) => o = n | _ => True end.
Lemma new_ord x y o R : new_point c x y o = Ok R -> R = PAff x y o.
Proof. unfold new_point. destruct (contains_point c x y); [intros H; injection H as <-; reflexivity|discriminate]. Qed.
Lemma double_ord P R : p_double c P = Ok R -> ord_ok R.
Proof.
  destruct P as [|x y o]; cbn [p_double]; [intros H; injection H as <-; exact I|]. cbn zeta. intros H. apply bind_ok in H. destruct H as (i & _ & H).
  apply new_ord in H. subst. exact I.
Qed.
Lemma add_ord P Q R : ord_ok P -> ord_ok Q -> p_add c P Q = Ok R -> ord_ok R.
Proof.
  intros A B. destruct P as [|x y o], Q as [|x' y' o']; cbn [p_add]; try (intros H; injection H as <-; assumption). cbn zeta. destruct (x =? x').
  - destruct (_ =? 0); [intros H; injection H as <-; exact I|apply double_ord].
  - intros H. apply bind_ok in H. destruct H as (i & _ & H). apply new_ord in H. subst. exact I.
Qed.
Lemma loop_ord P Q e : ord_ok P -> ord_ok Q -> forall j T R, ord_ok T -> mul_loop c P Q e j T = Ok R -> ord_ok R.
Proof.
  intros A B. induction j as [|j IH]; intros T R OT H; cbn [mul_loop] in H; [injection H as <-; exact OT|]. cbn zeta in H.
  apply bind_ok in H. destruct H as (D & HD & H). apply double_ord in HD. apply bind_ok in H. destruct H as (D1 & H1 & H). apply bind_ok in H. destruct H as (D2 & H2 & H).
  assert (O1 : ord_ok D1) by (destruct (_ && _) in H1; [apply (add_ord D P); assumption|injection H1 as <-; exact HD]).
  assert (O2 : ord_ok D2) by (destruct (_ && _) in H2; [apply (add_ord D1 Q); assumption|injection H2 as <-; exact O1]).
  eapply IH; [exact O2|exact H].
Qed.
Lemma mul_ord P e R : ord_ok P -> p_mul c P e = Ok R -> ord_ok R.
Proof.
  intros A. unfold p_mul. cbn zeta. destruct (_ =? 0); [intros H; injection H as <-; exact I|]. destruct P as [|x y o]; [intros H; injection H as <-; exact I|].
  destruct (negb _); [discriminate|]. intros H. apply bind_ok in H. destruct H as (Q & HQ & H). apply new_ord in HQ. subst Q.
  refine (loop_ord (PAff x y o) (PAff x (- y) o) _ _ _ _ _ _ _ H); exact A.
Qed.
Lemma exp_ord P e : ord_ok P -> 0 <= e < n -> exponent P e = e.
Proof.
  destruct P as [|x y [o|]]; cbn; try reflexivity. intros -> E. pose proof n_gt1. destruct (Z.eqb_spec n 0); [lia|]. apply Z.mod_small, E.
Qed.

(** a signature equation holds for any exponent [d] with [r d = s t - val] *)
Lemma verify_eq val r s t d w : (s * w) mod n = 1 -> (r * d) mod n = (s * t - val) mod n ->
  ((val * w) mod n + (r * w) mod n * d) mod n = t mod n.
Proof.
  intros W D. pose proof n_gt1. assert (M1 : 1 = 1 mod n) by (symmetry; apply Z.mod_1_l; lia). rewrite M1 in W. apply mod_eq in W, D.
  destruct W as (a & W), D as (b & D). rewrite <- Zplus_mod_idemp_r, Zmult_mod_idemp_l, <- Zplus_mod. apply mod_eq.
  exists (t * a + w * b). replace (r * w * d) with (w * (r * d)) by ring. rewrite D. replace (val * w + w * (s * t - val + b * n)) with ((s * w) * t + w * b * n) by ring. rewrite W. ring.
Qed.

Lemma recover_one_ok val r s inv_r y t : 1 <= r < n -> 1 <= s < n -> (r * inv_r) mod n = 1 -> 0 < inv_r < n ->
  valid c (PAff r y None) -> 0 <= y < p -> emb c (PAff r y None) = zG t ->
  ((s * t - val) mod n <> 0 -> exists qx qy, recover_one c G val r s inv_r y = Ok (Some (qx, qy)) /\ reduced c (PAff qx qy None) /\ valid c (PAff qx qy None) /\
     emb c (PAff qx qy None) = zG (inv_r * (s * t - val))) /\
  ((s * t - val) mod n = 0 -> recover_one c G val r s inv_r y = Err E_TypeError).
Proof.
  intros R S IR IB VR YB ER. pose proof n_gt1 as N1.
  assert (T0 : t mod n <> 0) by (intros K; apply zG_inf in K; rewrite K in ER; discriminate).
  unfold recover_one. cbn [point_order]. cbn zeta. rewrite (new_point_ok c r y (Some n)) by (exact (valid_on c _ VR)). cbn [bind].
  assert (X1 : exponent (PAff r y (Some n)) s = s) by (apply exp_small; lia).
  destruct (mul_reduced (PAff r y (Some n)) t s) as (A & EA & VA & RA & CA); [exact VR|split; [exact (proj1 VR)|exact YB]|exact ER|exact T0|rewrite X1; lia|].
  rewrite EA. cbn [bind]. rewrite X1 in CA.
  destruct (mul_G ((- val) mod n)) as (B & EB & VB & CB). pose proof (mul_G_reduced _ _ N3 RG EB) as RB. rewrite EB. cbn [bind].
  destruct (p_add_ok c PR OD A B VA VB) as (T & ET & VT & CT & _). rewrite ET. cbn [bind]. pose proof (add_reduced_xy A B T VA VB RA RB ET) as RT.
  rewrite CA, CB, zG_add in CT.
  assert (CT' : emb c T = zG (s * t - val)).
  { rewrite CT. apply zG_mod. rewrite Zplus_mod_idemp_r. reflexivity. }
  assert (OT : ord_ok T).
  { apply (add_ord A B T); [exact (mul_ord (PAff r y (Some n)) s A eq_refl EA)|exact (mul_ord G _ B eq_refl EB)|exact ET]. }
  clear CT ET EA EB CA CB VA VB RA RB A B. split.
  - intros NZ. destruct (mul_reduced T (s * t - val) inv_r VT RT CT' NZ) as (Q & EQ & VQ & RQ & CQ); [rewrite (exp_ord T inv_r OT); lia|].
    rewrite (exp_ord T inv_r OT) in CQ by lia. rewrite EQ. cbn [bind]. destruct Q as [|qx qy qo].
    { exfalso. symmetry in CQ. apply zG_inf in CQ. apply Z.mod_divide in CQ; [|lia]. apply prime_mult in CQ; [|exact PN].
      destruct CQ as [K|K]; [apply Z.divide_pos_le in K; lia|apply NZ, Z.mod_divide; [lia|exact K]]. }
    exists qx, qy. split; [|split; [exact RQ|split; [exact VQ|exact CQ]]].
    destruct (verify_cases qx qy val r s R S VQ) as (w & PT & W & VP & EP & ->).
    change (emb c (PAff qx qy None)) with (emb c (PAff qx qy qo)) in EP. rewrite CQ, zG_mul, zG_add in EP by (apply mod_n).
    rewrite (zG_mod _ t) in EP.
    + rewrite <- ER in EP. destruct PT as [|px py po]; [discriminate|]. destruct VP as (PB & _). rewrite (emb_x _ _ _ _ _ _ PB (proj1 VR) EP).
      rewrite Z.mod_small by lia. rewrite Z.eqb_refl. reflexivity.
    + apply (verify_eq val r s t _ w W). replace (r * (inv_r * (s * t - val))) with (r * inv_r * (s * t - val)) by ring.
      rewrite <- Zmult_mod_idemp_l, IR, Z.mul_1_l. reflexivity.
  - intros Z0. rewrite (proj2 (zG_inf _) Z0) in CT'. apply emb_inf in CT'. subst T.
    assert (MI : p_mul c PInf inv_r = Ok PInf) by (unfold p_mul; cbn zeta; destruct (inv_r =? 0); reflexivity). rewrite MI. cbn [bind].
    destruct (Z.ltb_spec r 1); [lia|]. destruct (Z.gtb_spec r (n - 1)); [lia|]. destruct (Z.ltb_spec s 1); [lia|]. destruct (Z.gtb_spec s (n - 1)); [lia|]. reflexivity.
Qed.

Lemma other_root s k val w : (s * k - val) mod n = w mod n -> ((s * - k - val) mod n = 0 <-> (2 * val + w) mod n = 0).
Proof.
  intros SK. pose proof n_gt1 as N1. apply mod_eq in SK. destruct SK as (t & SK). assert (SK' : s * - k - val = - (2 * val + w) + (- t) * n) by lia. rewrite SK', Z_mod_plus_full.
  split; intros H; apply Z.mod_divide in H; try lia; apply Z.mod_divide; try lia; [apply Z.divide_opp_r; exact H|apply Z.divide_opp_r; exact H].
Qed.
Lemma zG_neg k : gneg (zG k) = zG (- k).
Proof.
  pose proof (gcancel PR ca cb OD (NSF c NS) (zG k) (zG (- k)) (zG_on k) (zG_on (- k))) as E. rewrite zG_add in E.
  replace (k + - k) with 0 in E by lia. rewrite zG_0, gadd_inf_r in E. exact E.
Qed.
Lemma recover_sound val r s l x y : recover c G val (r, s) = Ok l -> In (x, y) l -> ecdsa_verify c G (x, y) val (r, s) = Ok true.
Proof.
  assert (ONE : forall inv_r y0 q, recover_one c G val r s inv_r y0 = Ok (Some q) -> ecdsa_verify c G q val (r, s) = Ok true).
  { intros inv_r y0 q H. unfold recover_one in H. cbn zeta in H. do 5 (apply bind_ok in H; destruct H as (? & _ & H)).
    destruct x4 as [|qx qy qo]; [destruct (_ || _); discriminate|]. apply bind_ok in H. destruct H as (b & HB & H). destruct b; [|discriminate]. injection H as <-. exact HB. }
  unfold recover. cbn zeta. intros H. apply bind_ok in H. destruct H as (i & _ & H). apply bind_ok in H. destruct H as (beta & _ & H).
  apply bind_ok in H. destruct H as (o1 & H1 & H). apply bind_ok in H. destruct H as (o2 & H2 & H). injection H as <-. intros I. apply in_app_or in I.
  destruct I as [I|I]; [destruct o1 as [q|]|destruct o2 as [q|]]; try contradiction; destruct I as [->|[]]; eapply ONE; eassumption.
Qed.
Lemma recover_sign secret val k r s x y : ecdsa_sign_k c G secret val k = Ok (r, s) -> r < n ->
  public_pair_for_secret c G secret = Ok (Some (x, y)) ->
  ((2 * val + secret * r) mod n <> 0 -> exists l, recover c G val (r, s) = Ok l /\ In (x, y) l) /\
  ((2 * val + secret * r) mod n = 0 -> recover c G val (r, s) = Err E_TypeError).
Proof.
  intros E RN PP. pose proof n_gt1 as N1. pose proof (sign_k_unit _ _ _ _ _ E) as KU. unfold ecdsa_sign_k in E. cbn [point_order] in E. cbn zeta in E.
  destruct (mul_G k) as (P1 & A & VP & C). rewrite A in E. cbn [bind] in E. destruct P1 as [|rx ry ro]; [cbn [point_x] in E; destruct (inverse_mod k n); discriminate|]. cbn [point_x] in E.
  destruct (Z.eqb_spec rx 0) as [|RX]; [discriminate|]. destruct (inverse_mod k n) as [ki|] eqn:EK; [|discriminate]. cbn [bind] in E.
  assert (GK : Z.gcd k n = 1).
  { destruct (inverse_mod_spec k n N1) as (_ & I). destruct (Z.eq_dec (Z.gcd k n) 1); [assumption|]. rewrite I in EK by assumption. discriminate. }
  destruct (inverse_mod_spec k n N1) as (I & _). destruct (I GK) as (ki' & EK' & _ & KI). rewrite EK in EK'. injection EK' as <-. clear I.
  destruct (_ =? 0) eqn:S0 in E; [discriminate|]. apply Z.eqb_neq in S0. injection E as -> ES.
  pose proof (Z.mod_pos_bound (ki * (val + (secret * r) mod n)) n ltac:(lia)) as SB. rewrite ES in SB, S0.
  (* s k = val + secret r *)
  assert (SK : (s * k - val) mod n = (secret * r) mod n).
  { assert (M1 : 1 = 1 mod n) by (symmetry; apply Z.mod_1_l; lia). rewrite M1 in KI. apply mod_eq in KI. destruct KI as (t1 & KI).
    assert (S' : s mod n = (ki * (val + secret * r)) mod n).
    { rewrite <- ES. rewrite Zmod_mod. rewrite <- Zmult_mod_idemp_r, Zplus_mod_idemp_r, Zmult_mod_idemp_r. reflexivity. }
    apply mod_eq in S'. destruct S' as (t3 & S'). apply mod_eq. exists (t1 * (val + secret * r) + t3 * k). rewrite S'.
    replace ((ki * (val + secret * r) + t3 * n) * k - val) with (k * ki * (val + secret * r) + t3 * k * n - val) by ring. rewrite KI. ring. }
  unfold public_pair_for_secret in PP. destruct (mul_G secret) as (Q & AQ & VQ & CQ). pose proof (mul_G_reduced _ _ N3 RG AQ) as RQ. rewrite AQ in PP. cbn [bind] in PP.
  destruct Q as [|x' y' qo]; [discriminate|]. injection PP as -> ->.
  unfold recover. cbn [point_order]. cbn zeta. destruct VP as (XB & ON).
  destruct (inverse_mod_spec r n N1) as (I & _). destruct (I (gcd_n r ltac:(lia))) as (ir & EI & IB & IR). clear I. rewrite EI. cbn [bind].
  assert (AL : (powmod r 3 p + c_a c * r + c_b c) mod p = (r * r * r + c_a c * r + c_b c) mod p).
  { pose proof (p_gt1 PR). rewrite powmod_eq by lia. rewrite <- Z.add_assoc, Zplus_mod_idemp_l. f_equal. ring. }
  rewrite AL. set (al := r * r * r + c_a c * r + c_b c) in *.
  destruct (sqrt_complete p (al mod p) PR OD) as (beta & EB & BB & BI & BS). rewrite Zmod_mod in BI, BS. rewrite EB. cbn [bind].
  assert (B0 : beta <> 0). { apply BI. split; [apply (N2 r)|]. exists ry. rewrite Zmod_mod. exact ON. }
  specialize (BS B0).
  assert (V1 : valid c (PAff r beta None)) by (split; [exact XB|exact BS]).
  assert (V2 : valid c (PAff r (p - beta) None)).
  { split; [exact XB|]. fold al. rewrite <- BS. replace ((p - beta) * (p - beta)) with (beta * beta + (p - 2 * beta) * p) by ring. apply Z_mod_plus_full. }
  assert (NB : emb c (PAff r (p - beta) None) = gneg (emb c (PAff r beta None))).
  { cbn [emb gneg]. f_equal. rewrite <- of_opp. apply of_eq. replace (p - beta) with (- beta + 1 * p) by ring. apply Z_mod_plus_full. }
  assert (K1 : (s * k - val) mod n <> 0).
  { rewrite SK. intros K. apply Z.mod_divide in K; [|lia]. apply prime_mult in K; [|exact PN]. destruct K as [K|K].
    - apply Z.mod_divide in K; [|lia]. apply zG_inf in K. rewrite K in CQ. discriminate.
    - apply Z.divide_pos_le in K; lia. }
  assert (K2 : (s * (- k) - val) mod n = 0 <-> (2 * val + secret * r) mod n = 0).
  { exact (other_root s k val (secret * r) SK). }
  assert (GOOD : forall qx qy, reduced c (PAff qx qy None) -> emb c (PAff qx qy None) = zG (ir * (s * k - val)) -> (qx, qy) = (x, y)).
  { intros qx qy RD EM. rewrite (zG_mod _ secret) in EM.
    - rewrite <- CQ in EM. pose proof (xy_emb c (PAff qx qy None) (PAff x y qo) RD RQ EM) as H. cbn in H. congruence.
    - rewrite <- Zmult_mod_idemp_r, SK, Zmult_mod_idemp_r. replace (ir * (secret * r)) with (r * ir * secret) by ring. rewrite <- Zmult_mod_idemp_l, IR, Z.mul_1_l. reflexivity. }
  assert (SGN : emb c (PAff r beta None) = zG k \/ emb c (PAff r beta None) = zG (- k)).
  { rewrite <- zG_neg, <- C. cbn [emb gneg]. destruct (fp_eq_dec p (fadd (of p beta) (of p ry)) (of p 0)) as [E0|E0].
    - right. f_equal. rewrite <- of_opp. rewrite <- of_add in E0. apply of_eq in E0. apply of_eq. rewrite Zmod_0_l in E0. apply Z.mod_divide in E0; [|pose proof (p_gt1 PR); lia].
      destruct E0 as (q & E0). replace beta with (- ry + q * p) by (clear -E0; lia). apply Z_mod_plus_full.
    - left. f_equal. apply (on_same_x PR ca cb (of p r)); [exact (valid_on c _ V1)|exact (valid_on c (PAff r ry ro) (conj XB ON))|exact E0]. }
  assert (RB : 1 <= r < n) by (clear -RX XB RN; lia). assert (SB' : 1 <= s < n) by (clear -S0 SB; lia). assert (PB : 0 <= p - beta < p) by (clear -B0 BB; lia).
  destruct SGN as [SG|SG].
  - destruct (recover_one_ok val r s ir beta k RB SB' IR IB V1 BB SG) as (O1 & _). destruct (O1 K1) as (qx & qy & E1 & R1 & _ & C1). rewrite E1. cbn [bind].
    rewrite SG, zG_neg in NB. destruct (recover_one_ok val r s ir (p - beta) (- k) RB SB' IR IB V2 PB NB) as (O2 & O3). split; intros H.
    + destruct O2 as (qx2 & qy2 & E2 & _); [intros K; apply H, K2, K|]. rewrite E2. cbn [bind]. eexists. split; [reflexivity|]. left. apply GOOD; assumption.
    + rewrite O3 by (apply K2, H). reflexivity.
  - assert (NB2 : emb c (PAff r (p - beta) None) = zG k) by (rewrite NB, SG, zG_neg, Z.opp_involutive; reflexivity).
    destruct (recover_one_ok val r s ir beta (- k) RB SB' IR IB V1 BB SG) as (O2 & O3).
    destruct (recover_one_ok val r s ir (p - beta) k RB SB' IR IB V2 PB NB2) as (O1 & _). split; intros H.
    + destruct O2 as (qx2 & qy2 & E2 & _); [intros K; apply H, K2, K|]. rewrite E2. cbn [bind]. destruct (O1 K1) as (qx & qy & E1 & R1 & _ & C1). rewrite E1. cbn [bind].
      eexists. split; [reflexivity|]. right. left. apply GOOD; assumption.
    + rewrite O3 by (apply K2, H). reflexivity.
Qed.
(** an [r] that is no abscissa *)
Lemma recover_off_curve val r s : Z.gcd r n = 1 -> ~ is_square p (r * r * r + c_a c * r + c_b c) -> recover c G val (r, s) = Err E_NoSuchPoint.
Proof.
  intros GR NSQ. pose proof n_gt1 as N1. unfold recover. cbn [point_order]. cbn zeta.
  destruct (inverse_mod_spec r n N1) as (I & _). destruct (I GR) as (ir & EI & _). clear I. rewrite EI. cbn [bind].
  assert (AL : (powmod r 3 p + c_a c * r + c_b c) mod p = (r * r * r + c_a c * r + c_b c) mod p).
  { pose proof (p_gt1 PR). rewrite powmod_eq by lia. rewrite <- Z.add_assoc, Zplus_mod_idemp_l. f_equal. ring. }
  rewrite AL. destruct (sqrt_complete p ((r * r * r + c_a c * r + c_b c) mod p) PR OD) as (beta & EB & _ & _ & _). rewrite EB. cbn [bind].
  unfold recover_one. cbn [point_order]. cbn zeta. rewrite new_point_spec by exact PR.
  destruct (Z.eqb_spec ((beta * beta) mod p) ((r * r * r + c_a c * r + c_b c) mod p)) as [K|K]; [exfalso; apply NSQ; exists beta; exact K|reflexivity].
Qed.
End DSA.
