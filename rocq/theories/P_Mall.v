(** Changes of a signature that [verify] does not see, and signatures that reveal the key. *)
From Coq Require Import ZArith Znumtheory Lia Bool List.
From Verif Require Import Base M_Hash M_Codec S_Codec M_Keys M_EC S_EC P_Codec P_Field P_NumTheory P_Group P_EC P_ECProps P_SecpPrime P_ECDSA P_DSA P_RFC6979.
Import ListNotations.
Open Scope Z_scope.

Section W.
Context (c : curve) (gx gy n : Z) (D : dsa_group c gx gy n).
Notation G := (PAff gx gy (Some n)).
Notation p := (c_p c).
Notation ca := (of p (c_a c)).
Notation cb := (of p (c_b c)).
Let PR : prime p := proj1 D.
Let OD : p <> 2 := proj1 (proj2 D).
Let N2 : no_two_torsion c := proj1 (proj2 (proj2 D)).
Let PN : prime n := proj1 (proj2 (proj2 (proj2 D))).
Let N3 : 2 < n := proj1 (proj2 (proj2 (proj2 (proj2 D)))).
Notation V := (dg_valid c gx gy n D).
Notation ORD := (dg_order c gx gy n D).
Notation zG := (zG c gx gy n).

Lemma modn_iff a b : a mod n = b mod n <-> exists t, a = b + t * n.
Proof.
  clear -N3. split.
  - intros E. exists (a / n - b / n). pose proof (Z.div_mod a n ltac:(lia)). pose proof (Z.div_mod b n ltac:(lia)). lia.
  - intros (t & ->). apply Z_mod_plus_full.
Qed.
Lemma one_mod : 1 mod n = 1.
Proof. clear -N3. apply Z.mod_1_l. lia. Qed.

(** ** what [verify] computes under the public key of a secret *)
Lemma verify_key secret x y val r s : public_pair_for_secret c G secret = Ok (Some (x, y)) -> 1 <= r < n -> 1 <= s < n ->
  exists w PT, (s * w) mod n = 1 /\ valid c PT /\ emb c PT = zG (w * (val + r * secret)) /\
    ecdsa_verify c G (x, y) val (r, s) = match PT with PInf => Err E_TypeError | PAff x' _ _ => Ok (x' mod n =? r) end.
Proof.
  intros E R S. pose proof (n_gt1 n PN) as N1. unfold public_pair_for_secret in E. destruct (mul_G c PR OD N2 gx gy n PN V secret) as (Q & AQ & VQ & CQ). rewrite AQ in E. cbn [bind] in E.
  destruct Q as [|x' y' o]; [discriminate|]. injection E as -> ->.
  destruct (verify_cases c PR OD N2 gx gy n PN V x y val r s R S VQ) as (w & PT & W & VT & ET & EV). exists w, PT. split; [exact W|]. split; [exact VT|]. split; [|exact EV].
  change (emb c (PAff x y None)) with (emb c (PAff x y o)) in ET. rewrite CQ in ET.
  rewrite (zG_mul c PR OD N2 gx gy n PN V ORD) in ET by (apply Z.mod_pos_bound; lia). rewrite (zG_add c PR OD N2 gx gy n PN V ORD) in ET. rewrite ET.
  apply zG_mod. rewrite <- Zplus_mod_idemp_r, Zmult_mod_idemp_l, <- Zplus_mod. f_equal. ring.
Qed.
Lemma emb_opp_x P Q : valid c P -> valid c Q -> gadd ca (emb c P) (emb c Q) = GInf ->
  match P with PInf => Q = PInf | PAff x _ _ => exists y o, Q = PAff x y o end.
Proof.
  intros VP VQ S0. destruct P as [|x1 y1 o1], Q as [|x2 y2 o2]; cbn [emb gadd] in S0; try discriminate; [reflexivity|].
  exists y2, o2. destruct VP as (B1 & _), VQ as (B2 & _).
  destruct (fp_eq_dec p (of p x1) (of p x2)) as [E|_].
  - apply of_eq in E. rewrite !Z.mod_small in E by lia. subst. reflexivity.
  - unfold third in S0. discriminate.
Qed.

Lemma zG_neg k : zG (- k) = gneg (zG k).
Proof.
  assert (A : zG (- k) = gadd ca (gneg (zG k)) (gadd ca (zG k) (zG (- k)))).
  { symmetry. apply (gcancel PR ca cb OD (NSF c (no_two_nonsing c N2))); apply (zG_on c PR OD gx gy n V). }
  rewrite (zG_add c PR OD N2 gx gy n PN V ORD) in A. replace (k + - k) with 0 in A by lia. rewrite zG_0 in A. rewrite A. apply (gadd_inf_r ca).
Qed.
(** *** the other half of the signature *)
Lemma verify_other_s secret x y val r s : public_pair_for_secret c G secret = Ok (Some (x, y)) ->
  ecdsa_verify c G (x, y) val (r, n - s) = ecdsa_verify c G (x, y) val (r, s).
Proof.
  intros E. assert (C0 : (1 <= r < n /\ 1 <= s < n) \/ ~ (1 <= r < n /\ 1 <= s < n)) by (clear; lia).
  destruct C0 as [(R & S)|NR].
  2: { rewrite !(verify_range c gx gy n) by (clear -NR; lia). reflexivity. }
  destruct (verify_key secret x y val r s E R S) as (w & P & W & VP & EP & ->).
  destruct (verify_key secret x y val r (n - s) E R ltac:(clear -S; lia)) as (w' & Q & W' & VQ & EQ & ->).
  assert (H : match P with PInf => Q = PInf | PAff x _ _ => exists y o, Q = PAff x y o end).
  { apply emb_opp_x; [exact VP|exact VQ|]. rewrite EP, EQ, (zG_add c PR OD N2 gx gy n PN V ORD). apply (zG_inf c PR OD N2 gx gy n PN V ORD).
    assert (WW : (- w') mod n = w mod n).
    { apply (inv_unique n PN s); [|exact W]. rewrite <- W'. apply modn_iff. exists (- w'). ring. }
    apply modn_iff in WW. destruct WW as (t & WW). assert (w' = - w - t * n) as -> by (clear -WW; lia).
    replace (w * (val + r * secret) + (- w - t * n) * (val + r * secret)) with ((- t * (val + r * secret)) * n) by ring. apply Z_mod_mult. }
  destruct P as [|px py po]; [rewrite H; reflexivity|]. destruct H as (qy & qo & ->). reflexivity.
Qed.
(** *** and there is no third one (unless two abscissas agree modulo the order) *)
Lemma verify_only_two secret x y val r s s' : public_pair_for_secret c G secret = Ok (Some (x, y)) -> p <= r + n ->
  ecdsa_verify c G (x, y) val (r, s) = Ok true -> ecdsa_verify c G (x, y) val (r, s') = Ok true -> s' = s \/ s' = n - s.
Proof.
  intros E RN T T'. pose proof (n_gt1 n PN) as N1.
  assert (H : (1 <= r < n /\ 1 <= s < n) /\ 1 <= s' < n).
  { assert (H1 : (1 <= r < n /\ 1 <= s < n) \/ ~ (1 <= r < n /\ 1 <= s < n)) by (clear; lia).
    assert (H2 : (1 <= r < n /\ 1 <= s' < n) \/ ~ (1 <= r < n /\ 1 <= s' < n)) by (clear; lia).
    destruct H1 as [H1|H1]; [|rewrite (verify_range c gx gy n) in T by exact H1; discriminate].
    destruct H2 as [H2|H2]; [|rewrite (verify_range c gx gy n) in T' by exact H2; discriminate]. split; [exact H1|exact (proj2 H2)]. }
  destruct H as ((R & S) & S').
  destruct (verify_key secret x y val r s E R S) as (w & P & W & VP & EP & EV). rewrite EV in T. clear EV.
  destruct (verify_key secret x y val r s' E R S') as (w' & Q & W' & VQ & EQ & EV). rewrite EV in T'. clear EV.
  destruct P as [|px py po]; [discriminate|]. destruct Q as [|qx qy qo]; [discriminate|].
  assert (TX : px mod n = r) by (apply Z.eqb_eq; injection T; auto). assert (TX' : qx mod n = r) by (apply Z.eqb_eq; injection T'; auto). clear T T'.
  assert (XX : px = r /\ qx = r).
  { destruct VP as (B1 & _), VQ as (B2 & _). clear -TX TX' B1 B2 RN R N1.
    assert (K : forall z, 0 <= z < p -> z mod n = r -> z = r).
    { intros z Z0 ZR. pose proof (Z.div_mod z n ltac:(lia)) as DM. rewrite ZR in DM. assert (0 <= z / n) by (apply Z.div_pos; lia). set (q := z / n) in *. clearbody q. clear ZR TX TX'.
      assert (QN : n * q < n * 1) by lia. apply Z.mul_lt_mono_pos_l in QN; [|lia]. assert (q = 0) by lia. subst q. lia. }
    split; apply K; assumption. }
  destruct XX as (-> & ->). set (v := val + r * secret) in *.
  assert (V0 : v mod n <> 0).
  { intros Z0. assert (ZI : zG (w * v) = GInf) by (apply (zG_inf c PR OD N2 gx gy n PN V ORD); rewrite <- Zmult_mod_idemp_r, Z0, Z.mul_0_r; apply Zmod_0_l).
    rewrite ZI in EP. discriminate. }
  assert (PM : emb c (PAff r qy qo) = emb c (PAff r py po) \/ emb c (PAff r qy qo) = gneg (emb c (PAff r py po))).
  { pose proof (valid_on c _ VP) as OP. pose proof (valid_on c _ VQ) as OQ. cbn [emb gneg] in *.
    destruct (fp_eq_dec p (fadd (of p qy) (of p py)) (of p 0)) as [Z0|NZ].
    - right. f_equal. rewrite <- of_opp. rewrite <- of_add in Z0. apply of_eq in Z0. rewrite Zmod_0_l in Z0. apply of_eq.
      pose proof (p_gt1 PR) as P1. apply Z.mod_divide in Z0; [|clear -P1; lia]. destruct Z0 as (q & Z0). assert (qy = - py + q * p) as -> by (clear -Z0; lia). apply Z_mod_plus_full.
    - left. f_equal. exact (on_same_x PR ca cb _ _ _ OQ OP NZ). }
  assert (CN : forall u u', (u * v) mod n = (u' * v) mod n -> u mod n = u' mod n).
  { intros u u' UV. assert (DV : (n | (u - u') * v)) by (apply Z.mod_divide; [clear -N1; lia|]; rewrite Z.mul_sub_distr_r, Zminus_mod, UV, Z.sub_diag; reflexivity).
    apply prime_mult in DV; [|exact PN]. destruct DV as [DV|DV]; [|apply Zdivide_mod in DV; contradiction].
    destruct DV as (q & DV). apply modn_iff. exists q. clear -DV. lia. }
  clearbody v. rewrite <- one_mod in W, W'. apply modn_iff in W, W'. destruct W as (t & W), W' as (t' & W').
  assert (FIN : forall e, w' mod n = (e * w) mod n -> e * e = 1 -> s' mod n = (e * s) mod n).
  { intros e EW EE. apply modn_iff in EW. destruct EW as (u & EW). rewrite EW in W'. apply modn_iff.
    (* s' (e w + u n) = 1 + t' n; multiply by e s *)
    exists (e * s * t' - e * s * s' * u - s' * t).
    assert (A : e * s * (s' * (e * w + u * n)) = e * s * (1 + t' * n)) by (rewrite W'; reflexivity).
    replace (e * s * (s' * (e * w + u * n))) with (e * e * s' * (s * w) + e * s * s' * u * n) in A by ring. rewrite EE, W in A. clear -A. lia. }
  destruct PM as [PM|PM]; rewrite EP, EQ in PM.
  - left. apply (zG_inj c PR OD N2 gx gy n PN V ORD) in PM. apply CN in PM. assert (K : s' mod n = (1 * s) mod n) by (apply FIN; [rewrite Z.mul_1_l; exact PM|reflexivity]).
    rewrite Z.mul_1_l, !Z.mod_small in K by (clear -S S'; lia). exact K.
  - right. rewrite <- zG_neg in PM. apply (zG_inj c PR OD N2 gx gy n PN V ORD) in PM. replace (- (w * v)) with (- w * v) in PM by ring. apply CN in PM.
    assert (K : s' mod n = (-1 * s) mod n) by (apply FIN; [rewrite PM; f_equal; ring|reflexivity]).
    replace (-1 * s) with (n - s + -1 * n) in K by ring. rewrite Z_mod_plus_full, !Z.mod_small in K by (clear -S S'; lia). exact K.
Qed.
(** *** only the value modulo the order counts *)
Lemma verify_mod pair val r s : ecdsa_verify c G pair val (r, s) = ecdsa_verify c G pair (val mod n) (r, s).
Proof.
  unfold ecdsa_verify. cbn [point_order]. cbn zeta. destruct (_ || _); [reflexivity|]. destruct (_ || _); [reflexivity|].
  destruct (inverse_mod s n); [|reflexivity]. cbn [bind]. rewrite Zmult_mod_idemp_l. reflexivity.
Qed.
(** *** the opposite key *)
Lemma gmul_neg k P : gon ca cb P -> gmul c k (gneg P) = gneg (gmul c k P).
Proof.
  intros A. induction k as [|k IH]; [reflexivity|]. cbn [gmul]. rewrite IH. symmetry. apply (gneg_add PR ca cb OD); [apply (gmul_on c PR OD), A|exact A].
Qed.
Lemma verify_other_key x y val r s : on_curve p (c_a c) (c_b c) (EA x y) ->
  ecdsa_verify c G (x, p - y) (- val) (r, s) = ecdsa_verify c G (x, y) val (r, s).
Proof.
  intros (XB & YB & ON). assert (VQ : valid c (PAff x y None)) by (split; assumption).
  assert (VQ' : valid c (PAff x (p - y) None)).
  { split; [exact XB|]. rewrite <- ON. replace ((p - y) * (p - y)) with (y * y + (p - 2 * y) * p) by ring. apply Z_mod_plus_full. }
  assert (EN : emb c (PAff x (p - y) None) = gneg (emb c (PAff x y None))).
  { cbn [emb gneg]. f_equal. rewrite <- of_opp. apply of_eq. replace (p - y) with (- y + 1 * p) by ring. apply Z_mod_plus_full. }
  assert (C0 : (1 <= r < n /\ 1 <= s < n) \/ ~ (1 <= r < n /\ 1 <= s < n)) by (clear; lia).
  destruct C0 as [(R & S)|NR].
  2: { rewrite !(verify_range c gx gy n) by exact NR. reflexivity. }
  destruct (verify_cases c PR OD N2 gx gy n PN V x y val r s R S VQ) as (w & P & W & VP & EP & ->).
  destruct (verify_cases c PR OD N2 gx gy n PN V x (p - y) (- val) r s R S VQ') as (w' & Q & W' & VT & EQ & ->).
  pose proof (inv_unique n PN s w w' W W') as WW. rewrite EN in EQ.
  assert (H : match P with PInf => Q = PInf | PAff x _ _ => exists y o, Q = PAff x y o end).
  { apply emb_opp_x; [exact VP|exact VT|].
    assert (QN : emb c Q = gneg (emb c P)).
    { rewrite EP, EQ. rewrite (gneg_add PR ca cb OD); [|apply (zG_on c PR OD gx gy n V)|apply (gmul_on c PR OD), (valid_on c _ VQ)].
      rewrite gmul_neg by (apply (valid_on c _ VQ)). f_equal.
      - rewrite <- zG_neg. apply zG_mod. rewrite Zmod_mod. apply modn_iff in WW. destruct WW as (t & ->).
        pose proof (Z.div_mod (val * (w' + t * n)) n ltac:(clear -N3; lia)) as DM. set (q := val * (w' + t * n) / n) in *. clearbody q.
        apply modn_iff. exists (val * t - q).
        replace ((val * (w' + t * n)) mod n) with (val * (w' + t * n) - n * q) by (clear -DM; lia). ring.
      - f_equal. f_equal. f_equal. rewrite <- (Zmult_mod_idemp_r w), WW, Zmult_mod_idemp_r. reflexivity. }
    rewrite QN. apply (gadd_neg_r PR ca cb). apply (valid_on c _ VP). }
  destruct P as [|px py po]; [rewrite H; reflexivity|]. destruct H as (qy & qo & ->). reflexivity.
Qed.
(** *** a signature without the secret key, of a value that comes out by itself *)
Lemma forgery x y a b bi A B X Y : on_curve p (c_a c) (c_b c) (EA x y) ->
  multiple p (c_a c) (EA gx gy) (a mod n) A -> multiple p (c_a c) (EA x y) (b mod n) B -> is_sum p (c_a c) A B (EA X Y) ->
  (b * bi) mod n = 1 -> X mod n <> 0 ->
  ecdsa_verify c G (x, y) ((X mod n) * a * bi) (X mod n, ((X mod n) * bi) mod n) = Ok true.
Proof.
  intros ON MA MB SM BI XN. apply (dg_verify_spec c gx gy n D); [exact ON|]. pose proof (n_gt1 n PN) as N1.
  pose proof (Z.mod_pos_bound X n ltac:(clear -N1; lia)) as RB. remember (X mod n) as r eqn:RX.
  assert (RI : exists ri, (r * ri) mod n = 1).
  { destruct (inverse_mod_spec r n N1) as (I & _). destruct (I (gcd_n n PN r ltac:(clear -RB XN; lia))) as (ri & _ & _ & E). exists ri. exact E. }
  destruct RI as (ri & RI). rewrite <- one_mod in BI, RI. apply modn_iff in BI, RI. destruct BI as (t & BI), RI as (u & RI).
  assert (W1 : (r * bi * (b * ri)) mod n = 1).
  { transitivity (1 mod n); [|exact one_mod]. apply modn_iff. exists (t + u + t * u * n). replace (r * bi * (b * ri)) with ((r * ri) * (b * bi)) by ring. rewrite RI, BI. ring. }
  split; [clear -RB XN; lia|]. split.
  { pose proof (Z.mod_pos_bound (r * bi) n ltac:(clear -N1; lia)) as SB. destruct (Z.eq_dec ((r * bi) mod n) 0) as [E|E]; [|clear -E SB; lia].
    exfalso. rewrite <- Zmult_mod_idemp_l, E, Z.mul_0_l, Zmod_0_l in W1. discriminate. }
  exists (b * ri), A, B, X, Y. split; [rewrite Zmult_mod_idemp_l; exact W1|]. split; [|split; [|split; [exact SM|symmetry; exact RX]]].
  - replace ((r * a * bi * (b * ri)) mod n) with (a mod n); [exact MA|]. symmetry. apply modn_iff. exists (a * (t + u + t * u * n)).
    replace (r * a * bi * (b * ri)) with (a * ((r * ri) * (b * bi))) by ring. rewrite RI, BI. ring.
  - replace ((r * (b * ri)) mod n) with (b mod n); [exact MB|]. symmetry. apply modn_iff. exists (b * u).
    replace (r * (b * ri)) with (b * (r * ri)) by ring. rewrite RI. ring.
Qed.

(** *** a known or repeated nonce *)
Lemma sign_k_values secret val k r s : ecdsa_sign_k c G secret val k = Ok (r, s) -> (s * k) mod n = (val + secret * r) mod n.
Proof.
  intros E. unfold ecdsa_sign_k in E. cbn [point_order] in E. cbn zeta in E. destruct (p_mul c G k) as [R|]; [|discriminate]. cbn [bind] in E.
  destruct R as [|x y o]; [first [discriminate|destruct (inverse_mod k n); discriminate]|]. cbn [point_x] in E. destruct (x =? 0); [discriminate|]. pose proof (n_gt1 n PN) as N1.
  destruct (inverse_mod k n) as [ki|] eqn:EK; [|discriminate]. cbn [bind] in E.
  assert (KI : (k * ki) mod n = 1).
  { destruct (inverse_mod_spec k n N1) as (I1 & I2). destruct (Z.eq_dec (Z.gcd k n) 1) as [GK|GK]; [|rewrite I2 in EK by exact GK; discriminate].
    destruct (I1 GK) as (ki' & EK' & _ & KI). rewrite EK in EK'. injection EK' as <-. exact KI. }
  destruct (_ =? 0) in E; [discriminate|]. injection E as -> ES. rewrite <- ES. rewrite Zmult_mod_idemp_l.
  replace (ki * (val + (secret * r) mod n) * k) with (k * ki * (val + (secret * r) mod n)) by ring. rewrite <- Zmult_mod_idemp_l, KI, Z.mul_1_l, Zplus_mod_idemp_r. reflexivity.
Qed.
Lemma known_nonce secret val k r s i : ecdsa_sign_k c G secret val k = Ok (r, s) -> (r * i) mod n = 1 ->
  secret mod n = ((s * k - val) * i) mod n.
Proof.
  intros E I. apply sign_k_values in E. rewrite <- one_mod in I. apply modn_iff in E, I. destruct E as (t & E), I as (u & I).
  apply modn_iff. exists (- secret * u - t * i). rewrite E. replace ((val + secret * r + t * n - val) * i) with (secret * (r * i) + t * n * i) by ring.
  rewrite I. ring.
Qed.
Lemma sign_k_r secret val secret' val' k r s r' s' : ecdsa_sign_k c G secret val k = Ok (r, s) -> ecdsa_sign_k c G secret' val' k = Ok (r', s') -> r = r'.
Proof.
  unfold ecdsa_sign_k. cbn [point_order]. cbn zeta. destruct (p_mul c G k) as [R|]; [|discriminate]. cbn [bind].
  destruct R as [|x y o]; [first [discriminate|destruct (inverse_mod k n); discriminate]|]. cbn [point_x]. destruct (x =? 0); [discriminate|].
  destruct (inverse_mod k n) as [ki|]; [|discriminate]. cbn [bind]. destruct (_ =? 0); [discriminate|]. destruct (_ =? 0); [discriminate|].
  intros E E'. injection E as <- _. injection E' as <- _. reflexivity.
Qed.
Lemma repeated_nonce secret val val' k r s r' s' : ecdsa_sign_k c G secret val k = Ok (r, s) -> ecdsa_sign_k c G secret val' k = Ok (r', s') ->
  r mod n <> 0 -> val mod n <> val' mod n ->
  r' = r /\ (exists i, (r * (s' - s) * i) mod n = 1) /\
  forall i, (r * (s' - s) * i) mod n = 1 -> secret mod n = ((s * val' - s' * val) * i) mod n.
Proof.
  intros E E' R0 VV. pose proof (sign_k_r _ _ _ _ _ _ _ _ _ E E') as <-. split; [reflexivity|].
  assert (KU : k mod n <> 0).
  { intros K. apply (mul_G_inf c PR OD N2 gx gy n PN V ORD) in K. unfold ecdsa_sign_k in E. rewrite K in E. cbn [bind point_x point_order] in E.
    first [discriminate|destruct (inverse_mod k n); discriminate]. }
  apply sign_k_values in E, E'. pose proof (n_gt1 n PN) as N1.
  assert (ED : ((s' - s) * k) mod n = (val' - val) mod n).
  { apply modn_iff in E, E'. destruct E as (t & E), E' as (t' & E'). apply modn_iff. exists (t' - t). replace ((s' - s) * k) with (s' * k - s * k) by ring. rewrite E, E'. ring. }
  assert (SD : (s' - s) mod n <> 0).
  { intros Z0. rewrite <- Zmult_mod_idemp_l, Z0, Z.mul_0_l, Zmod_0_l in ED. apply VV. symmetry. apply modn_iff. exists ((val' - val) / n).
    pose proof (Z.div_mod (val' - val) n ltac:(clear -N1; lia)) as DM. rewrite <- ED in DM. clear -DM. lia. }
  split.
  - assert (PD : ~ (n | r * (s' - s))).
    { intros DV. apply prime_mult in DV; [|exact PN]. destruct DV as [DV|DV]; apply Zdivide_mod in DV; contradiction. }
    destruct (inverse_mod_spec (r * (s' - s)) n N1) as (I & _). destruct I as (i & _ & _ & H); [|exists i; exact H].
    apply Zgcd_1_rel_prime, rel_prime_sym, prime_rel_prime; [exact PN|exact PD].
  - intros i I. rewrite <- one_mod in I. apply modn_iff in E, E', I. destruct E as (t & E), E' as (t' & E'), I as (u & I). apply modn_iff.
    exists (- secret * u + (s * t' - s' * t) * i). 
    assert (H : s * (val' + secret * r + t' * n) = s' * (val + secret * r + t * n)) by (rewrite <- E, <- E'; ring).
    assert (H2 : secret * (r * (s' - s) * i) = (s * val' - s' * val) * i + (s * t' - s' * t) * n * i).
    { assert (H3 : secret * (r * (s' - s)) = (s * val' - s' * val) + (s * t' - s' * t) * n) by (clear -H; lia).
      replace (secret * (r * (s' - s) * i)) with (secret * (r * (s' - s)) * i) by ring. rewrite H3. ring. }
    rewrite I in H2. clear -H2. lia.
Qed.
(** what the deterministic nonce is a function of *)
Lemma nonce_long fuel m secret val val' : 2 ^ 255 <= m < 2 ^ 256 -> m < val -> m < val' -> val mod 2 ^ 256 = val' mod 2 ^ 256 ->
  deterministic_generate_k fuel m secret val = deterministic_generate_k fuel m secret val'.
Proof.
  intros M A B E. unfold deterministic_generate_k. assert (BL : bit_length m = 256).
  { rewrite bit_length_q by lia. unfold S_RFC6979.qlen. rewrite (Z.log2_unique m 255) by lia. reflexivity. }
  rewrite BL. change (8 * 32 - 256 >? 0) with false. cbn iota. rewrite !Z.gtb_ltb.
  destruct (Z.ltb_spec m val); [|lia]. destruct (Z.ltb_spec m val'); [|lia].
  change (Z.to_nat ((256 + 7) / 8)) with 32%nat.
  assert (HB : be_bytes 32 (val - m) = be_bytes 32 (val' - m)); [|rewrite HB; reflexivity].
  apply be_val_inj; [rewrite !be_bytes_length; reflexivity|]. rewrite !be_val_be_bytes. change (256 ^ Z.of_nat 32) with (2 ^ 256).
  rewrite Zminus_mod, E, <- Zminus_mod. reflexivity.
Qed.
Lemma nonce_reduced fuel m secret val : 2 ^ 255 <= m < 2 ^ 256 -> m < val <= 2 * m ->
  deterministic_generate_k fuel m secret val = deterministic_generate_k fuel m secret (val - m).
Proof.
  intros M A. unfold deterministic_generate_k. assert (BL : bit_length m = 256).
  { rewrite bit_length_q by lia. unfold S_RFC6979.qlen. rewrite (Z.log2_unique m 255) by lia. reflexivity. }
  rewrite BL. change (8 * 32 - 256 >? 0) with false. cbn iota. rewrite !Z.gtb_ltb.
  destruct (Z.ltb_spec m val); [|lia]. destruct (Z.ltb_spec m (val - m)); [lia|]. reflexivity.
Qed.
Lemma sign_k_mod secret val val' k : val mod n = val' mod n -> ecdsa_sign_k c G secret val k = ecdsa_sign_k c G secret val' k.
Proof.
  intros E. unfold ecdsa_sign_k. cbn [point_order]. cbn zeta. destruct (p_mul c G k) as [R|]; [|reflexivity]. cbn [bind].
  destruct (point_x R) as [r|]; [|reflexivity]. destruct (r =? 0); [reflexivity|]. destruct (inverse_mod k n) as [ki|]; [|reflexivity]. cbn [bind].
  assert (H : (ki * (val + (secret * r) mod n)) mod n = (ki * (val' + (secret * r) mod n)) mod n); [|rewrite H; reflexivity].
  rewrite <- (Zmult_mod_idemp_r (val + _)), <- (Zmult_mod_idemp_r (val' + _)), <- (Zplus_mod_idemp_l val), <- (Zplus_mod_idemp_l val'), E. reflexivity.
Qed.
Lemma sign_reduced fuel secret val : 2 ^ 255 <= n < 2 ^ 256 -> n < val <= 2 * n ->
  ecdsa_sign fuel c G secret val = ecdsa_sign fuel c G secret (val - n).
Proof.
  intros M A. unfold ecdsa_sign. cbn [point_order]. rewrite (nonce_reduced fuel n secret val M A). destruct (deterministic_generate_k _ _ _ _); [|reflexivity].
  apply sign_k_mod, modn_iff. exists 1. ring.
Qed.
Lemma sign_long_leaks fuel fuel' secret val val' r s r' s' : 2 ^ 255 <= n < 2 ^ 256 -> n < val -> n < val' ->
  val mod 2 ^ 256 = val' mod 2 ^ 256 -> val mod n <> val' mod n ->
  ecdsa_sign fuel c G secret val = Ok (r, s) -> ecdsa_sign fuel' c G secret val' = Ok (r', s') -> r mod n <> 0 ->
  r' = r /\ (exists i, (r * (s' - s) * i) mod n = 1) /\
  forall i, (r * (s' - s) * i) mod n = 1 -> secret mod n = ((s * val' - s' * val) * i) mod n.
Proof.
  intros M A B E NE S1 S2 R0. destruct (sign_uses_k _ _ _ _ _ _ _ _ S1) as (k & K1 & _ & E1). destruct (sign_uses_k _ _ _ _ _ _ _ _ S2) as (k' & K2 & _ & E2).
  rewrite (nonce_long fuel n secret val val' M A B E) in K1. rewrite <- (nonce_fuel_irrelevant _ _ _ _ _ _ _ K1 K2) in E2.
  exact (repeated_nonce secret val val' k r s r' s' E1 E2 R0 NE).
Qed.
End W.
