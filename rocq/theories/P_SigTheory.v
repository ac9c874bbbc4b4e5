(** The values and keys for which one signature verifies (lemmas). *)
From Coq Require Import ZArith Znumtheory Lia Bool List.
From Verif Require Import Base M_Keys S_Keys M_EC S_EC M_Sign S_Sign P_NumTheory P_PubKey P_EC P_ECDSA P_DSA P_KeyArith P_KeyTheory S_SigTheory.
Import ListNotations.
Open Scope Z_scope.

Lemma mod_q n a b : 0 < n -> (a mod n = b mod n <-> exists q, a = b + q * n).
Proof.
  intros N. split.
  - intros E. exists (a / n - b / n). pose proof (Z.div_mod a n ltac:(lia)). pose proof (Z.div_mod b n ltac:(lia)). nia.
  - intros (q & ->). apply Z_mod_plus_full.
Qed.
Lemma prime_inv n r : prime n -> r mod n <> 0 -> exists i, (r * i) mod n = 1.
Proof.
  intros PN R. pose proof (prime_ge_2 n PN) as N. assert (RP : rel_prime r n).
  { apply rel_prime_sym, prime_rel_prime; [exact PN|]. intros Dv. apply R, Z.mod_divide; [lia|exact Dv]. }
  destruct (rel_prime_bezout r n RP) as [u v E]. exists u. rewrite Z.mul_comm. replace (u * r) with (1 + (- v) * n) by lia. rewrite Z_mod_plus_full. apply Z.mod_1_l. lia.
Qed.
Lemma cancel n r a b : prime n -> r mod n <> 0 -> (r * a) mod n = (r * b) mod n -> a mod n = b mod n.
Proof.
  intros PN R E. destruct (prime_inv n r PN R) as (i & I). pose proof (prime_ge_2 n PN) as N. rewrite <- (Z.mod_1_l n) in I by lia.
  apply mod_q in E; [|lia]. apply mod_q in I; [|lia]. apply mod_q; [lia|]. destruct E as (e & E), I as (j & I).
  exists (e * i - j * a + j * b). assert (X : i * (r * a) = i * (r * b + e * n)) by (rewrite E; reflexivity).
  replace (i * (r * a)) with ((r * i) * a) in X by ring. replace (i * (r * b + e * n)) with ((r * i) * b + i * e * n) in X by ring. rewrite I in X. lia.
Qed.

Section W.
Context (c : curve) (gx gy n : Z) (D : dsa_group c gx gy n).
Notation G := (PAff gx gy (Some n)).
Notation p := (c_p c).
Notation one r := (one_abscissa p (c_a c) (c_b c) n r).
Let PN : prime n := proj1 (proj2 (proj2 (proj2 D))).
Let N3 : 2 < n := proj1 (proj2 (proj2 (proj2 (proj2 D)))).

Lemma one_large r : p <= r + n -> one r.
Proof.
  clear -N3. clearbody N3. intros B.
  assert (A : forall x y, on_curve p (c_a c) (c_b c) (EA x y) -> x mod n = r -> x = r).
  { intros x y ((X0 & X1) & _) E. pose proof (Z.mod_pos_bound x n ltac:(lia)). pose proof (Z.div_mod x n ltac:(lia)) as DM. rewrite E in *.
    assert (x / n < 1) by nia. assert (0 <= x / n) by (apply Z.div_pos; lia). assert (x / n = 0) as Q by lia. rewrite Q in DM. lia. }
  intros x y x' y' O O' E E'. rewrite (A x y O E), (A x' y' O' E'). reflexivity.
Qed.

Lemma pps_mulG k x y : public_pair_for_secret c G k = Ok (Some (x, y)) <-> exists o, p_mul c G k = Ok (PAff x y o).
Proof.
  unfold public_pair_for_secret. destruct (dmul c gx gy n D k) as (R & E & _). rewrite E. cbn [bind]. destruct R as [|x' y' o'].
  - split; [discriminate|intros (o & H); discriminate H].
  - split; [intros H; exists o'; congruence|intros (o & H); congruence].
Qed.
Lemma pps_on k x y : public_pair_for_secret c G k = Ok (Some (x, y)) -> on_curve p (c_a c) (c_b c) (EA x y).
Proof.
  intros PP. destruct (pair_emb c gx gy n D k x y PP) as (VP & _ & RP). split; [exact (proj1 RP)|]. split; [exact (proj2 RP)|exact (proj2 VP)].
Qed.

(** acceptance, by the equation of a nonce with the same abscissa *)
Lemma accept_if d x y k r y' val s : public_pair_for_secret c G d = Ok (Some (x, y)) -> public_pair_for_secret c G k = Ok (Some (r, y')) ->
  0 < k < n -> r mod n <> 0 -> 1 <= s < n ->
  (s * k) mod n = (val + d * r) mod n \/ (s * k) mod n = (- (val + d * r)) mod n -> ecdsa_verify c G (x, y) val (r mod n, s) = Ok true.
Proof.
  intros PP PK K R S E. pose proof (Z.mod_pos_bound r n ltac:(lia)) as RB. apply (signatures_made c gx gy n D x y d val (r mod n) s PP). split; [lia|].
  assert (R0 : r <> 0) by (intros ->; apply R, Zmod_0_l). destruct E as [E|E].
  - exists k, r. split; [exact K|]. split; [|reflexivity]. apply (sign_iff c gx gy n D); [exact K|]. split; [|auto]. apply pps_mulG in PK. destruct PK as (o & PK). eauto.
  - exists (n - k), r. split; [lia|]. split; [|reflexivity]. apply (sign_iff c gx gy n D); [lia|].
    split; [|split; [exact R0|split; [exact S|]]].
    + pose proof (proj2 (pairs_neg c gx gy n D k r y' PK)) as PK'. apply pps_mulG in PK'. destruct PK' as (o & PK'). eauto.
    + apply mod_q in E; [|lia]. apply mod_q; [lia|]. destruct E as (q & E). exists (s - q). lia.
Qed.
Lemma accept_iff d x y k r y' val s : public_pair_for_secret c G d = Ok (Some (x, y)) -> public_pair_for_secret c G k = Ok (Some (r, y')) ->
  0 < k < n -> r mod n <> 0 -> 1 <= s < n -> one (r mod n) ->
  (ecdsa_verify c G (x, y) val (r mod n, s) = Ok true <-> (s * k) mod n = (val + d * r) mod n \/ (s * k) mod n = (- (val + d * r)) mod n).
Proof.
  intros PP PK K R S O. split; [|apply accept_if with (y' := y'); assumption]. intros E.
  apply (signatures_made c gx gy n D x y d val (r mod n) s PP) in E. destruct E as (_ & k' & r' & K' & SG & RR).
  apply (sign_iff c gx gy n D) in SG; [|exact K']. destruct SG as ((y'' & o & EK) & _ & _ & SK).
  assert (PK' : public_pair_for_secret c G k' = Ok (Some (r', y''))) by (apply pps_mulG; eauto).
  assert (r' = r) as -> by exact (O _ _ _ _ (pps_on _ _ _ PK') (pps_on _ _ _ PK) RR eq_refl).
  destruct (pairs_same_x c gx gy n D k k' r y' y'' PK PK') as [X|X]; (apply mod_q in X; [|lia]); (apply mod_q in SK; [|lia]); destruct X as (q & X), SK as (t & SK).
  - left. apply mod_q; [lia|]. exists (t - s * q). rewrite X in SK. lia.
  - right. apply mod_q; [lia|]. exists (s * q - t). rewrite X in SK. lia.
Qed.
(** the nonce of an accepted signature *)
Lemma nonce_of d x y val r s : public_pair_for_secret c G d = Ok (Some (x, y)) -> ecdsa_verify c G (x, y) val (r, s) = Ok true ->
  1 <= r < n /\ 1 <= s < n /\ exists k r' y', 0 < k < n /\ public_pair_for_secret c G k = Ok (Some (r', y')) /\ r' mod n = r /\ (s * k) mod n = (val + d * r') mod n.
Proof.
  intros PP E. apply (signatures_made c gx gy n D x y d val r s PP) in E. destruct E as (R & k & r' & K & SG & RR).
  apply (sign_iff c gx gy n D) in SG; [|exact K]. destruct SG as ((y' & o & EK) & _ & S & SK).
  split; [exact R|]. split; [exact S|]. exists k, r', y'. split; [exact K|]. split; [apply pps_mulG; eauto|]. split; [exact RR|exact SK].
Qed.

(** one key and one signature: two values *)
Lemma two_values d x y val val' r s : public_pair_for_secret c G d = Ok (Some (x, y)) -> one r -> ecdsa_verify c G (x, y) val (r, s) = Ok true ->
  (ecdsa_verify c G (x, y) val' (r, s) = Ok true <-> val' mod n = val mod n \/ val' mod n = (- val - 2 * d * r) mod n).
Proof.
  intros PP O E. destruct (nonce_of d x y val r s PP E) as (R & S & k & r' & y' & K & PK & <- & SK).
  rewrite (accept_iff d x y k r' y' val' s PP PK K ltac:(lia) S O). rewrite SK.
  assert (RQ : exists q, r' mod n = r' + q * n) by (apply mod_q; [lia|apply Z.mod_mod; lia]). destruct RQ as (q & ->).
  split; (intros [X|X]; (apply mod_q in X; [|lia]); destruct X as (t & X); [left|right]; (apply mod_q; [lia|])).
  - exists (- t). lia.
  - exists (t + 2 * d * q). lia.
  - exists (- t). lia.
  - exists (t - 2 * d * q). lia.
Qed.

(** one value and one signature: two keys *)
Lemma two_keys d d' x y x' y' val r s : public_pair_for_secret c G d = Ok (Some (x, y)) -> public_pair_for_secret c G d' = Ok (Some (x', y')) -> one r ->
  ecdsa_verify c G (x, y) val (r, s) = Ok true ->
  (ecdsa_verify c G (x', y') val (r, s) = Ok true <-> d' mod n = d mod n \/ (r * (d + d')) mod n = (- 2 * val) mod n).
Proof.
  intros PP PP' O E. destruct (nonce_of d x y val r s PP E) as (R & S & k & r' & yk & K & PK & <- & SK).
  rewrite (accept_iff d' x' y' k r' yk val s PP' PK K ltac:(lia) S O). rewrite SK.
  assert (RQ : exists q, r' mod n = r' + q * n) by (apply mod_q; [lia|apply Z.mod_mod; lia]). 
  split.
  - intros [X|X].
    + left. apply (cancel n r'); [exact PN|lia|]. apply mod_q in X; [|lia]. destruct X as (t & X). apply mod_q; [lia|]. exists (- t). lia.
    + right. apply mod_q in X; [|lia]. destruct X as (t & X). destruct RQ as (q & ->). apply mod_q; [lia|]. exists (t + q * (d + d')). lia.
  - intros [X|X].
    + left. apply mod_q in X; [|lia]. destruct X as (t & X). apply mod_q; [lia|]. exists (- t * r'). rewrite X. ring.
    + right. apply mod_q in X; [|lia]. destruct X as (t & X). destruct RQ as (q & RQ). rewrite RQ in X. apply mod_q; [lia|]. exists (t - q * (d + d')). lia.
Qed.
(** every signature with an abscissa is good for some key *)
Lemma some_key k r y' val s : public_pair_for_secret c G k = Ok (Some (r, y')) -> 0 < k < n -> r mod n <> 0 -> 1 <= s < n ->
  exists d x y, 0 < d < n /\ public_pair_for_secret c G d = Ok (Some (x, y)) /\ ecdsa_verify c G (x, y) val (r mod n, s) = Ok true.
Proof.
  intros PK K R S. destruct (prime_inv n r PN R) as (i & I). rewrite <- (Z.mod_1_l n) in I by lia. apply mod_q in I; [|lia]. destruct I as (j & I).
  assert (X : exists e, (e = s * k \/ e = - (s * k)) /\ (e - val) mod n <> 0).
  { destruct (Z.eq_dec ((s * k - val) mod n) 0) as [Z|Z]; [|eauto]. exists (- (s * k)). split; [auto|]. intros Z'.
    assert (T : (2 * (s * k)) mod n = 0).
    { replace (2 * (s * k)) with ((s * k - val) - (- (s * k) - val)) by ring. rewrite Zminus_mod, Z, Z'. apply Zmod_0_l. }
    apply Z.mod_divide in T; [|lia]. apply prime_mult in T; [|exact PN]. destruct T as [T|T]; [apply Z.divide_pos_le in T; lia|].
    apply prime_mult in T; [|exact PN]. destruct T as [T|T]; apply Z.divide_pos_le in T; lia. }
  destruct X as (e & EE & NZ). set (d := ((e - val) * i) mod n).
  assert (DB : 0 < d < n).
  { pose proof (Z.mod_pos_bound ((e - val) * i) n ltac:(lia)) as B. fold d in B. destruct (Z.eq_dec d 0) as [Z|Z]; [|lia]. exfalso. apply NZ. unfold d in Z.
    replace 0 with (0 mod n) in Z by apply Zmod_0_l. apply mod_q in Z; [|lia]. destruct Z as (t & Z). replace 0 with (0 mod n) by apply Zmod_0_l. apply mod_q; [lia|].
    exists (t * r - j * (e - val)). replace (e - val) with ((e - val) * (r * i) - j * (e - val) * n) at 1 by (rewrite I; ring).
    replace ((e - val) * (r * i)) with (((e - val) * i) * r) by ring. rewrite Z. ring. }
  assert (DQ : exists q, d = (e - val) * i + q * n) by (apply mod_q; [lia|unfold d; apply Z.mod_mod; lia]). destruct DQ as (q & DQ).
  destruct (pps_xy c gx gy n D d) as (P & _ & _ & _ & PP). destruct P as [|x y o].
  { exfalso. apply (pps_none c gx gy n D) in PP. rewrite Z.mod_small in PP; lia. }
  exists d, x, y. split; [exact DB|]. split; [exact PP|]. apply accept_if with (d := d) (k := k) (y' := y'); try assumption.
  assert (DR : val + d * r = e + (j * (e - val) + q * r) * n).
  { rewrite DQ. replace (((e - val) * i + q * n) * r) with ((e - val) * (r * i) + q * r * n) by ring. rewrite I. ring. }
  destruct EE as [->|EE]; [left|right]; rewrite DR; (apply mod_q; [lia|]).
  - exists (- (j * (s * k - val) + q * r)). ring.
  - subst e. exists (j * (- (s * k) - val) + q * r). ring.
Qed.
(** the other key: none exactly where recovery fails (C76) *)
Lemma second_key d x y val r s : public_pair_for_secret c G d = Ok (Some (x, y)) -> 0 < d < n -> ecdsa_verify c G (x, y) val (r, s) = Ok true ->
  (2 * val + d * r) mod n <> 0 ->
  exists d' x' y', 0 < d' < n /\ d' <> d /\ public_pair_for_secret c G d' = Ok (Some (x', y')) /\ ecdsa_verify c G (x', y') val (r, s) = Ok true.
Proof.
  intros PP DB E NZ. destruct (nonce_of d x y val r s PP E) as (R & S & k & r' & yk & K & PK & <- & SK).
  assert (RQ : exists q, r' mod n = r' + q * n) by (apply mod_q; [lia|apply Z.mod_mod; lia]). destruct RQ as (q & RQ).
  destruct (prime_inv n r' PN ltac:(lia)) as (i & I). rewrite <- (Z.mod_1_l n) in I by lia. apply mod_q in I; [|lia]. destruct I as (j & I).
  apply mod_q in SK; [|lia]. destruct SK as (t & SK).
  set (d' := (- (2 * val + d * r') * i) mod n).
  assert (DQ : exists u, d' = - (2 * val + d * r') * i + u * n) by (apply mod_q; [lia|unfold d'; apply Z.mod_mod; lia]). destruct DQ as (u & DQ).
  pose proof (Z.mod_pos_bound (- (2 * val + d * r') * i) n ltac:(lia)) as DB'. fold d' in DB'. clearbody d'.
  assert (DR : d' * r' = - (2 * val + d * r') + (u * r' - (2 * val + d * r') * j) * n).
  { rewrite DQ. replace ((- (2 * val + d * r') * i + u * n) * r') with (- (2 * val + d * r') * (r' * i) + u * r' * n) by ring. rewrite I. ring. }
  assert (D0 : d' <> 0).
  { intros ->. apply NZ. rewrite RQ. replace 0 with (0 mod n) by apply Zmod_0_l. apply mod_q; [lia|]. exists (d * q + (u * r' - (2 * val + d * r') * j)). lia. }
  assert (NE : d' <> d).
  { intros ->. assert (X : (2 * (s * k)) mod n = 0).
    { replace 0 with (0 mod n) by apply Zmod_0_l. apply mod_q; [lia|]. exists (2 * t + (u * r' - (2 * val + d * r') * j)). lia. }
    apply Z.mod_divide in X; [|lia]. apply prime_mult in X; [|exact PN]. destruct X as [X|X]; [apply Z.divide_pos_le in X; lia|].
    apply prime_mult in X; [|exact PN]. destruct X as [X|X]; apply Z.divide_pos_le in X; lia. }
  destruct (pps_xy c gx gy n D d') as (P & _ & _ & _ & PP'). destruct P as [|x' y' o].
  { exfalso. apply (pps_none c gx gy n D) in PP'. rewrite Z.mod_small in PP'; lia. }
  exists d', x', y'. split; [lia|]. split; [exact NE|]. split; [exact PP'|]. apply accept_if with (d := d') (k := k) (y' := yk); try assumption; [lia|].
  right. apply mod_q; [lia|]. exists (t + (u * r' - (2 * val + d * r') * j)). lia.
Qed.
(** a key and a signature for two given values *)
Lemma double_signature k r y' val val' : public_pair_for_secret c G k = Ok (Some (r, y')) -> 0 < k < n -> r mod n <> 0 ->
  (val - val') mod n <> 0 -> (val + val') mod n <> 0 ->
  exists d x y s, 0 < d < n /\ public_pair_for_secret c G d = Ok (Some (x, y)) /\ 1 <= s < n /\
    ecdsa_verify c G (x, y) val (r mod n, s) = Ok true /\ ecdsa_verify c G (x, y) val' (r mod n, s) = Ok true.
Proof.
  intros PK K R NE NS.
  assert (I : exists i j, 2 * r * i = 1 + j * n).
  { destruct (prime_inv n (2 * r) PN) as (i & I).
    - intros Z. apply Z.mod_divide in Z; [|lia]. apply prime_mult in Z; [|exact PN]. destruct Z as [Z|Z]; [apply Z.divide_pos_le in Z; lia|].
      apply R, Z.mod_divide; [lia|exact Z].
    - rewrite <- (Z.mod_1_l n) in I by lia. apply mod_q in I; [|lia]. destruct I as (j & I). eauto. }
  destruct I as (i & j & I).
  assert (H : exists h e, 2 * k * h = 1 + e * n).
  { destruct (prime_inv n (2 * k) PN) as (h & H).
    - intros Z. apply Z.mod_divide in Z; [|lia]. apply prime_mult in Z; [|exact PN]. destruct Z as [Z|Z]; apply Z.divide_pos_le in Z; lia.
    - rewrite <- (Z.mod_1_l n) in H by lia. apply mod_q in H; [|lia]. destruct H as (e & H). eauto. }
  destruct H as (h & e & H). set (d := (- (val + val') * i) mod n). set (s := ((val - val') * h) mod n).
  assert (DQ : exists q, d = - (val + val') * i + q * n) by (apply mod_q; [lia|unfold d; apply Z.mod_mod; lia]). destruct DQ as (q & DQ).
  assert (SQ : exists t, s = (val - val') * h + t * n) by (apply mod_q; [lia|unfold s; apply Z.mod_mod; lia]). destruct SQ as (t & SQ).
  pose proof (Z.mod_pos_bound (- (val + val') * i) n ltac:(lia)) as DB. fold d in DB. pose proof (Z.mod_pos_bound ((val - val') * h) n ltac:(lia)) as SB. fold s in SB.
  clearbody d s.
  assert (R2 : 2 * r * d = - (val + val') + (2 * r * q - (val + val') * j) * n).
  { rewrite DQ. replace (2 * r * (- (val + val') * i + q * n)) with (- (val + val') * (2 * r * i) + 2 * r * q * n) by ring. rewrite I. ring. }
  assert (K2 : 2 * k * s = (val - val') + (2 * k * t + (val - val') * e) * n).
  { rewrite SQ. replace (2 * k * ((val - val') * h + t * n)) with ((val - val') * (2 * k * h) + 2 * k * t * n) by ring. rewrite H. ring. }
  assert (D0 : d <> 0).
  { intros ->. apply NS. replace 0 with (0 mod n) by apply Zmod_0_l. apply mod_q; [lia|]. exists (2 * r * q - (val + val') * j). lia. }
  assert (S0 : s <> 0).
  { intros ->. apply NE. replace 0 with (0 mod n) by apply Zmod_0_l. apply mod_q; [lia|]. exists (- (2 * k * t + (val - val') * e)). lia. }
  destruct (pps_xy c gx gy n D d) as (P & _ & _ & _ & PP). destruct P as [|x y o].
  { exfalso. apply (pps_none c gx gy n D) in PP. rewrite Z.mod_small in PP; lia. }
  exists d, x, y, s. split; [lia|]. split; [exact PP|]. split; [lia|].
  assert (N2' : 2 mod n <> 0) by (rewrite Z.mod_small; lia).
  split; apply accept_if with (d := d) (k := k) (y' := y'); try assumption; try lia; [left|right]; apply (cancel n 2); try assumption; (apply mod_q; [lia|]).
  - exists ((2 * k * t + (val - val') * e) - (2 * r * q - (val + val') * j)). lia.
  - exists ((2 * k * t + (val - val') * e) + (2 * r * q - (val + val') * j)). lia.
Qed.
End W.

(** ** secp256k1 *)
Lemma secp_two_values (v v' : Z) : (v - v') mod key_max <> 0 -> (v + v') mod key_max <> 0 ->
  exists d x y s, 0 < d < key_max /\ public_pair_for_secret secp256k1 secp_G d = Ok (Some (x, y)) /\ 1 <= s < key_max /\
    ecdsa_verify secp256k1 secp_G (x, y) v (secp_gx, s) = Ok true /\ ecdsa_verify secp256k1 secp_G (x, y) v' (secp_gx, s) = Ok true.
Proof.
  intros A B. assert (R : secp_gx mod key_max = secp_gx) by (vm_compute; reflexivity).
  pose proof (double_signature secp256k1 secp_gx secp_gy key_max secp_group 1 secp_gx secp_gy v v' eq_refl) as H. rewrite R in H. apply H; try assumption.
  - split; reflexivity.
  - discriminate.
Qed.
Lemma key_two_values v v' net cp : known net -> (v - v') mod curve_order <> 0 -> (v + v') mod curve_order <> 0 ->
  exists k K r s, valid_key k /\ k_network k = net /\ k_compressed k = cp /\ pk_from_private_key k = Ok K /\
    ecdsa_verify secp256k1 secp_G (pk_pair K) v (r, s) = Ok true /\ ecdsa_verify secp256k1 secp_G (pk_pair K) v' (r, s) = Ok true.
Proof.
  intros KN A B. destruct (secp_two_values v v' A B) as (d & x & y & s & DB & PP & S & E & E'). exists (PrivateKey d net cp), (PublicKey (x, y) net cp), secp_gx, s.
  split; [split; [exact DB|exact KN]|]. split; [reflexivity|]. split; [reflexivity|]. split; [apply pub_iff; eauto|]. split; assumption.
Qed.
Lemma secp_one r : secp_p - key_max <= r -> one_abscissa secp_p 0 7 key_max r.
Proof. intros B. apply (one_large secp256k1 secp_gx secp_gy key_max secp_group). cbn [c_p secp256k1]. lia. Qed.

(** without the condition on r *)
Lemma toy_values : ~ (forall c gx gy n, dsa_group c gx gy n -> forall d x y val val' r s, public_pair_for_secret c (PAff gx gy (Some n)) d = Ok (Some (x, y)) ->
  ecdsa_verify c (PAff gx gy (Some n)) (x, y) val (r, s) = Ok true -> ecdsa_verify c (PAff gx gy (Some n)) (x, y) val' (r, s) = Ok true ->
  val' mod n = val mod n \/ val' mod n = (- val - 2 * d * r) mod n).
Proof.
  intros H. destruct (H toy 2 12 31 toy_group 5 12 12 11 25 7 1 ltac:(vm_compute; reflexivity) ltac:(vm_compute; reflexivity) ltac:(vm_compute; reflexivity)) as [X|X]; revert X; vm_compute; discriminate.
Qed.
