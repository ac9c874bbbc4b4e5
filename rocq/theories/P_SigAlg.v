(** Signatures of a key whose secret is known: the verification equation in terms of the secret, the mirrored
    signature, and which other numbers a signature is good for. *)
From Coq Require Import ZArith Znumtheory Lia Bool List.
From Verif Require Import Base M_Hash M_Keys M_EC S_EC P_Field P_NumTheory P_Group P_EC P_ECProps P_Prime P_SecpPrime P_SecpOrder P_ECDSA P_DSA.
Import ListNotations.
Open Scope Z_scope.

Lemma or_iff_compat_both A B C D : (A <-> B) -> (C <-> D) -> (A \/ C <-> B \/ D).
Proof. tauto. Qed.
Lemma small_quot X n r p : 1 <= r < n -> 0 <= X < p -> X mod n = r -> p <= n + r -> X = r.
Proof.
  intros R B M W. pose proof (Z.div_mod X n ltac:(lia)) as DM. rewrite M in DM. pose proof (Z.div_pos X n ltac:(lia) ltac:(lia)) as Q.
  destruct (Z.eq_dec (X / n) 0) as [q0|q0]; [rewrite q0 in DM; lia|]. assert (n * 1 <= n * (X / n)) by (apply Z.mul_le_mono_nonneg_l; lia). lia.
Qed.
Section W.
Context (c : curve) (gx gy n : Z) (D : dsa_group c gx gy n).
Notation G := (PAff gx gy (Some n)).
Notation p := (c_p c).
Notation ca := (of p (c_a c)).
Notation cb := (of p (c_b c)).
Add Ring Fring5 : (fp_ring p).
Let PR : prime p := proj1 D.
Let OD : p <> 2 := proj1 (proj2 D).
Let N2 : no_two_torsion c := proj1 (proj2 (proj2 D)).
Let PN : prime n := proj1 (proj2 (proj2 (proj2 D))).
Let N3 : 2 < n := proj1 (proj2 (proj2 (proj2 (proj2 D)))).
Let V := dg_valid c gx gy n D.
Let ORD := dg_order c gx gy n D.
Let zG := zG c gx gy n.
Let Gs : unemb c (emb c G) = EA gx gy.
Proof. rewrite unemb_emb. apply (dg_stands c gx gy n D). Qed.
Let zon k : gon ca cb (zG k) := zG_on c PR OD gx gy n V k.

Lemma mult_zG k R : 0 <= k -> (multiple p (c_a c) (EA gx gy) k R <-> R = unemb c (zG k)).
Proof.
  intros K. rewrite <- Gs. split.
  - intros M. apply (multiple_gmul c PR OD) in M; [|exact (g_on c gx gy n V)]. destruct M as (_ & ->). f_equal.
    exact (gmul_zG c PR OD N2 gx gy n PN V ORD k K).
  - intros ->. unfold zG. rewrite <- (gmul_zG c PR OD N2 gx gy n PN V ORD k K). rewrite <- (Z2Nat.id k) at 1 by exact K.
    apply (gmul_multiple c PR OD), (g_on c gx gy n V).
Qed.
Lemma mult_zG_pt d k R : 0 <= k -> (multiple p (c_a c) (unemb c (zG d)) k R <-> R = unemb c (zG (k * d))).
Proof.
  intros K. unfold zG. rewrite <- (zG_mul c PR OD N2 gx gy n PN V ORD k d K). split.
  - intros M. apply (multiple_gmul c PR OD) in M; [|apply zon]. exact (proj2 M).
  - intros ->. rewrite <- (Z2Nat.id k) at 1 by exact K. apply (gmul_multiple c PR OD). apply zon.
Qed.
Lemma sum_zG j k R : is_sum p (c_a c) (unemb c (zG j)) (unemb c (zG k)) R <-> R = unemb c (zG (j + k)).
Proof.
  unfold zG. rewrite <- (zG_add c PR OD N2 gx gy n PN V ORD j k). split.
  - intros S. apply (is_sum_gadd c PR OD) in S; [exact S|apply zon|apply zon].
  - intros ->. apply (gadd_is_sum c PR OD); apply zon.
Qed.
Lemma zG_ext j k : j mod n = k mod n -> zG j = zG k.
Proof. apply zG_mod. Qed.

Lemma inv_ex s : 1 <= s < n -> exists w, (s * w) mod n = 1.
Proof.
  intros S. destruct (inverse_mod_spec s n ltac:(lia)) as (I & _). destruct (I (gcd_n n PN s S)) as (w & _ & _ & W). exists w. exact W.
Qed.

(** the verification equation, for the key of secret [d] *)
Lemma sig_valid_secret d x y e r s : multiple p (c_a c) (EA gx gy) (d mod n) (EA x y) ->
  (sig_valid p (c_a c) n (EA gx gy) (EA x y) e r s <-> 1 <= r < n /\ 1 <= s < n /\
   exists t X Y, 0 <= t < n /\ (s * t) mod n = (e + r * d) mod n /\ multiple p (c_a c) (EA gx gy) t (EA X Y) /\ X mod n = r).
Proof.
  intros Q. assert (MB : forall z, 0 <= z mod n < n) by (intros z; apply Z.mod_pos_bound; lia).
  apply mult_zG in Q; [|apply MB]. rewrite (zG_ext _ d (Zmod_mod d n)) in Q. unfold sig_valid.
  assert (SUM : forall w A B R, multiple p (c_a c) (EA gx gy) ((e * w) mod n) A -> multiple p (c_a c) (EA x y) ((r * w) mod n) B ->
     (is_sum p (c_a c) A B R <-> R = unemb c (zG (w * (e + r * d))))).
  { intros w A B R HA HB. rewrite Q in HB. apply mult_zG in HA; [|apply MB]. apply mult_zG_pt in HB; [|apply MB]. subst A B.
    rewrite sum_zG. rewrite (zG_ext ((e * w) mod n + (r * w) mod n * d) (w * (e + r * d))); [reflexivity|].
    rewrite Zplus_mod, Zmod_mod, Zmult_mod_idemp_l, <- Zplus_mod. f_equal. ring. }
  split; intros (R & S & H); (split; [exact R|split; [exact S|]]).
  - destruct H as (w & A & B & X & Y & W & HA & HB & HS & HX). apply (SUM w A B _ HA HB) in HS.
    exists ((w * (e + r * d)) mod n), X, Y. split; [apply MB|]. split.
    + rewrite Zmult_mod_idemp_r, Z.mul_assoc, <- Zmult_mod_idemp_l, W, Z.mul_1_l. reflexivity.
    + split; [|exact HX]. apply mult_zG; [apply MB|]. rewrite (zG_ext _ (w * (e + r * d)) (Zmod_mod _ n)). exact HS.
  - destruct H as (t & X & Y & T & E & M & HX). destruct (inv_ex s S) as (w & W).
    exists w, (unemb c (zG (e * w))), (unemb c (zG (r * w * d))), X, Y. split; [exact W|].
    assert (HA : multiple p (c_a c) (EA gx gy) ((e * w) mod n) (unemb c (zG (e * w)))).
    { apply mult_zG; [apply MB|]. rewrite (zG_ext _ (e * w) (Zmod_mod _ n)). reflexivity. }
    assert (HB : multiple p (c_a c) (EA x y) ((r * w) mod n) (unemb c (zG (r * w * d)))).
    { rewrite Q. apply mult_zG_pt; [apply MB|]. f_equal. apply zG_ext. symmetry. apply Zmult_mod_idemp_l. }
    split; [exact HA|]. split; [exact HB|]. split; [|exact HX]. apply (SUM w _ _ _ HA HB).
    apply mult_zG in M; [|lia]. rewrite M. f_equal. apply zG_ext.
    rewrite <- (Zmult_mod_idemp_r (e + r * d) w n), <- E, Zmult_mod_idemp_r.
    replace (w * (s * t)) with (s * w * t) by ring. rewrite <- Zmult_mod_idemp_l, W, Z.mul_1_l. reflexivity.
Qed.

(** the sum is the point at infinity exactly when [e + r d] vanishes *)
Lemma sig_infinite_secret d x y e r s : multiple p (c_a c) (EA gx gy) (d mod n) (EA x y) ->
  sig_infinite p (c_a c) n (EA gx gy) (EA x y) e r s -> (e + r * d) mod n = 0.
Proof.
  intros Q (R & S & w & A & B & W & HA & HB & HS). assert (MB : forall z, 0 <= z mod n < n) by (intros z; apply Z.mod_pos_bound; lia).
  apply mult_zG in Q; [|apply MB]. rewrite (zG_ext _ d (Zmod_mod d n)) in Q. rewrite Q in HB. apply mult_zG in HA; [|apply MB]. apply mult_zG_pt in HB; [|apply MB]. subst A B.
  apply sum_zG in HS. rewrite (zG_ext ((e * w) mod n + (r * w) mod n * d) (w * (e + r * d))) in HS.
  2:{ rewrite Zplus_mod, Zmod_mod, Zmult_mod_idemp_l, <- Zplus_mod. f_equal. ring. }
  assert (I : zG (w * (e + r * d)) = GInf) by (destruct (zG (w * (e + r * d))); [reflexivity|discriminate]).
  apply (zG_inf c PR OD N2 gx gy n PN V ORD) in I. rewrite <- (Z.mul_1_l (e + r * d)), <- W, Zmult_mod_idemp_l, <- Z.mul_assoc, <- Zmult_mod_idemp_r, I, Z.mul_0_r. apply Zmod_0_l.
Qed.

(** points with the same abscissa are the same or opposite *)
Lemma unemb_zG_neg k X Y : EA X Y = unemb c (zG k) -> unemb c (zG (- k)) = EA X ((- Y) mod p).
Proof.
  intros E. unfold zG. rewrite <- (zG_neg c PR OD N2 gx gy n PN V ORD k). fold zG. destruct (zG k) as [|px py]; [discriminate|].
  cbn [unemb] in E. injection E as -> ->. cbn [gneg unemb]. f_equal.
Qed.
Lemma opp_mult k X Y : 0 <= k < n -> multiple p (c_a c) (EA gx gy) k (EA X Y) ->
  exists Y', multiple p (c_a c) (EA gx gy) ((n - k) mod n) (EA X Y').
Proof.
  intros K M. apply mult_zG in M; [|lia]. apply unemb_zG_neg in M. exists ((- Y) mod p).
  apply mult_zG; [apply Z.mod_pos_bound; lia|]. rewrite <- M. f_equal. apply zG_ext. rewrite Zmod_mod.
  replace (n - k) with (- k + 1 * n) by lia. symmetry. apply Z_mod_plus_full.
Qed.
Lemma same_abscissa j k X Y Y' : 0 <= j < n -> 0 <= k < n -> multiple p (c_a c) (EA gx gy) j (EA X Y) ->
  multiple p (c_a c) (EA gx gy) k (EA X Y') -> j = k \/ j + k = n.
Proof.
  intros J K A B. apply mult_zG in A, B; try lia.
  assert (OA := zon j). assert (OB := zon k). assert (J0 : zG j <> GInf) by (intros Z; rewrite Z in A; discriminate).
  assert (C : zG j = zG k \/ zG j = gneg (zG k)).
  { destruct (zG j) as [|ax ay]; [discriminate|]. destruct (zG k) as [|bx by_]; [discriminate|]. cbn [unemb] in A, B.
    injection A as A1 A2. injection B as B1 B2. assert (EX : ax = bx) by (apply fp_eq; congruence). subst bx.
    cbn [gon] in OA, OB. assert (Q : fmul ay ay = fmul by_ by_) by congruence.
    assert (F : fmul (fsub ay by_) (fadd ay by_) = of p 0).
    { transitivity (fsub (fmul ay ay) (fmul by_ by_)); [ring|]. rewrite Q. ring. }
    destruct (fp_eq_dec p ay by_) as [->|NE]; [left; reflexivity|right]. cbn [gneg]. f_equal.
    assert (Z : fadd ay by_ = of p 0).
    { apply (P_Group.fcancel PR (fsub ay by_)); [apply (sub_neq PR), NE|]. rewrite F. ring. }
    transitivity (fsub (fadd ay by_) by_); [ring|]. rewrite Z. ring. }
  destruct C as [C|C].
  - left. apply (zG_inj c PR OD N2 gx gy n PN V ORD) in C. rewrite !Z.mod_small in C by lia. exact C.
  - right. unfold zG in C. rewrite (zG_neg c PR OD N2 gx gy n PN V ORD k) in C. apply (zG_inj c PR OD N2 gx gy n PN V ORD) in C.
    rewrite Z.mod_small in C by lia. destruct (Z.eq_dec k 0) as [->|K0].
    + exfalso. apply J0. unfold zG. assert (J1 : j = 0) by (rewrite C; reflexivity). rewrite J1. apply (zG_0 c gx gy n).
    + replace (- k) with (n - k + (-1) * n) in C by lia. rewrite Z_mod_plus_full, Z.mod_small in C by lia. lia.
Qed.

(** the mirrored signature *)
Lemma sig_valid_mirror d x y e r s : multiple p (c_a c) (EA gx gy) (d mod n) (EA x y) ->
  sig_valid p (c_a c) n (EA gx gy) (EA x y) e r s -> sig_valid p (c_a c) n (EA gx gy) (EA x y) e r (n - s).
Proof.
  intros Q H. apply (sig_valid_secret d x y e r s Q) in H. apply (sig_valid_secret d x y e r (n - s) Q).
  destruct H as (R & S & t & X & Y & T & E & M & HX). split; [exact R|]. split; [lia|].
  destruct (opp_mult t X Y T M) as (Y' & M'). exists ((n - t) mod n), X, Y'. split; [apply Z.mod_pos_bound; lia|].
  split; [|split; [exact M'|exact HX]]. rewrite Zmult_mod_idemp_r, <- E. replace ((n - s) * (n - t)) with (s * t + (n - s - t) * n) by ring.
  apply Z_mod_plus_full.
Qed.
Lemma sig_valid_mirror_iff d x y e r s : multiple p (c_a c) (EA gx gy) (d mod n) (EA x y) ->
  (sig_valid p (c_a c) n (EA gx gy) (EA x y) e r s <-> sig_valid p (c_a c) n (EA gx gy) (EA x y) e r (n - s)).
Proof.
  intros Q. split; intros H; [exact (sig_valid_mirror d x y e r s Q H)|].
  apply (sig_valid_mirror d x y e r (n - s) Q) in H. replace (n - (n - s)) with s in H by lia. exact H.
Qed.
Lemma sig_valid_number d x y e e' r s : multiple p (c_a c) (EA gx gy) (d mod n) (EA x y) -> e mod n = e' mod n ->
  sig_valid p (c_a c) n (EA gx gy) (EA x y) e r s -> sig_valid p (c_a c) n (EA gx gy) (EA x y) e' r s.
Proof.
  intros Q N H. apply (sig_valid_secret d x y e r s Q) in H. apply (sig_valid_secret d x y e' r s Q).
  destruct H as (R & S & t & X & Y & T & E & M & HX). split; [exact R|]. split; [exact S|]. exists t, X, Y.
  split; [exact T|]. split; [|split; assumption]. rewrite E, Zplus_mod, N, <- Zplus_mod. reflexivity.
Qed.
(** a signature made with nonce [k] *)
Lemma sig_valid_made d x y k r Y z s : multiple p (c_a c) (EA gx gy) (d mod n) (EA x y) -> 0 <= k < n -> multiple p (c_a c) (EA gx gy) k (EA r Y) ->
  1 <= r < n -> 1 <= s < n -> (s * k) mod n = (z + d * r) mod n -> sig_valid p (c_a c) n (EA gx gy) (EA x y) z r s.
Proof.
  intros Q K M R S E. apply (sig_valid_secret d x y z r s Q). split; [exact R|]. split; [exact S|]. exists k, r, Y. split; [exact K|].
  split; [rewrite E; f_equal; ring|]. split; [exact M|]. apply Z.mod_small. lia.
Qed.
(** ... is good for exactly two classes of numbers when no other abscissa reduces to [r] *)
Lemma sig_valid_numbers d x y k r Y z s e : multiple p (c_a c) (EA gx gy) (d mod n) (EA x y) -> 0 <= k < n -> multiple p (c_a c) (EA gx gy) k (EA r Y) ->
  1 <= r < n -> 1 <= s < n -> (s * k) mod n = (z + d * r) mod n -> p <= n + r ->
  (sig_valid p (c_a c) n (EA gx gy) (EA x y) e r s <-> e mod n = z mod n \/ (e + z + 2 * d * r) mod n = 0).
Proof.
  intros Q K M R S E W. pose proof (inv_ex s S) as (w & WS). split.
  - intros H. apply (sig_valid_secret d x y e r s Q) in H. destruct H as (_ & _ & t & X & Y' & T & E' & M' & HX).
    assert (XR : X = r).
    { assert (XB : 0 <= X < p).
      { apply mult_zG in M'; [|lia]. destruct (zG t) as [|px py]; [discriminate|]. cbn [unemb] in M'. injection M' as -> _. apply fv_range. destruct PR. lia. }
      exact (small_quot X n r p R XB HX W). }
    subst X. destruct (same_abscissa t k r Y' Y T K M' M) as [->|TK].
    + left. rewrite E' in E. apply (f_equal (fun v => (v - d * r) mod n)) in E. rewrite !Zminus_mod_idemp_l in E.
      replace (e + r * d - d * r) with e in E by ring. replace (z + d * r - d * r) with z in E by ring. exact E.
    + right. replace t with (n - k) in E' by lia. replace (s * (n - k)) with (- (s * k) + s * n) in E' by ring. rewrite Z_mod_plus_full in E'.
      replace (e + z + 2 * d * r) with ((e + r * d) + (z + d * r)) by ring. rewrite Zplus_mod, <- E, <- E', <- Zplus_mod.
      replace (- (s * k) + s * k) with 0 by ring. apply Zmod_0_l.
  - pose proof (sig_valid_made d x y k r Y z s Q K M R S E) as B. intros [N|N].
    + exact (sig_valid_number d x y z e r s Q (eq_sym N) B).
    + apply (sig_valid_secret d x y e r s Q). split; [exact R|]. split; [exact S|].
      destruct (opp_mult k r Y K M) as (Y' & M'). exists ((n - k) mod n), r, Y'. split; [apply Z.mod_pos_bound; lia|].
      split; [|split; [exact M'|apply Z.mod_small; lia]]. rewrite Zmult_mod_idemp_r.
      replace (s * (n - k)) with (- (s * k) + s * n) by ring. rewrite Z_mod_plus_full.
      replace (e + r * d) with (e + z + 2 * d * r - (z + d * r)) by ring. rewrite (Zminus_mod (e + z + 2 * d * r) (z + d * r)), N, <- E, Zminus_mod_idemp_r. f_equal.
Qed.
(** ... and for exactly two public keys *)
Lemma sig_valid_keys d d' x' y' k r Y z s : multiple p (c_a c) (EA gx gy) (d' mod n) (EA x' y') -> 0 <= k < n ->
  multiple p (c_a c) (EA gx gy) k (EA r Y) -> 1 <= r < n -> 1 <= s < n -> (s * k) mod n = (z + d * r) mod n -> p <= n + r ->
  (sig_valid p (c_a c) n (EA gx gy) (EA x' y') z r s <-> d' mod n = d mod n \/ (2 * z + r * (d + d')) mod n = 0).
Proof.
  intros Q K M R S E W. set (z' := z + r * d - r * d').
  assert (E' : (s * k) mod n = (z' + d' * r) mod n) by (rewrite E; unfold z'; f_equal; ring).
  rewrite (sig_valid_numbers d' x' y' k r Y z' s z Q K M R S E' W). apply or_iff_compat_both.
  - unfold z'. split; intros H.
    + assert (H1 : (r * (d' - d)) mod n = 0).
      { replace (r * (d' - d)) with (z - (z + r * d - r * d')) by ring. rewrite Zminus_mod, H, Z.sub_diag. apply Zmod_0_l. }
      apply Z.mod_divide in H1; [|lia]. apply (prime_mult n PN) in H1. destruct H1 as [H1|H1].
      * exfalso. apply Z.divide_pos_le in H1; lia.
      * destruct H1 as (q & H1). replace d' with (d + q * n) by lia. apply Z_mod_plus_full.
    + replace (z + r * d - r * d') with (z + r * (d - d')) by ring. rewrite <- Zplus_mod_idemp_r, <- Zmult_mod_idemp_r, Zminus_mod, H, Z.sub_diag, Zmod_0_l, Z.mul_0_r, Zmod_0_l, Z.add_0_r. reflexivity.
  - replace (z + z' + 2 * d' * r) with (2 * z + r * (d + d')) by (unfold z'; ring). reflexivity.
Qed.
End W.
