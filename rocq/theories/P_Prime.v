(** Primality proofs by Pocklington's criterion. *)
From Coq Require Import ZArith Znumtheory Zwf Zpow_facts Lia Bool List.
From Verif Require Import Base M_EC P_Field P_NumTheory.
Import ListNotations.
Open Scope Z_scope.

Lemma prime_divisor_ex n : 1 < n -> exists q, prime q /\ (q | n).
Proof.
  induction n as [n IH] using (well_founded_ind (Zwf_well_founded 0)). intros N.
  destruct (prime_dec n) as [P|P]; [exists n; split; [exact P|apply Z.divide_refl]|].
  destruct (not_prime_divide n N P) as (d & D1 & D2). destruct (IH d) as (q & Q1 & Q2); [unfold Zwf; lia|lia|].
  exists q. split; [exact Q1|]. exact (Z.divide_trans _ _ _ Q2 D2).
Qed.
(** a composite number has a prime divisor at most its square root *)
Lemma small_divisor n : 1 < n -> ~ prime n -> exists q, prime q /\ (q | n) /\ q * q <= n.
Proof.
  intros N P. destruct (not_prime_divide n N P) as (d & D1 & (e & D2)).
  assert (E1 : 1 < e < n) by nia. destruct (Z.le_ge_cases d e) as [L|L].
  - destruct (prime_divisor_ex d) as (q & Q1 & Q2); [lia|]. exists q. split; [exact Q1|]. split.
    + apply (Z.divide_trans _ _ _ Q2). exists e. exact D2.
    + apply Z.divide_pos_le in Q2; [|lia]. destruct Q1 as [Q1 _]. nia.
  - destruct (prime_divisor_ex e) as (q & Q1 & Q2); [lia|]. exists q. split; [exact Q1|]. split.
    + apply (Z.divide_trans _ _ _ Q2). exists d. lia.
    + apply Z.divide_pos_le in Q2; [|lia]. destruct Q1 as [Q1 _]. nia.
Qed.

(** ** trial division *)
Fixpoint trial (fuel : nat) (d n : Z) : bool :=
  match fuel with
  | O => false
  | S f => if n <? d * d then true else if n mod d =? 0 then false else trial f (d + 1) n
  end.
Lemma trial_ok f : forall d n, 2 <= d -> trial f d n = true -> forall k, d <= k -> k * k <= n -> ~ (k | n).
Proof.
  induction f as [|f IH]; intros d n D T k K1 K2 DV; cbn [trial] in T; [discriminate|].
  destruct (Z.ltb_spec n (d * d)); [nia|]. destruct (Z.eqb_spec (n mod d) 0) as [E|E]; [discriminate|].
  destruct (Z.eq_dec k d) as [->|NE]; [apply E, Zdivide_mod, DV|]. exact (IH (d + 1) n ltac:(lia) T k ltac:(lia) K2 DV).
Qed.
Lemma trial_prime f n : 1 < n -> trial f 2 n = true -> prime n.
Proof.
  intros N T. destruct (prime_dec n) as [P|P]; [exact P|].
  destruct (small_divisor n N P) as (q & Q1 & Q2 & Q3). destruct (trial_ok f 2 n ltac:(lia) T q); [destruct Q1; lia|exact Q3|exact Q2].
Qed.

(** ** Pocklington *)
Definition zprod (l : list Z) : Z := fold_right Z.mul 1 l.
Lemma zprod_divide l : forall m, Forall prime l -> NoDup l -> (forall q, In q l -> (q | m)) -> (zprod l | m).
Proof.
  induction l as [|q l IH]; intros m P ND D; cbn [zprod fold_right]; [exists m; lia|]; fold (zprod l).
  inversion P; inversion ND; subst. destruct (D q (or_introl eq_refl)) as (k & K). subst m.
  assert (L : (zprod l | k)).
  { apply IH; [assumption..|]. intros r R. assert (PR : prime r) by (rewrite Forall_forall in H2; auto).
    pose proof (D r (or_intror R)) as DR. apply prime_mult in DR; [|exact PR]. destruct DR as [DR|DR]; [exact DR|].
    apply prime_div_prime in DR; [|assumption|assumption]. subst. contradiction. }
  destruct L as (j & ->). exists j. ring.
Qed.
Lemma zprod_pos l : Forall prime l -> 1 <= zprod l.
Proof. induction 1 as [|r m R _ IH]; cbn [zprod fold_right]; [lia|]. fold (zprod m). pose proof (p_gt1 R). nia. Qed.
Lemma pow_coprime_one P x e f : prime P -> 0 <= e -> 0 <= f -> rel_prime e f ->
  x ^ e mod P = 1 -> x ^ f mod P = 1 -> x mod P = 1.
Proof.
  intros PR E F R HE HF. pose proof (p_gt1 PR).
  assert (O : forall z, z mod P = 1 <-> of P z = of P 1) by (intros z; rewrite of_eq, Zmod_1_l by lia; tauto).
  rewrite O in *. destruct (Zis_gcd_bezout _ _ _ R) as [u v B].
  (* u e + v f = 1 ; shift both coefficients to be non-negative *)
  assert (POW : forall j k, 0 <= j -> 0 <= k -> of P (x ^ j) = of P 1 -> of P (x ^ (j * k)) = of P 1).
  { intros j k J K H0. rewrite Z.pow_mul_r by lia. rewrite (of_pow_ext PR _ _ k K H0), Z.pow_1_l by lia. reflexivity. }
  destruct (Z.le_ge_cases 0 u) as [U|U].
  - destruct (Z.le_ge_cases 0 v) as [V|V].
    + assert (EQ : of P (x ^ (e * u) * x ^ (f * v)) = of P x).
      { f_equal. rewrite <- Z.pow_add_r by nia. replace (e * u + f * v) with 1 by lia. apply Z.pow_1_r. }
      rewrite of_mul, !POW in EQ by (assumption || lia). rewrite <- EQ, <- of_mul. reflexivity.
    + assert (EQ : of P (x ^ (e * u)) = of P (x * x ^ (f * - v))).
      { f_equal. rewrite <- Z.pow_succ_r by nia. f_equal. lia. }
      rewrite of_mul, !POW in EQ by (assumption || lia). rewrite EQ, <- of_mul, Z.mul_1_r. reflexivity.
  - assert (V : 0 <= v) by nia. assert (EQ : of P (x ^ (f * v)) = of P (x * x ^ (e * - u))).
    { f_equal. rewrite <- Z.pow_succ_r by nia. f_equal. lia. }
    rewrite of_mul, !POW in EQ by (assumption || lia). rewrite EQ, <- of_mul, Z.mul_1_r. reflexivity.
Qed.
Lemma mod_mod_divide a b P N : (P | N) -> 0 < P -> 0 < N -> a mod N = b mod N -> a mod P = b mod P.
Proof.
  intros D HP HN E. rewrite (Zmod_div_mod P N a), (Zmod_div_mod P N b) by assumption. rewrite E. reflexivity.
Qed.
(** [a^((N-1)/q)] is invertible minus one, its [q]-th power is one: then [q] divides [P - 1] *)
Lemma pock_step N P q a x u : 1 < N -> prime P -> (P | N) -> prime q -> (q | N - 1) ->
  x mod N = a ^ ((N - 1) / q) mod N -> a ^ (N - 1) mod N = 1 -> (u * (x - 1)) mod N = 1 -> (q | P - 1).
Proof.
  intros HN PP DP PQ (k & K) X A U. pose proof (p_gt1 PP). pose proof (p_gt1 PQ).
  assert (KK : (N - 1) / q = k) by (rewrite K; apply Z_div_mult; lia). rewrite KK in X. assert (0 <= k) by (clear - K HN H0; nia).
  destruct (Zdivide_dec q (P - 1)) as [D|D]; [exact D|exfalso].
  assert (XP : x mod P = a ^ k mod P) by (apply (mod_mod_divide _ _ P N); [assumption|lia..|assumption]).
  assert (HX : x mod P = 1).
  { apply (pow_coprime_one P x q (P - 1)); [assumption|lia|lia|apply prime_rel_prime; assumption| |].
    - rewrite Zpower_mod by lia. rewrite XP, <- Zpower_mod, <- Z.pow_mul_r by lia. rewrite <- K.
      transitivity (1 mod P); [|apply Zmod_1_l; lia]. apply (mod_mod_divide _ _ P N); [assumption|lia..|]. rewrite A, Zmod_1_l; lia.
    - assert (NZ : of P x <> of P 0).
      { intros E. apply of_eq in E. rewrite Zmod_0_l in E. rewrite XP in E.
        assert (Z : a ^ (N - 1) mod P = 1).
        { transitivity (1 mod P); [|apply Zmod_1_l; lia]. apply (mod_mod_divide _ _ P N); [assumption|lia..|]. rewrite A, Zmod_1_l; lia. }
        rewrite K, Z.pow_mul_r, Zpower_mod, E, Z.pow_0_l, Zmod_0_l in Z by lia. discriminate. }
      pose proof (fermat_of PP x NZ) as Z. apply of_eq in Z. rewrite (Zmod_1_l P) in Z by lia. exact Z. }
  assert (Z : (u * (x - 1)) mod P = 1).
  { transitivity (1 mod P); [|apply Zmod_1_l; lia]. apply (mod_mod_divide _ _ P N); [assumption|lia..|]. rewrite U, Zmod_1_l; lia. }
  rewrite Zmult_mod, (Zminus_mod x), HX, (Zmod_1_l P) in Z by lia. change (1 - 1) with 0 in Z. rewrite Zmod_0_l, Z.mul_0_r, Zmod_0_l in Z. discriminate.
Qed.

(** ** the checker.  [red] is any function that keeps residues modulo [N]. *)
Section Check.
Variable red : Z -> Z.
Fixpoint mpow (a : Z) (e : positive) : Z :=
  match e with
  | xH => a
  | xO e' => let t := mpow a e' in red (t * t)
  | xI e' => let t := mpow a e' in red (red (t * t) * a)
  end.
Fixpoint distinct (l : list Z) : bool :=
  match l with [] => true | q :: l => negb (existsb (Z.eqb q) l) && distinct l end.
Definition zpow (a e : Z) : Z := match e with Zpos e => mpow a e | _ => 0 end.
Definition pock (N a q u : Z) (l : list (Z * Z)) : bool :=
  let F := zprod (q :: map fst l) in
  (1 <? N) && ((N - 1) mod F =? 0) && (N <=? F * F) && distinct (q :: map fst l) &&
  (let x := zpow a ((N - 1) / q) in
   (zpow x q mod N =? 1) && ((u * (x - 1)) mod N =? 1)) &&
  forallb (fun qu => (snd qu * (zpow a ((N - 1) / fst qu) - 1)) mod N =? 1) l.

Lemma distinct_ok l : distinct l = true -> NoDup l.
Proof.
  induction l as [|q l IH]; cbn [distinct]; intros H; constructor; apply andb_true_iff in H; destruct H as (H1 & H2).
  - intros I. apply negb_true_iff in H1. assert (E : existsb (Z.eqb q) l = true); [|congruence].
    apply existsb_exists. exists q. split; [exact I|apply Z.eqb_refl].
  - apply IH, H2.
Qed.
Section Correct.
Variable N : Z.
Hypothesis NP : 1 < N.
Hypothesis RED : forall x, red x mod N = x mod N.
Lemma mpow_ok a e : mpow a e mod N = a ^ Z.pos e mod N.
Proof.
  induction e as [e IH|e IH|]; cbn [mpow]; cbn zeta.
  - rewrite RED, Zmult_mod, RED, (Zmult_mod (mpow a e)), IH, <- (Zmult_mod (a ^ Z.pos e)), <- (Zmult_mod (_ * _) a).
    f_equal. rewrite Pos2Z.inj_xI. replace (2 * Z.pos e + 1) with (Z.pos e + Z.pos e + 1) by lia.
    rewrite !Z.pow_add_r, Z.pow_1_r by lia. reflexivity.
  - rewrite RED, Zmult_mod, IH, <- Zmult_mod. f_equal. rewrite Pos2Z.inj_xO.
    replace (2 * Z.pos e) with (Z.pos e + Z.pos e) by lia. rewrite !Z.pow_add_r by lia. reflexivity.
  - rewrite Z.pow_1_r. reflexivity.
Qed.
Lemma zpow_ok a e : 0 < e -> zpow a e mod N = a ^ e mod N.
Proof. destruct e as [|e|e]; [lia|intros _; apply mpow_ok|lia]. Qed.
End Correct.

Lemma pock_ok N a q u l : (forall x, red x mod N = x mod N) -> Forall prime (q :: map fst l) ->
  pock N a q u l = true -> prime N.
Proof.
  unfold pock. cbn zeta. intros RED P H. repeat rewrite andb_true_iff in H.
  destruct H as (((((H1 & H2) & H3) & H4) & (H5 & H6)) & H7).
  rewrite Z.ltb_lt in H1. rewrite Z.eqb_eq in H2, H5, H6. rewrite Z.leb_le in H3. apply distinct_ok in H4.
  rewrite forallb_forall in H7. set (F := zprod (q :: map fst l)) in *.
  destruct (prime_dec N) as [PN|PN]; [exact PN|exfalso].
  destruct (small_divisor N H1 PN) as (d & D1 & D2 & D3). pose proof (p_gt1 D1).
  pose proof (zprod_pos _ P) as FP1. fold F in FP1.
  assert (DF : (F | N - 1)) by (apply Zmod_divide; [lia|exact H2]).
  assert (DQ : forall r, In r (q :: map fst l) -> (r | N - 1)).
  { intros r R. apply (Z.divide_trans _ F); [|exact DF]. unfold F. clear - R.
    induction (q :: map fst l) as [|s m IH]; [destruct R|]. cbn [zprod fold_right]. fold (zprod m). destruct R as [->|R].
    - exists (zprod m). ring.
    - destruct (IH R) as (j & ->). exists (s * j). ring. }
  assert (POS : forall r, In r (q :: map fst l) -> 0 < (N - 1) / r).
  { intros r R. pose proof (DQ r R) as (j & J). rewrite Forall_forall in P. pose proof (p_gt1 (P r R)).
    rewrite J, Z_div_mult by lia. clear - J H0 H1. nia. }
  assert (A : a ^ (N - 1) mod N = 1).
  { pose proof (DQ q (or_introl eq_refl)) as (j & J). pose proof (p_gt1 (Forall_inv P)) as Q1. pose proof (POS q (or_introl eq_refl)) as PQ.
    rewrite (zpow_ok N H1 RED) in H5 by lia. rewrite Zpower_mod in H5 by lia.
    rewrite (zpow_ok N H1 RED), <- Zpower_mod in H5 by lia.
    rewrite J, Z_div_mult, <- Z.pow_mul_r in H5 by (clear - J Q1 H1; nia). rewrite J. exact H5. }
  assert (DP : (F | d - 1)).
  { apply zprod_divide; [exact P|exact H4|]. intros r R.
    assert (PR : prime r) by (rewrite Forall_forall in P; auto).
    destruct R as [<-|R].
    - eapply (pock_step N d q a _ u H1 D1 D2 PR (DQ q (or_introl eq_refl))); [apply (zpow_ok N H1 RED); apply POS; left; reflexivity|exact A|exact H6].
    - apply in_map_iff in R. destruct R as ((r' & v) & <- & R). cbn [fst] in *. specialize (H7 _ R). cbn [fst snd] in H7.
      assert (R2 : In r' (q :: map fst l)) by (right; apply in_map_iff; exists (r', v); auto).
      rewrite Z.eqb_eq in H7. eapply (pock_step N d r' a _ v H1 D1 D2 PR (DQ r' R2)); [apply (zpow_ok N H1 RED); apply POS, R2|exact A|exact H7]. }
  apply Z.divide_pos_le in DP; [|lia]. clear - DP D3 H3 FP1. nia.
Qed.
End Check.
