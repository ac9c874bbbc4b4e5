(** Number theory: powers modulo [m], Fermat, the root bound, and the correctness of
    [inverse_mod], [legendre_symbol] and [modular_sqrt]. *)
From Coq Require Import ZArith Znumtheory Lia Bool Field Permutation List Zpow_facts.
From Verif Require Import Base M_EC P_Field.
Import ListNotations.
Open Scope Z_scope.

(** ** powmod *)
Lemma powmod_pos_eq a e m : 0 < m -> powmod_pos a e m = a ^ Z.pos e mod m.
Proof.
  intros M. induction e as [e IH|e IH|]; cbn [powmod_pos]; cbn zeta.
  - rewrite IH. rewrite Pos2Z.inj_xI. replace (2 * Z.pos e + 1) with (Z.pos e + Z.pos e + 1) by lia.
    rewrite !Z.pow_add_r, Z.pow_1_r by lia. rewrite <- Zmult_mod. rewrite Zmult_mod_idemp_l. reflexivity.
  - rewrite IH. rewrite Pos2Z.inj_xO. replace (2 * Z.pos e) with (Z.pos e + Z.pos e) by lia.
    rewrite !Z.pow_add_r by lia. rewrite <- Zmult_mod. reflexivity.
  - rewrite Z.pow_1_r. reflexivity.
Qed.
Lemma powmod_eq a e m : 0 < m -> 0 <= e -> powmod a e m = a ^ e mod m.
Proof. intros M E. destruct e as [|e|e]; cbn [powmod]; [reflexivity|apply powmod_pos_eq, M|lia]. Qed.

(** ** inverse_mod *)
Lemma euclid_enough f : forall c d uc vc ud vd, 0 <= c < d -> c * d < 2 ^ Z.of_nat f ->
  exists r, M_EC.euclid f c d uc vc ud vd = Some r.
Proof.
  induction f as [|f IH]; intros c d uc vc ud vd C L; cbn [M_EC.euclid].
  - assert (c = 0) by (change (2 ^ Z.of_nat 0) with 1 in L; nia). subst. cbn. eauto.
  - destruct (Z.eqb_spec c 0) as [->|N]; [eauto|]. cbn zeta. apply IH.
    + pose proof (Z.mod_pos_bound d c ltac:(lia)). lia.
    + rewrite Nat2Z.inj_succ, Z.pow_succ_r in L by lia.
      pose proof (Z.mod_pos_bound d c ltac:(lia)). pose proof (Z.div_mod d c N).
      assert (1 <= d / c) by (apply Z.div_le_lower_bound; lia). nia.
Qed.

(** the invariant of the loop: [sg] is the alternating sign *)
Lemma euclid_inv f : forall a m c d uc vc ud vd sg g u, 0 <= c < d -> 1 < m ->
  sg = 1 \/ sg = -1 -> 0 <= sg * uc -> 0 <= - sg * ud ->
  c * (- sg * ud) + d * (sg * uc) = m -> Z.abs ud <= m ->
  (m | uc * a - c) -> (m | ud * a - d) -> Z.gcd c d = Z.gcd a m ->
  M_EC.euclid f c d uc vc ud vd = Some (g, u) ->
  g = Z.gcd a m /\ (m | u * a - g) /\ Z.abs u <= m.
Proof.
  induction f as [|f IH]; intros a m c d uc vc ud vd sg g u C M SG U1 U2 E A D1 D2 G; cbn [M_EC.euclid];
    (destruct (Z.eqb_spec c 0) as [->|N]; [intros H; injection H as <- <-; rewrite Z.gcd_0_l, Z.abs_eq in G by lia; subst; repeat split; assumption|]).
  - discriminate.
  - cbn zeta. pose proof (Z.mod_pos_bound d c ltac:(lia)). pose proof (Z.div_mod d c N) as DM.
    assert (1 <= d / c) by (apply Z.div_le_lower_bound; lia). set (q := d / c) in *.
    apply IH with (sg := - sg); try assumption; try lia; try (destruct SG as [-> | ->]; lia).
    + assert (0 <= c * (- sg * ud)) by (apply Z.mul_nonneg_nonneg; lia).
      assert (sg * uc <= d * (sg * uc)) by nia. destruct SG as [-> | ->]; lia.
    + replace ((ud - q * uc) * a - d mod c) with ((ud * a - d) - q * (uc * a - c)) by (replace (d mod c) with (d - c * q) by lia; ring).
      apply Z.divide_sub_r; [assumption|]. apply Z.divide_mul_r; assumption.
    + rewrite Z.gcd_mod by lia. exact G.
Qed.

Lemma inverse_mod_spec a m : 1 < m ->
  (Z.gcd a m = 1 -> exists r, inverse_mod a m = Ok r /\ 0 < r < m /\ (a * r) mod m = 1) /\
  (Z.gcd a m <> 1 -> inverse_mod a m = Err E_AssertionError).
Proof.
  intros M. unfold inverse_mod. cbn zeta.
  set (a' := if (a <? 0) || (m <=? a) then a mod m else a).
  assert (A : a' = a mod m).
  { unfold a'. destruct (Z.ltb_spec a 0), (Z.leb_spec m a); cbn; try reflexivity. symmetry. apply Z.mod_small. lia. }
  assert (R : 0 <= a' < m) by (rewrite A; apply Z.mod_pos_bound; lia).
  assert (G : Z.gcd a' m = Z.gcd a m) by (rewrite A; rewrite Z.gcd_mod by lia; apply Z.gcd_comm).
  assert (D : (m | a' - a)).
  { rewrite A. exists (- (a / m)). pose proof (Z.div_mod a m ltac:(lia)). lia. }
  destruct (euclid_enough (Z.to_nat (2 * Z.log2 m + 4)) a' m 1 0 0 1) as ((d & u) & E); [lia| |].
  { pose proof (Z.log2_nonneg m). pose proof (Z.log2_spec m ltac:(lia)) as (_ & L). rewrite Z2Nat.id by lia.
    replace (2 * Z.log2 m + 4) with (Z.succ (Z.log2 m) + Z.succ (Z.log2 m) + 2) by lia.
    rewrite !Z.pow_add_r by lia. change (2 ^ 2) with 4. nia. }
  rewrite E. destruct (euclid_inv _ a' m a' m 1 0 0 1 1 d u R M (or_introl eq_refl)
    ltac:(lia) ltac:(lia) ltac:(lia) ltac:(lia) ltac:(exists 0; lia) ltac:(exists (-1); lia) eq_refl E) as (-> & DV & AB).
  rewrite G in *. split; intros GG; destruct (Z.eqb_spec (Z.gcd a m) 1) as [K|K]; try congruence; cbn [negb]; [|reflexivity].
  rewrite K in DV. assert (DV2 : (m | u * a - 1)).
  { replace (u * a - 1) with ((u * a' - 1) - u * (a' - a)) by ring. apply Z.divide_sub_r; [assumption|]. apply Z.divide_mul_r, D. }
  destruct DV2 as (k & K2).
  assert (NJ : forall j, m * j <> 1) by (intros j J; assert (j <= 0 \/ 1 <= j) as [?|?] by lia; nia).
  assert (U : u <> 0 /\ u <> m /\ u <> - m).
  { repeat split; intros ->; [apply (NJ (- k))|apply (NJ (a - k))|apply (NJ (- a - k))]; lia. }
  rewrite Z.gtb_ltb. destruct (Z.ltb_spec 0 u); eexists; (split; [reflexivity|]; split; [lia|]).
  - replace (a * u) with (1 + k * m) by lia. rewrite Z_mod_plus_full. apply Zmod_1_l. lia.
  - replace (a * (u + m)) with (1 + (k + a) * m) by lia. rewrite Z_mod_plus_full. apply Zmod_1_l. lia.
Qed.

(** ** the non-zero residues *)
Definition units (p : Z) : list Z := map Z.of_nat (seq 1 (Z.to_nat (p - 1))).
Lemma units_in p z : In z (units p) <-> 1 <= z <= p - 1.
Proof.
  unfold units. rewrite in_map_iff. split.
  - intros (n & <- & H). apply in_seq in H. lia.
  - intros H. exists (Z.to_nat z). split; [lia|]. apply in_seq. lia.
Qed.
Lemma units_nodup p : NoDup (units p).
Proof. unfold units. apply FinFun.Injective_map_NoDup; [intros a b; lia|apply seq_NoDup]. Qed.
Lemma units_len p : length (units p) = Z.to_nat (p - 1).
Proof. unfold units. rewrite map_length, seq_length. reflexivity. Qed.

Section Prime.
Context {p : Z} (PR : prime p).
Notation F := (fp p).
Notation "[ z ]" := (of p z).
Add Field Ffield : (fp_field PR).
Local Infix "+!" := (@fadd p) (at level 50, left associativity).
Local Infix "*!" := (@fmul p) (at level 40, left associativity).
Local Infix "-!" := (@fsub p) (at level 50, left associativity).

Lemma p_gt1 : 1 < p. Proof. exact (p_pos PR). Qed.
Lemma of_neq0 a : ~ (p | a) <-> [a] <> [0].
Proof. rewrite (of_zero PR a). tauto. Qed.
Lemma of_mod a : [a mod p] = [a].
Proof. pose proof p_gt1. apply of_eq, Zmod_mod. Qed.
Lemma fmul_cancel (a b c : F) : a <> [0] -> a *! b = a *! c -> b = c.
Proof.
  intros N H. assert (Z : a *! (b -! c) = [0]).
  { transitivity (a *! b -! a *! c); [ring|]. rewrite H. ring. }
  apply (fmul_zero PR) in Z. destruct Z as [Z|Z]; [contradiction|].
  transitivity (b -! c +! c); [ring|]. rewrite Z. ring.
Qed.
Lemma unit_of z : In z (units p) -> [z] <> [0].
Proof.
  intros H. apply units_in in H. apply of_neq0. intros D. apply Z.divide_pos_le in D; lia.
Qed.
Lemma unit_inj a b : In a (units p) -> In b (units p) -> [a] = [b] -> a = b.
Proof. intros A B E. apply units_in in A, B. apply of_eq in E. rewrite !Z.mod_small in E by lia. exact E. Qed.
Lemma unit_mod a : [a] <> [0] -> In (a mod p) (units p).
Proof.
  intros N. pose proof p_gt1. pose proof (Z.mod_pos_bound a p ltac:(lia)). apply units_in.
  assert (a mod p <> 0); [|lia]. intros E. apply N. apply of_eq. rewrite E. symmetry. apply Zmod_0_l.
Qed.

(** product of a list *)
Fixpoint fprod (l : list Z) : F := match l with nil => [1] | z :: l => [z] *! fprod l end.
Lemma fprod_perm l l' : Permutation l l' -> fprod l = fprod l'.
Proof. induction 1; cbn [fprod]; [reflexivity|congruence|ring|congruence]. Qed.
Lemma fprod_neq0 l : (forall z, In z l -> [z] <> [0]) -> fprod l <> [0].
Proof.
  induction l as [|z l IH]; intros H; cbn [fprod].
  - intros E. apply of_eq in E. pose proof p_gt1. rewrite Zmod_0_l, Zmod_1_l in E; lia.
  - intros E. apply (fmul_zero PR) in E. destruct E as [E|E]; [apply (H z); [left; reflexivity|exact E]|].
    apply IH; [|exact E]. intros y Y. apply H. right. exact Y.
Qed.
Lemma fprod_map a l : fprod (map (fun k => (a * k) mod p) l) = [a ^ Z.of_nat (length l)] *! fprod l.
Proof.
  induction l as [|z l IH]; cbn [map fprod length].
  - change (a ^ Z.of_nat 0) with 1. ring.
  - rewrite IH, of_mod, of_mul. rewrite Nat2Z.inj_succ, Z.pow_succ_r, of_mul by lia. ring.
Qed.
Lemma units_scaled a : [a] <> [0] -> Permutation (units p) (map (fun k => (a * k) mod p) (units p)).
Proof.
  intros N. apply Permutation_sym, NoDup_Permutation_bis.
  - assert (H : forall l, NoDup l -> incl l (units p) -> NoDup (map (fun k => (a * k) mod p) l)).
    { induction l as [|z l IH]; intros ND I; cbn [map]; constructor; inversion ND; subst.
      - rewrite in_map_iff. intros (y & E & Y). apply H1. assert (z = y); [|subst; assumption].
        apply unit_inj; [apply I; left; reflexivity|apply I; right; exact Y|].
        apply (fmul_cancel [a]); [exact N|]. rewrite <- !of_mul. apply of_eq. symmetry. exact E.
      - apply IH; [assumption|]. intros y Y. apply I. right. exact Y. }
    apply H; [apply units_nodup|apply incl_refl].
  - rewrite map_length. lia.
  - intros y. rewrite in_map_iff. intros (z & <- & Z). apply unit_mod. rewrite of_mul. intros E.
    apply (fmul_zero PR) in E. destruct E as [E|E]; [contradiction|]. exact (unit_of _ Z E).
Qed.
(** Fermat's little theorem *)
Lemma fermat_of a : [a] <> [0] -> [a ^ (p - 1)] = [1].
Proof.
  intros N. pose proof (fprod_perm _ _ (units_scaled a N)) as E. rewrite fprod_map, units_len in E.
  pose proof p_gt1. rewrite Z2Nat.id in E by lia.
  apply (fmul_cancel (fprod (units p))); [apply fprod_neq0; intros z; apply unit_of|].
  transitivity (fprod (units p)); [rewrite E at 2|]; ring.
Qed.

(** ** a monic polynomial has at most as many roots as its degree *)
Fixpoint mon (l : list F) (x : F) : F := match l with [] => [1] | c :: l => c +! x *! mon l x end.
Lemma mon_div l r : l <> [] -> exists l', length l = S (length l') /\
  forall x, mon l x = mon l r +! (x -! r) *! mon l' x.
Proof.
  induction l as [|c l IH]; intros N; [congruence|]. destruct l as [|c2 l2].
  - exists []. split; [reflexivity|]. intros x. cbn [mon]. ring.
  - destruct IH as (l' & L & E); [discriminate|]. exists (mon (c2 :: l2) r :: l').
    split; [cbn [length] in *; lia|]. intros x.
    change (mon (c :: c2 :: l2) x) with (c +! x *! mon (c2 :: l2) x).
    change (mon (c :: c2 :: l2) r) with (c +! r *! mon (c2 :: l2) r).
    change (mon (mon (c2 :: l2) r :: l') x) with (mon (c2 :: l2) r +! x *! mon l' x).
    rewrite E. ring.
Qed.
Lemma one_neq0 : [1] <> [0].
Proof. intros E. apply of_eq in E. pose proof p_gt1. rewrite Zmod_0_l, Zmod_1_l in E; lia. Qed.
Lemma mon_roots n : forall l rs, length l = n -> NoDup rs -> (forall r, In r rs -> mon l r = [0]) -> (length rs <= n)%nat.
Proof.
  induction n as [|n IH]; intros l rs L ND R.
  - destruct l; [|discriminate]. destruct rs as [|r rs]; [cbn; lia|]. exfalso. apply one_neq0. exact (R r (or_introl eq_refl)).
  - destruct rs as [|r rs]; [cbn; lia|]. cbn [length]. apply le_n_S.
    destruct (mon_div l r) as (l' & L' & E); [destruct l; discriminate|].
    inversion ND; subst. apply (IH l'); [lia|assumption|]. intros x X.
    pose proof (R x (or_intror X)) as Z. rewrite E, (R r (or_introl eq_refl)) in Z.
    assert (Z2 : (x -! r) *! mon l' x = [0]) by (rewrite <- Z; ring).
    apply (fmul_zero PR) in Z2. destruct Z2 as [Z2|Z2]; [|exact Z2]. exfalso. apply H1.
    replace r with x; [exact X|]. transitivity (x -! r +! r); [ring|]. rewrite Z2. ring.
Qed.
Lemma mon_pow k a : mon (repeat [0] k) [a] = [a ^ Z.of_nat k].
Proof.
  induction k as [|k IH]; cbn [repeat mon]; [reflexivity|]. rewrite IH, Nat2Z.inj_succ, Z.pow_succ_r, of_mul by lia. ring.
Qed.
Lemma exists_nonroot h : 1 <= h < p - 1 -> exists n, In n (units p) /\ [n ^ h] <> [1].
Proof.
  intros H. destruct (Forall_Exists_dec (fun n => [n ^ h] = [1]) (fun n => fp_eq_dec p _ _) (units p)) as [A|E].
  2: { apply Exists_exists in E. exact E. }
  exfalso. rewrite Forall_forall in A.
  assert (length (map (of p) (units p)) <= Z.to_nat h)%nat.
  { apply (mon_roots (Z.to_nat h) (fopp [1] :: repeat [0] (Z.to_nat h - 1))).
    - cbn [length]. rewrite repeat_length. lia.
    - assert (I : forall l, NoDup l -> incl l (units p) -> NoDup (map (of p) l)).
      { induction l as [|z l IH]; intros ND I; cbn [map]; constructor; inversion ND; subst.
        - rewrite in_map_iff. intros (y & EE & Y). apply H2. assert (z = y); [|subst; assumption].
          apply unit_inj; [apply I; left; reflexivity|apply I; right; exact Y|symmetry; exact EE].
        - apply IH; [assumption|]. intros y Y. apply I. right. exact Y. }
      apply I; [apply units_nodup|apply incl_refl].
    - intros r. rewrite in_map_iff. intros (n & <- & N). cbn [mon]. rewrite mon_pow, <- of_mul.
      replace (n * n ^ Z.of_nat (Z.to_nat h - 1)) with (n ^ h).
      + rewrite (A n N). ring.
      + rewrite <- Z.pow_succ_r by lia. f_equal. lia. }
  rewrite map_length, units_len in H0. lia.
Qed.

(** ** powers of residues *)
Lemma of_pow_mod a e : 0 <= e -> [(a mod p) ^ e] = [a ^ e].
Proof. intros E. apply of_eq. symmetry. apply Zpower_mod. pose proof p_gt1. lia. Qed.
Lemma of_pow_ext a b e : 0 <= e -> [a] = [b] -> [a ^ e] = [b ^ e].
Proof. intros E H. rewrite <- (of_pow_mod a), <- (of_pow_mod b) by exact E. apply of_eq in H. rewrite H. reflexivity. Qed.
Lemma of_powmod a e : 0 <= e -> [powmod a e p] = [a ^ e].
Proof. intros E. pose proof p_gt1. rewrite powmod_eq by lia. apply of_mod. Qed.
Lemma of_pow_one e : 0 <= e -> [1 ^ e] = [1].
Proof. intros E. rewrite Z.pow_1_l by exact E. reflexivity. Qed.
Lemma pow_double a e : 0 <= e -> a ^ (2 ^ (e + 1)) = (a * a) ^ (2 ^ e).
Proof.
  intros E. rewrite Z.pow_add_r, Z.pow_1_r by lia. rewrite (Z.mul_comm (2 ^ e)).
  pose proof (Z.pow_nonneg 2 e ltac:(lia)). rewrite Z.pow_mul_r by lia. f_equal. ring.
Qed.
Lemma pow_double' a e : 0 <= e -> a ^ (2 ^ (e + 1)) = a ^ (2 ^ e) * a ^ (2 ^ e).
Proof.
  intros E. rewrite Z.pow_add_r, Z.pow_1_r by lia. pose proof (Z.pow_nonneg 2 e ltac:(lia)).
  rewrite <- Z.pow_add_r by lia. f_equal. lia.
Qed.
Lemma square_one x : [x * x] = [1] -> [x] = [1] \/ [x] = [-1].
Proof.
  rewrite of_mul. intros H. assert (Z : ([x] -! [1]) *! ([x] +! [1]) = [0]).
  { transitivity ([x] *! [x] -! [1]); [ring|]. rewrite H. ring. }
  apply (fmul_zero PR) in Z. destruct Z as [Z|Z]; [left|right].
  - transitivity ([x] -! [1] +! [1]); [ring|]. rewrite Z. ring.
  - transitivity ([x] +! [1] -! [1]); [ring|]. rewrite Z. rewrite <- of_sub. reflexivity.
Qed.
Lemma of_range a b : 0 <= a < p -> 0 <= b < p -> [a] = [b] -> a = b.
Proof. intros A B E. apply of_eq in E. rewrite !Z.mod_small in E by lia. exact E. Qed.
Lemma powmod_range a e : 0 <= e -> 0 <= powmod a e p < p.
Proof. intros E. pose proof p_gt1. rewrite powmod_eq by lia. apply Z.mod_pos_bound. lia. Qed.
Lemma of_pow_zero a e : 0 < e -> [a] = [0] -> [a ^ e] = [0].
Proof. intros E H. rewrite (of_pow_ext a 0) by (lia || exact H). rewrite Z.pow_0_l by lia. reflexivity. Qed.

(** ** odd primes *)
Section Odd.
Context (OD : p <> 2).
Lemma p_odd : exists h, p = 2 * h + 1 /\ 1 <= h /\ (p - 1) / 2 = h.
Proof.
  pose proof p_gt1. assert (O : p mod 2 = 1).
  { pose proof (Z.mod_pos_bound p 2 ltac:(lia)). assert (p mod 2 <> 0); [|lia]. intros E.
    apply Zmod_divide in E; [|lia]. apply prime_div_prime in E; [congruence|exact prime_2|exact PR]. }
  exists ((p - 1) / 2). pose proof (Z.div_mod p 2 ltac:(lia)).
  assert ((p - 1) / 2 = p / 2) by (symmetry; apply (Z.div_unique _ 2 _ 0); lia). lia.
Qed.
Lemma minus_one : [-1] <> [1] /\ [-1] = [p - 1] /\ [-1] *! [-1] = [1].
Proof.
  pose proof p_gt1. repeat split.
  - intros E. rewrite of_eq in E. rewrite Zmod_1_l in E by lia. rewrite <- (Z_mod_plus_full (-1) 1) in E.
    rewrite Z.mod_small in E by lia. lia.
  - apply of_eq. rewrite <- (Z_mod_plus_full (-1) 1). f_equal. lia.
  - rewrite <- of_mul. reflexivity.
Qed.
Lemma half_pow a : [a] <> [0] -> [a ^ ((p - 1) / 2)] = [1] \/ [a ^ ((p - 1) / 2)] = [-1].
Proof.
  intros N. destruct p_odd as (h & E & H & ->). apply square_one. rewrite <- Z.pow_add_r by lia.
  replace (h + h) with (p - 1) by lia. apply fermat_of, N.
Qed.
Lemma legendre_cases a :
  ([a] = [0] /\ legendre_symbol a p = 0) \/
  ([a] <> [0] /\ [a ^ ((p - 1) / 2)] = [1] /\ legendre_symbol a p = 1) \/
  ([a] <> [0] /\ [a ^ ((p - 1) / 2)] = [-1] /\ legendre_symbol a p = -1).
Proof.
  destruct p_odd as (h & E & H & HE). unfold legendre_symbol. cbn zeta. rewrite HE.
  pose proof (of_powmod a h ltac:(lia)) as PE. pose proof (powmod_range a h ltac:(lia)) as R.
  destruct minus_one as (M1 & M2 & M3).
  destruct (fp_eq_dec p [a] [0]) as [Z|Z].
  - left. split; [exact Z|]. rewrite of_pow_zero in PE by (lia || exact Z). apply of_range in PE; [|lia|lia].
    rewrite PE. destruct (Z.eqb_spec 0 (p - 1)); [lia|reflexivity].
  - right. destruct (half_pow a Z) as [K|K]; rewrite HE in K; [left|right]; (split; [exact Z|]; split; [exact K|]).
    + rewrite K in PE. apply of_range in PE; [|lia|lia]. rewrite PE. destruct (Z.eqb_spec 1 (p - 1)); [lia|reflexivity].
    + rewrite K, M2 in PE. apply of_range in PE; [|lia|lia]. rewrite PE, Z.eqb_refl. reflexivity.
Qed.
Lemma square_half a x : [x * x] = [a] -> [a] <> [0] -> [a ^ ((p - 1) / 2)] = [1].
Proof.
  intros S N. destruct p_odd as (h & E & H & ->). rewrite <- (of_pow_ext (x * x) a) by (lia || exact S).
  rewrite Z.pow_mul_l, <- Z.pow_add_r by lia. replace (h + h) with (p - 1) by lia. apply fermat_of.
  intros X. apply N. rewrite <- S, of_mul, X. ring.
Qed.

(** Tonelli-Shanks *)
Lemma split_twos_spec f : forall s e, 1 <= s < 2 ^ (Z.of_nat f + 1) -> 0 <= e ->
  exists s' e', split_twos f s e = Some (s', e') /\ s * 2 ^ e = s' * 2 ^ e' /\ s' mod 2 = 1 /\ 1 <= s' /\ e <= e' /\ (s mod 2 = 0 -> e < e').
Proof.
  induction f as [|f IH]; intros s e L E; cbn [split_twos].
  - assert (s = 1) by (change (2 ^ (Z.of_nat 0 + 1)) with 2 in L; lia). subst s. cbn. exists 1, e. repeat split; lia.
  - pose proof (Z.mod_pos_bound s 2 ltac:(lia)). destruct (Z.eqb_spec (s mod 2) 0) as [M|M]; cbn [negb].
    + pose proof (Z.div_mod s 2 ltac:(lia)). destruct (IH (s / 2) (e + 1)) as (s' & e' & -> & A & B & C & D & _).
      * replace (Z.of_nat (S f) + 1) with (Z.of_nat f + 1 + 1) in L by lia. rewrite Z.pow_add_r, Z.pow_1_r in L by lia. lia.
      * lia.
      * exists s', e'. split; [reflexivity|]. rewrite <- A. rewrite Z.pow_add_r, Z.pow_1_r by lia.
        split; [|lia]. rewrite H0 at 1. rewrite M. ring.
    + exists s, e. split; [reflexivity|]. lia.
Qed.
Lemma find_nonresidue_spec f : forall n n0, n <= n0 <= n + Z.of_nat f -> legendre_symbol n0 p = -1 ->
  exists r, find_nonresidue f n p = Some r /\ legendre_symbol r p = -1.
Proof.
  induction f as [|f IH]; intros n n0 N L; cbn [find_nonresidue]; destruct (Z.eqb_spec (legendre_symbol n p) (-1)) as [E|E]; eauto.
  - replace n with n0 in E by lia. contradiction.
  - apply (IH (n + 1) n0); [|exact L]. assert (n <> n0) by congruence. lia.
Qed.
Lemma nonresidue_exists : exists n, 2 <= n < p /\ legendre_symbol n p = -1.
Proof.
  destruct p_odd as (h & E & H & HE). destruct (exists_nonroot h) as (n & N & NE); [lia|].
  exists n. pose proof (proj1 (units_in p n) N) as R.
  assert (n <> 1) by (intros ->; apply NE; apply of_pow_one; lia). split; [lia|].
  destruct (legendre_cases n) as [(A & _)|[(_ & A & _)|(_ & _ & A)]]; [|rewrite HE in A; contradiction|exact A].
  exfalso. exact (unit_of _ N A).
Qed.
Lemma ts_order_spec k : forall m t last, 0 <= t < p -> (exists j, 0 <= j < Z.of_nat k /\ [t ^ (2 ^ j)] = [1]) ->
  exists j, ts_order k m t p last = m + j /\ 0 <= j < Z.of_nat k /\ [t ^ (2 ^ j)] = [1] /\ (0 < j -> [t ^ (2 ^ (j - 1))] = [-1]).
Proof.
  induction k as [|k IH]; intros m t last R (j & J & E); [cbn in J; lia|]. cbn [ts_order].
  destruct (Z.eqb_spec t 1) as [->|N].
  - exists 0. split; [lia|]. split; [lia|]. split; [reflexivity|lia].
  - assert (J0 : 0 < j).
    { assert (j <> 0); [|lia]. intros ->. change (2 ^ 0) with 1 in E. rewrite Z.pow_1_r in E. pose proof p_gt1. apply of_range in E; lia. }
    assert (SQ : forall i, 0 < i -> [powmod t 2 p ^ (2 ^ (i - 1))] = [t ^ (2 ^ i)]).
    { intros i I. replace (2 ^ i) with (2 ^ (i - 1 + 1)) by (f_equal; lia). rewrite pow_double by lia.
      apply of_pow_ext; [apply Z.pow_nonneg; lia|]. rewrite of_powmod by lia. f_equal. ring. }
    destruct (IH (m + 1) (powmod t 2 p) m) as (i & I1 & I2 & I3 & I4).
    + apply powmod_range. lia.
    + exists (j - 1). split; [lia|]. rewrite SQ by lia. exact E.
    + exists (i + 1). rewrite I1. split; [lia|]. split; [lia|].
      rewrite <- SQ by lia. replace (i + 1 - 1) with i by lia. split; [exact I3|]. intros _.
      destruct (Z.eq_dec i 0) as [->|NI].
      * change (2 ^ 0) with 1 in *. rewrite Z.pow_1_r in *. rewrite of_powmod in I3 by lia. rewrite Z.pow_2_r in I3.
        apply square_one in I3. destruct I3 as [I3|I3]; [|exact I3]. pose proof p_gt1. apply of_range in I3; lia.
      * rewrite <- SQ by lia. apply I4. lia.
Qed.
Lemma ts_loop_spec f : forall a x b g r, 1 <= r <= Z.of_nat f + 1 -> 0 <= b < p -> 0 <= x < p ->
  [x * x] = [a * b] -> [b ^ (2 ^ (r - 1))] = [1] -> [g ^ (2 ^ (r - 1))] = [-1] ->
  exists x', ts_loop f x b g r p = Some x' /\ [x' * x'] = [a] /\ 0 <= x' < p.
Proof.
  induction f as [|f IH]; intros a x b g r R B X SQ BO GO; cbn [ts_loop]; cbn zeta;
    (destruct (ts_order_spec (Z.to_nat r) 0 b 0 B) as (m & -> & M1 & M2 & M3);
     [exists (r - 1); split; [lia|exact BO]|]); cbn [Z.add];
    (destruct (Z.eqb_spec m 0) as [->|N];
     [exists x; split; [reflexivity|]; split; [|exact X]; change (2 ^ 0) with 1 in M2; rewrite Z.pow_1_r in M2;
      rewrite SQ, of_mul, M2; ring|]).
  - lia.
  - pose proof p_gt1. set (gs := powmod g (2 ^ (r - m - 1)) p).
    assert (G2 : [gs * gs] = [g ^ (2 ^ (r - m))]).
    { replace (2 ^ (r - m)) with (2 ^ (r - m - 1 + 1)) by (f_equal; lia). rewrite pow_double' by lia.
      rewrite !of_mul. unfold gs. rewrite of_powmod by (apply Z.pow_nonneg; lia). reflexivity. }
    assert (GP : forall i, 0 <= i -> [((gs * gs) mod p) ^ (2 ^ i)] = [g ^ (2 ^ (r - m + i))]).
    { intros i I. rewrite of_pow_mod by (apply Z.pow_nonneg; lia).
      rewrite (of_pow_ext _ _ (2 ^ i) ltac:(apply Z.pow_nonneg; lia) G2). rewrite Z.pow_add_r by lia.
      rewrite <- Z.pow_mul_r by (apply Z.pow_nonneg; lia). reflexivity. }
    clearbody gs. apply IH; try (apply Z.mod_pos_bound; lia).
    + clear - R M1 N. lia.
    + rewrite !of_mul, !of_mod, !of_mul, !of_mod, of_mul in *. transitivity (([x] *! [x]) *! ([gs] *! [gs])); [ring|]. rewrite SQ. ring.
    + rewrite of_pow_mod by (apply Z.pow_nonneg; lia). rewrite Z.pow_mul_l, of_mul, GP by lia.
      replace (r - m + (m - 1)) with (r - 1) by lia. rewrite M3, GO by lia. apply minus_one.
    + rewrite GP by lia. replace (r - m + (m - 1)) with (r - 1) by lia. exact GO.
Qed.
Lemma modular_sqrt_root a : [a] <> [0] -> [a ^ ((p - 1) / 2)] = [1] ->
  exists x, modular_sqrt a p = Ok x /\ [x * x] = [a] /\ 0 < x < p.
Proof.
  intros N HP. assert (POS : forall x, 0 <= x < p -> [x * x] = [a] -> 0 < x < p).
  { intros x X E. assert (x <> 0); [|lia]. intros ->. apply N. rewrite <- E. reflexivity. }
  unfold modular_sqrt. destruct (legendre_cases a) as [(A & _)|[(_ & _ & A)|(_ & A & _)]]; [contradiction| |].
  2: { exfalso. apply (proj1 minus_one). congruence. }
  rewrite A. cbn [Z.eqb Pos.eqb negb]. destruct (Z.eqb_spec a 0) as [->|_]; [contradiction N; reflexivity|].
  destruct (Z.eqb_spec p 2) as [|_]; [contradiction|]. pose proof p_gt1. destruct p_odd as (h & PE & H1 & HE).
  destruct (Z.eqb_spec (p mod 4) 3) as [M|M].
  - assert (Q : exists q, p = 4 * q + 3 /\ (p + 1) / 4 = q + 1 /\ 0 <= q).
    { exists (p / 4). pose proof (Z.div_mod p 4 ltac:(lia)). split; [lia|]. split; [|apply Z.div_pos; lia].
      symmetry. apply (Z.div_unique _ 4 _ 0); lia. }
    destruct Q as (q & Q1 & -> & Q2). assert (E : [powmod a (q + 1) p * powmod a (q + 1) p] = [a]).
    { rewrite of_mul, of_powmod by lia. rewrite <- of_mul, <- Z.pow_add_r by lia.
      replace (q + 1 + (q + 1)) with (h + 1) by lia. rewrite Z.pow_add_r, Z.pow_1_r, of_mul by lia. rewrite <- HE, HP. ring. }
    eexists. split; [reflexivity|]. split; [exact E|]. apply POS; [apply powmod_range; lia|exact E].
  - destruct (split_twos_spec (Z.to_nat (Z.log2 p)) (p - 1) 0) as (s & e & -> & S1 & S2 & S3 & _ & S4).
    + pose proof (Z.log2_nonneg p). rewrite Z2Nat.id by lia. pose proof (Z.log2_spec p ltac:(lia)). unfold Z.succ in *. lia.
    + lia.
    + assert (EP : 0 < e). { apply S4. replace (p - 1) with (h * 2) by lia. apply Z_mod_mult. }
      rewrite Z.mul_1_r in S1. assert (SH : h = s * 2 ^ (e - 1)).
      { replace e with (e - 1 + 1) in S1 by lia. rewrite Z.pow_add_r, Z.pow_1_r in S1 by lia. lia. }
      destruct nonresidue_exists as (n0 & R0 & L0).
      destruct (find_nonresidue_spec (Z.to_nat p) 2 n0) as (n & -> & LN); [lia|exact L0|].
      assert (NP : [n ^ h] = [-1]).
      { rewrite HE in *. destruct (legendre_cases n) as [(_ & K)|[(_ & _ & K)|(_ & K & _)]]; [congruence|congruence|]. rewrite HE in K. exact K. }
      assert (SS : exists t, s = 2 * t + 1 /\ (s + 1) / 2 = t + 1 /\ 0 <= t).
      { exists (s / 2). pose proof (Z.div_mod s 2 ltac:(lia)). split; [lia|]. split; [|apply Z.div_pos; lia].
        symmetry. apply (Z.div_unique _ 2 _ 0); lia. }
      destruct SS as (t & T1 & T2 & T3). rewrite T2.
      destruct (ts_loop_spec (Z.to_nat e) a (powmod a (t + 1) p) (powmod a s p) (powmod n s p) e) as (x & -> & X1 & X2).
      * lia.
      * apply powmod_range. lia.
      * apply powmod_range. lia.
      * rewrite !of_mul, !of_powmod by lia. rewrite <- !of_mul. f_equal. rewrite <- Z.pow_add_r, <- Z.pow_succ_r by lia. f_equal. lia.
      * rewrite (of_pow_ext _ _ (2 ^ (e - 1)) ltac:(apply Z.pow_nonneg; lia) (of_powmod a s ltac:(lia))).
        rewrite <- Z.pow_mul_r by (lia || apply Z.pow_nonneg; lia). rewrite <- SH, <- HE. exact HP.
      * rewrite (of_pow_ext _ _ (2 ^ (e - 1)) ltac:(apply Z.pow_nonneg; lia) (of_powmod n s ltac:(lia))).
        rewrite <- Z.pow_mul_r by (lia || apply Z.pow_nonneg; lia). rewrite <- SH. exact NP.
      * exists x. split; [reflexivity|]. split; [exact X1|]. apply POS; assumption.
Qed.
End Odd.
End Prime.
