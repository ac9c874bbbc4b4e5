(** The integers modulo a prime as a field. *)
From Coq Require Import ZArith Znumtheory Lia Bool Eqdep_dec Field Permutation List.
Import ListNotations.
Open Scope Z_scope.

(** ** residues *)
Record fp (p : Z) := Fp { fv : Z; fok : (fv =? fv mod p) = true }.
Arguments fv {p}. Arguments fok {p}. Arguments Fp {p}.

Lemma fp_eq p (a b : fp p) : fv a = fv b -> a = b.
Proof. destruct a as [a A], b as [b B]. cbn. intros ->. f_equal. apply UIP_dec, bool_dec. Qed.
Lemma of_ok p z : (z mod p =? (z mod p) mod p) = true.
Proof.
  apply Z.eqb_eq. destruct (Z.eq_dec p 0) as [->|N]; [rewrite !Zmod_0_r; reflexivity|]. symmetry. apply Zmod_mod.
Qed.
Definition of (p z : Z) : fp p := Fp (z mod p) (of_ok p z).
Lemma of_eq p a b : of p a = of p b <-> a mod p = b mod p.
Proof. split; [intros H; exact (f_equal fv H)|intros H; apply fp_eq; exact H]. Qed.
Lemma of_fv p (a : fp p) : of p (fv a) = a.
Proof. apply fp_eq. cbn. symmetry. apply Z.eqb_eq, fok. Qed.
Lemma fv_range p (a : fp p) : 0 < p -> 0 <= fv a < p.
Proof. intros P. pose proof (fok a) as E. apply Z.eqb_eq in E. rewrite E. apply Z.mod_pos_bound, P. Qed.

Definition fadd {p} (a b : fp p) : fp p := of p (fv a + fv b).
Definition fmul {p} (a b : fp p) : fp p := of p (fv a * fv b).
Definition fsub {p} (a b : fp p) : fp p := of p (fv a - fv b).
Definition fopp {p} (a : fp p) : fp p := of p (- fv a).
(** the inverse of a non-zero residue, by Bezout *)
Definition bezout (a b : Z) : Z := match euclid a b with Euclid_intro _ _ u _ _ _ _ => u end.
Definition finv {p} (a : fp p) : fp p :=
  of p (let u := bezout (fv a) p in u * (u * fv a)).
Definition fdiv {p} (a b : fp p) : fp p := fmul a (finv b).

Lemma of_add p a b : of p (a + b) = fadd (of p a) (of p b).
Proof. apply of_eq. cbn. apply Zplus_mod. Qed.
Lemma of_mul p a b : of p (a * b) = fmul (of p a) (of p b).
Proof. apply of_eq. cbn. apply Zmult_mod. Qed.
Lemma of_sub p a b : of p (a - b) = fsub (of p a) (of p b).
Proof. apply of_eq. cbn. apply Zminus_mod. Qed.
Lemma of_opp p a : of p (- a) = fopp (of p a).
Proof. apply of_eq. cbn. change (- a) with (0 - a). change (- (a mod p)) with (0 - a mod p). symmetry. apply Zminus_mod_idemp_r. Qed.

Lemma fp_ring p : ring_theory (of p 0) (of p 1) fadd fmul fsub fopp (@eq (fp p)).
Proof.
  constructor; intros;
    repeat match goal with x : fp p |- _ => rewrite <- (of_fv p x); generalize (fv x); clear x; intros x end;
    rewrite <- ?of_opp, <- ?of_add, <- ?of_mul, <- ?of_sub; rewrite <- ?of_add, <- ?of_mul; f_equal; ring.
Qed.

Section Prime.
Context {p : Z} (PR : prime p).
Lemma p_pos : 1 < p. Proof. destruct PR; assumption. Qed.
Lemma of_zero a : of p a = of p 0 <-> (p | a).
Proof. pose proof p_pos. rewrite of_eq, Zmod_0_l. split; intros H0; [apply Zmod_divide; lia|apply Zdivide_mod, H0]. Qed.
Lemma bezout_one a : ~ (p | a) -> exists v, a * v mod p = 1 /\ v = (let u := bezout a p in u * (u * a)).
Proof.
  intros N. cbn zeta. eexists. split; [|reflexivity]. unfold bezout. destruct (euclid a p) as [u v d E D].
  assert (R : rel_prime p a) by (apply prime_rel_prime; assumption).
  assert (G : d = 1 \/ d = -1).
  { destruct R as [_ _ R]. destruct D as [D1 D2 _]. specialize (R d D2 D1). apply Zdivide_1 in R. exact R. }
  pose proof p_pos. assert (K : (u * a) * (u * a) = 1 + p * (v * (p * v - 2 * d))).
  { replace (u * a) with (d - v * p) by lia. destruct G as [-> | ->]; ring. }
  replace (a * (u * (u * a))) with ((u * a) * (u * a)) by ring. rewrite K.
  rewrite Z.mul_comm, Z_mod_plus_full. apply Zmod_1_l. lia.
Qed.
Lemma fp_field : field_theory (of p 0) (of p 1) fadd fmul fsub fopp fdiv finv (@eq (fp p)).
Proof.
  pose proof p_pos. constructor; [apply fp_ring| |reflexivity|].
  - intros E. apply of_eq in E. rewrite Zmod_0_l, Zmod_1_l in E; lia.
  - intros a N. destruct (bezout_one (fv a)) as (v & V & ->).
    + intros D. apply N. apply of_zero in D. rewrite of_fv in D. exact D.
    + rewrite Z.mul_comm in V. transitivity (fmul (finv a) (of p (fv a))); [rewrite of_fv; reflexivity|]. unfold finv.
      rewrite <- of_mul. apply of_eq. etransitivity; [exact V|]. symmetry. apply Zmod_1_l. lia.
Qed.
Lemma fmul_zero (a b : fp p) : fmul a b = of p 0 -> a = of p 0 \/ b = of p 0.
Proof.
  intros H. rewrite <- (of_fv p a), <- (of_fv p b), <- of_mul in H. apply of_zero in H.
  apply prime_mult in H; [|exact PR]. destruct H as [H|H]; apply of_zero in H; rewrite of_fv in H; auto.
Qed.
End Prime.

Lemma fp_eq_dec p (a b : fp p) : {a = b} + {a <> b}.
Proof. destruct (Z.eq_dec (fv a) (fv b)) as [E|E]; [left; apply fp_eq, E|right; congruence]. Qed.
