(** When the group of a generator is large enough, it is the whole curve. *)
From Coq Require Import ZArith Znumtheory Lia Bool List.
From Verif Require Import Base M_Keys M_EC S_EC P_Field P_Group P_EC P_ECProps P_ECDSA.
Import ListNotations.
Open Scope Z_scope.

(** distinct integers below a bound *)
Lemma pigeon (l : list Z) m : NoDup l -> (forall z, In z l -> 0 <= z < m) -> Z.of_nat (length l) <= Z.max 0 m.
Proof.
  intros ND B. assert (L : (length l <= length (map Z.of_nat (seq 0 (Z.to_nat m))))%nat).
  { apply NoDup_incl_length; [exact ND|]. intros z I. specialize (B z I). apply in_map_iff. exists (Z.to_nat z).
    split; [lia|]. apply List.in_seq. lia. }
  rewrite map_length, seq_length in L. lia.
Qed.
Lemma NoDup_map_on {A B} (f : A -> B) l : NoDup l -> (forall x y, In x l -> In y l -> f x = f y -> x = y) -> NoDup (map f l).
Proof.
  induction 1 as [|x l NI ND IH]; intros J; [constructor|]. cbn [map]. constructor.
  - intros I. apply in_map_iff in I. destruct I as (y & E & I). apply NI. rewrite (J x y); [exact I|left; reflexivity|right; exact I|congruence].
  - apply IH. intros u v U W. apply J; right; assumption.
Qed.
Lemma NoDup_app_on {A} (l m : list A) : NoDup l -> NoDup m -> (forall x, In x l -> In x m -> False) -> NoDup (l ++ m).
Proof.
  induction 1 as [|x l NI ND IH]; intros NM D; [exact NM|]. cbn [app]. constructor.
  - intros I. apply in_app_or in I. destruct I as [I|I]; [exact (NI I)|exact (D x (or_introl eq_refl) I)].
  - apply IH; [exact NM|]. intros y I. apply D. right. exact I.
Qed.

Section C.
Context (c : curve) (PR : prime (c_p c)) (OD : c_p c <> 2) (N2 : no_two_torsion c).
Notation p := (c_p c).
Context (gx gy n : Z) (PN : prime n).
Notation G := (PAff gx gy (Some n)).
Context (V : valid c G).
Notation g := (emb c G).
Notation ca := (of p (c_a c)).
Notation cb := (of p (c_b c)).
Context (ORD : gmul c (Z.to_nat n) g = GInf).
Notation zG := (zG c gx gy n).
Notation gon := (gon ca cb).
Notation "A ++. B" := (gadd ca A B) (at level 50, left associativity).
Let NS : nonsingular c := no_two_nonsing c N2.

Lemma z_on k : gon (zG k). Proof. exact (zG_on c PR OD gx gy n V k). Qed.
Lemma z_add j k : zG j ++. zG k = zG (j + k). Proof. exact (zG_add c PR OD N2 gx gy n PN V ORD j k). Qed.
Lemma add_on A B : gon A -> gon B -> gon (A ++. B). Proof. exact (gadd_on PR ca cb OD A B). Qed.
Lemma assoc A B C : gon A -> gon B -> gon C -> A ++. B ++. C = A ++. (B ++. C). Proof. exact (gadd_assoc PR ca cb OD (NSF c NS) A B C). Qed.
Lemma comm A B : gon A -> gon B -> A ++. B = B ++. A. Proof. exact (gadd_comm PR ca cb OD A B). Qed.
Lemma cancel A B C : gon A -> gon B -> gon C -> A ++. B = A ++. C -> B = C.
Proof.
  intros OA OB OC E. rewrite <- (gcancel PR ca cb OD (NSF c NS) A B OA OB), <- (gcancel PR ca cb OD (NSF c NS) A C OA OC), E. reflexivity.
Qed.
(** moving a multiple of the generator to the other side *)
Lemma move A i j : gon A -> A ++. zG i = zG j -> A = zG (j - i).
Proof.
  intros OA E. apply (cancel (zG i)); [apply z_on|exact OA|apply z_on|]. rewrite comm by (exact OA || apply z_on). rewrite E, z_add. f_equal. lia.
Qed.

(** ** the number of points *)
Definition code (P : gpt p) : Z := match P with GInf => 0 | GAff x y => 1 + 2 * fv x + fv y mod 2 end.
Lemma code_range P : 0 <= code P < 2 * p + 1.
Proof.
  pose proof (p_pos PR). destruct P as [|x y]; cbn [code]; [lia|]. pose proof (fv_range p x ltac:(lia)). pose proof (Z.mod_pos_bound (fv y) 2 ltac:(lia)). lia.
Qed.
Lemma code_inj P Q : gon P -> gon Q -> code P = code Q -> P = Q.
Proof.
  intros A B E. pose proof (p_pos PR). destruct P as [|x y], Q as [|x' y']; cbn [code] in E; [reflexivity| | |].
  1, 2: exfalso. 1: pose proof (fv_range p x' ltac:(lia)); pose proof (Z.mod_pos_bound (fv y') 2 ltac:(lia)); lia.
  1: pose proof (fv_range p x ltac:(lia)); pose proof (Z.mod_pos_bound (fv y) 2 ltac:(lia)); lia.
  pose proof (Z.mod_pos_bound (fv y) 2 ltac:(lia)). pose proof (Z.mod_pos_bound (fv y') 2 ltac:(lia)).
  assert (EX : fv x = fv x') by lia. assert (EY : fv y mod 2 = fv y' mod 2) by lia. apply fp_eq in EX. subst x'. f_equal.
  destruct (fp_eq_dec p (fadd y y') (of p 0)) as [S|S]; [|exact (on_same_x PR ca cb x y y' A B S)].
  assert (D : (fv y + fv y') mod p = 0 mod p) by (apply of_eq; exact S). rewrite Zmod_0_l in D.
  pose proof (fv_range p y ltac:(lia)). pose proof (fv_range p y' ltac:(lia)). apply fp_eq.
  assert (O : p mod 2 = 1).
  { pose proof (Z.mod_pos_bound p 2 ltac:(lia)). destruct (Z.eq_dec (p mod 2) 0) as [Z|]; [|lia]. exfalso.
    assert (Dv : (2 | p)) by (apply Z.mod_divide; lia). pose proof (prime_divisors p PR 2 Dv). lia. }
  destruct (Z.ltb_spec (fv y + fv y') p).
  - rewrite Z.mod_small in D by lia. lia.
  - exfalso. replace (fv y + fv y') with (fv y + fv y' - p + 1 * p) in D by lia. rewrite Z_mod_plus_full, Z.mod_small in D by lia.
    assert (X : p = fv y + fv y') by lia. rewrite X in O. rewrite Zplus_mod, EY, <- Zplus_mod in O.
    replace (fv y' + fv y') with (0 + fv y' * 2) in O by lia. rewrite Z_mod_plus_full in O. cbn in O. lia.
Qed.
Lemma points_bound l : NoDup l -> (forall P, In P l -> gon P) -> Z.of_nat (length l) <= 2 * p + 1.
Proof.
  intros ND O. pose proof (p_pos PR). rewrite <- (map_length code). etransitivity; [apply (pigeon _ (2 * p + 1))|lia].
  - apply NoDup_map_on; [exact ND|]. intros x y I J. apply code_inj; apply O; assumption.
  - intros z I. apply in_map_iff in I. destruct I as (P & <- & _). apply code_range.
Qed.

(** ** the multiples of the generator *)
Definition sub : list (gpt p) := map (fun i => zG (Z.of_nat i)) (seq 0 (Z.to_nat n)).
Lemma sub_in P : In P sub <-> exists k, P = zG k.
Proof.
  pose proof (n_gt1 n PN). unfold sub. rewrite in_map_iff. split.
  - intros (i & <- & _). eauto.
  - intros (k & ->). exists (Z.to_nat (k mod n)). pose proof (Z.mod_pos_bound k n ltac:(lia)). split.
    + rewrite Z2Nat.id by lia. apply zG_mod. apply Z.mod_mod. lia.
    + apply List.in_seq. lia.
Qed.
Lemma sub_nodup : NoDup sub.
Proof.
  pose proof (n_gt1 n PN). apply NoDup_map_on; [apply seq_NoDup|]. intros i j I J E. apply (zG_inj c PR OD N2 gx gy n PN V ORD) in E.
  apply List.in_seq in I, J. rewrite !Z.mod_small in E by lia. lia.
Qed.
Lemma sub_length : Z.of_nat (length sub) = n.
Proof. pose proof (n_gt1 n PN). unfold sub. rewrite map_length, seq_length. lia. Qed.
Lemma gpt_dec (P Q : gpt p) : {P = Q} + {P <> Q}.
Proof. decide equality; apply fp_eq_dec. Qed.

Context (N3 : 2 < n) (BIG : 2 * p + 1 < 3 * n).
Lemma twice_in P : gon P -> ~ (exists k, P = zG k) -> exists m, P ++. P = zG m.
Proof.
  intros O NI. assert (O2 : gon (P ++. P)) by (apply add_on; assumption).
  destruct (in_dec gpt_dec (P ++. P) sub) as [I|NI2]; [apply sub_in, I|exfalso].
  assert (NI3 : ~ (exists k, P ++. P = zG k)) by (intros H; apply NI2, sub_in, H). clear NI2.
  set (l := sub ++ map (gadd ca P) sub ++ map (gadd ca (P ++. P)) sub).
  assert (ON : forall Q, In Q l -> gon Q).
  { intros Q I. unfold l in I. rewrite !in_app_iff, !in_map_iff in I. destruct I as [I|[(R & <- & I)|(R & <- & I)]];
      apply sub_in in I; destruct I as (k & ->); [apply z_on|apply add_on; [exact O|apply z_on]|apply add_on; [exact O2|apply z_on]]. }
  assert (J : forall A, gon A -> NoDup (map (gadd ca A) sub)).
  { intros A OA. apply NoDup_map_on; [exact sub_nodup|]. intros x y X Y. apply sub_in in X, Y. destruct X as (i & ->), Y as (j & ->).
    apply cancel; [exact OA|apply z_on|apply z_on]. }
  assert (ND : NoDup l).
  { unfold l. apply NoDup_app_on; [exact sub_nodup|apply NoDup_app_on; [exact (J P O)|exact (J _ O2)|]|].
    - intros x X Y. apply in_map_iff in X, Y. destruct X as (u & <- & X), Y as (v & E & Y). apply sub_in in X, Y. destruct X as (i & ->), Y as (j & ->).
      rewrite assoc in E by (exact O || apply z_on). apply cancel in E; [|exact O|apply add_on; [exact O|apply z_on]|apply z_on].
      apply move in E; [|exact O]. apply NI. eauto.
    - intros x X Y. apply sub_in in X. destruct X as (i & ->). rewrite in_app_iff, !in_map_iff in Y. destruct Y as [(v & E & Y)|(v & E & Y)];
        apply sub_in in Y; destruct Y as (j & ->); apply move in E; try assumption; [apply NI|apply NI3]; eauto. }
  pose proof (points_bound l ND ON) as B. unfold l in B. rewrite !app_length, !map_length in B. pose proof sub_length. lia.
Qed.
(** every point is a multiple of the generator *)
Lemma all_multiples P : gon P -> exists k, P = zG k.
Proof.
  intros O. destruct (in_dec gpt_dec P sub) as [I|NI]; [apply sub_in, I|].
  assert (NI' : ~ (exists k, P = zG k)) by (intros H; apply NI, sub_in, H). clear NI.
  destruct (twice_in P O NI') as (m & E). pose proof (n_gt1 n PN).
  assert (OD2 : exists h, n = 2 * h - 1).
  { pose proof (Z.mod_pos_bound n 2 ltac:(lia)). destruct (Z.eq_dec (n mod 2) 0) as [Z|Z].
    - exfalso. assert (Dv : (2 | n)) by (apply Z.mod_divide; lia). pose proof (prime_divisors n PN 2 Dv). lia.
    - exists (n / 2 + 1). pose proof (Z.div_mod n 2 ltac:(lia)). lia. }
  destruct OD2 as (h & EH). set (Q := P ++. zG (- (m * h))). assert (OQ : gon Q) by (apply add_on; [exact O|apply z_on]).
  assert (Q2 : Q ++. Q = GInf).
  { unfold Q at 1. rewrite assoc by (exact O || exact OQ || apply z_on). rewrite (comm (zG _) Q) by (exact OQ || apply z_on). unfold Q. rewrite assoc by (exact O || apply z_on).
    rewrite z_add. rewrite <- assoc by (exact O || apply z_on). rewrite E, z_add. apply (zG_inf c PR OD N2 gx gy n PN V ORD).
    replace (m + (- (m * h) + - (m * h))) with ((- m) * n) by (rewrite EH; lia). apply Z_mod_mult. }
  destruct Q as [|x y] eqn:EQ.
  - exists (m * h). unfold Q in EQ. rewrite <- (zG_0 c gx gy n) in EQ. apply move in EQ; [|exact O]. rewrite EQ. f_equal. lia.
  - exfalso. apply (gadd_inf_iff PR ca cb OD) in Q2; try exact OQ. destruct Q2 as (_ & Y). apply (half0 PR OD) in Y.
    rewrite <- (of_fv p x), <- (of_fv p y) in OQ. apply (y_neq0 c N2) in OQ. rewrite of_fv in OQ. contradiction.
Qed.
End C.
