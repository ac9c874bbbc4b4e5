(** The group law of an elliptic curve over the integers modulo a prime. *)
From Coq Require Import ZArith Znumtheory Lia Bool Field List.
From Verif Require Import P_Field.
Open Scope Z_scope.

Declare Scope F_scope.
Delimit Scope F_scope with F.

Inductive gpt (p : Z) := GInf | GAff (x y : fp p).
Arguments GInf {p}. Arguments GAff {p}.

Section Curve.
Context {p : Z} (PR : prime p) (a b : fp p).
Notation F := (fp p).
Notation "0" := (of p 0) : F_scope.
Notation "1" := (of p 1) : F_scope.
Infix "+" := (@fadd p) : F_scope.
Infix "*" := (@fmul p) : F_scope.
Infix "-" := (@fsub p) : F_scope.
Infix "/" := (@fdiv p) : F_scope.
Notation "- x" := (@fopp p x) : F_scope.
Notation "2" := (1 + 1)%F : F_scope.
Notation "3" := (1 + 1 + 1)%F : F_scope.
Open Scope F_scope.
Add Field Ffield2 : (fp_field PR).

Lemma sub0 (x y : F) : x - y = 0 -> x = y.
Proof. intros H. transitivity (x - y + y); [ring|]. rewrite H. ring. Qed.
Lemma sub_neq (x y : F) : x <> y -> x - y <> 0.
Proof. intros H E. apply H, sub0, E. Qed.
Lemma fcancel (c x y : F) : c <> 0 -> c * x = c * y -> x = y.
Proof.
  intros N H. assert (Z : c * (x - y) = 0) by (transitivity (c * x - c * y); [ring|rewrite H; ring]).
  apply (fmul_zero PR) in Z. destruct Z as [Z|Z]; [contradiction|apply sub0, Z].
Qed.
(** use of a hypothesis [l = r] with a cofactor [c] *)
Lemma cmb (l r : F) (c : F) A B : l = r -> A = B + c * (l - r) -> A = B.
Proof. intros -> ->. ring. Qed.

(** ** the curve and its addition *)
Definition gon (P : gpt p) : Prop := match P with GInf => True | GAff x y => y * y = x * x * x + a * x + b end.
Definition gneg (P : gpt p) : gpt p := match P with GInf => GInf | GAff x y => GAff x (- y) end.
Definition third (x1 y1 x2 l : F) : gpt p := GAff (l * l - x1 - x2) (l * (x1 - (l * l - x1 - x2)) - y1).
Definition gadd (P Q : gpt p) : gpt p :=
  match P, Q with
  | GInf, _ => Q
  | _, GInf => P
  | GAff x1 y1, GAff x2 y2 =>
      if fp_eq_dec p x1 x2 then
        if fp_eq_dec p (y1 + y2) 0 then GInf else third x1 y1 x2 ((3 * x1 * x1 + a) / (2 * y1))
      else third x1 y1 x2 ((y2 - y1) / (x2 - x1))
  end.

(** [l] is the slope of the line through two points (the tangent if they coincide) *)
Definition slope (x1 y1 x2 y2 l : F) : Prop :=
  y1 - y2 = l * (x1 - x2) /\ l * (y1 + y2) = x1 * x1 + x1 * x2 + x2 * x2 + a.
Definition opposite (x1 y1 x2 y2 : F) : Prop := x1 = x2 /\ y1 + y2 = 0.

Lemma slope_sym x1 y1 x2 y2 l : slope x1 y1 x2 y2 l -> slope x2 y2 x1 y1 l.
Proof. intros (S1 & S2). split; [apply (cmb _ _ (- (1)) _ _ S1)|apply (cmb _ _ 1 _ _ S2)]; ring. Qed.
Lemma slope_neg x1 y1 x2 y2 l : slope x1 y1 x2 y2 l -> slope x1 (- y1) x2 (- y2) (- l).
Proof. intros (S1 & S2). split; [apply (cmb _ _ (- (1)) _ _ S1)|apply (cmb _ _ 1 _ _ S2)]; ring. Qed.

Lemma on_same_x x y1 y2 : gon (GAff x y1) -> gon (GAff x y2) -> y1 + y2 <> 0 -> y1 = y2.
Proof.
  cbn. intros A B N. apply (fcancel (y1 + y2)); [exact N|]. apply (cmb _ _ 1 _ _ A), (cmb _ _ (- (1)) _ _ B). ring.
Qed.
Lemma slope_unique x1 y1 x2 y2 l m : gon (GAff x1 y1) -> gon (GAff x2 y2) -> ~ opposite x1 y1 x2 y2 ->
  slope x1 y1 x2 y2 l -> slope x1 y1 x2 y2 m -> l = m.
Proof.
  intros A B N (L1 & L2) (M1 & M2). destruct (fp_eq_dec p x1 x2) as [->|NX].
  - apply (fcancel (y1 + y2)).
    + intros E. apply N. split; [reflexivity|exact E].
    + apply (cmb _ _ 1 _ _ L2), (cmb _ _ (- (1)) _ _ M2). ring.
  - apply (fcancel (x1 - x2)); [apply sub_neq, NX|]. apply (cmb _ _ (- (1)) _ _ L1), (cmb _ _ 1 _ _ M1). ring.
Qed.

Section Char.
Context (OD : p <> 2%Z).
Lemma two_neq0 : 2 <> 0.
Proof.
  rewrite <- of_add. change (1 + 1)%Z with 2%Z. intros E. apply (of_zero PR) in E.
  apply prime_div_prime in E; [contradiction|exact PR|exact prime_2].
Qed.
Lemma half0 y : y + y = 0 -> y = 0.
Proof. intros H. apply (fcancel 2); [exact two_neq0|]. transitivity (y + y); [ring|]. rewrite H. ring. Qed.

Lemma gadd_slope_ex x1 y1 x2 y2 : gon (GAff x1 y1) -> gon (GAff x2 y2) -> ~ opposite x1 y1 x2 y2 ->
  exists l, slope x1 y1 x2 y2 l /\ gadd (GAff x1 y1) (GAff x2 y2) = third x1 y1 x2 l.
Proof.
  intros A B N. cbn [gadd]. destruct (fp_eq_dec p x1 x2) as [->|NX].
  - destruct (fp_eq_dec p (y1 + y2) 0) as [E|E]; [exfalso; apply N; split; auto|].
    eexists. split; [|reflexivity]. pose proof (on_same_x _ _ _ A B E) as Y. subst y2.
    assert (Y0 : y1 <> 0) by (intros ->; apply E; ring).
    split; [ring|]. field. split; [exact Y0|exact two_neq0].
  - eexists. split; [|reflexivity]. cbn in A, B.
    assert (NX' : x2 - x1 <> 0) by (apply sub_neq; congruence).
    split; [field; exact NX'|]. apply (fcancel (x1 - x2)); [apply sub_neq, NX|].
    transitivity ((y1 - y2) * (y1 + y2)); [field; exact NX'|].
    apply (cmb _ _ 1 _ _ A), (cmb _ _ (- (1)) _ _ B). ring.
Qed.
Lemma gadd_slope x1 y1 x2 y2 l : gon (GAff x1 y1) -> gon (GAff x2 y2) -> ~ opposite x1 y1 x2 y2 ->
  slope x1 y1 x2 y2 l -> gadd (GAff x1 y1) (GAff x2 y2) = third x1 y1 x2 l.
Proof.
  intros A B N L. destruct (gadd_slope_ex x1 y1 x2 y2 A B N) as (m & M & ->).
  rewrite (slope_unique _ _ _ _ _ _ A B N L M). reflexivity.
Qed.
Lemma gadd_opposite x1 y1 x2 y2 : opposite x1 y1 x2 y2 -> gadd (GAff x1 y1) (GAff x2 y2) = GInf.
Proof.
  intros (-> & E). cbn [gadd]. destruct (fp_eq_dec p x2 x2); [|contradiction].
  destruct (fp_eq_dec p (y1 + y2) 0); [reflexivity|contradiction].
Qed.
Lemma opposite_dec x1 y1 x2 y2 : {opposite x1 y1 x2 y2} + {~ opposite x1 y1 x2 y2}.
Proof.
  unfold opposite. destruct (fp_eq_dec p x1 x2), (fp_eq_dec p (y1 + y2) 0); [left; auto|right; tauto..].
Qed.

(** the third intersection of a line with the curve *)
Lemma slope_third x1 y1 x2 y2 l : slope x1 y1 x2 y2 l ->
  slope x1 y1 (l * l - x1 - x2) (y1 - l * (x1 - (l * l - x1 - x2))) l.
Proof.
  intros (S1 & S2). split; [ring|]. apply (cmb _ _ 1 _ _ S2), (cmb _ _ l _ _ S1). ring.
Qed.
Lemma third_on x1 y1 x2 y2 l : gon (GAff x1 y1) -> slope x1 y1 x2 y2 l -> gon (third x1 y1 x2 l).
Proof.
  intros A S. apply slope_third in S. destruct S as (_ & S). unfold third, gon in *.
  apply (cmb _ _ 1 _ _ A), (cmb _ _ (l * l - x1 - x2 - x1) _ _ S). ring.
Qed.
Lemma third_sym x1 y1 x2 y2 l : slope x1 y1 x2 y2 l -> third x1 y1 x2 l = third x2 y2 x1 l.
Proof.
  intros (S1 & _). unfold third. f_equal; [ring|]. apply (cmb _ _ (- (1)) _ _ S1). ring.
Qed.
Lemma gadd_on P Q : gon P -> gon Q -> gon (gadd P Q).
Proof.
  destruct P as [|x1 y1], Q as [|x2 y2]; intros A B; try exact I; try assumption.
  destruct (opposite_dec x1 y1 x2 y2) as [O|O]; [rewrite gadd_opposite by exact O; exact I|].
  destruct (gadd_slope_ex x1 y1 x2 y2 A B O) as (l & L & ->). exact (third_on _ _ _ _ _ A L).
Qed.
Lemma gneg_on P : gon P -> gon (gneg P).
Proof. destruct P as [|x y]; cbn; [auto|]. intros A. apply (cmb _ _ 1 _ _ A). ring. Qed.
Lemma gneg_neg P : gneg (gneg P) = P.
Proof. destruct P; cbn; [reflexivity|]. f_equal. ring. Qed.
Lemma opposite_sym x1 y1 x2 y2 : opposite x1 y1 x2 y2 -> opposite x2 y2 x1 y1.
Proof. intros (-> & E). split; [reflexivity|]. rewrite <- E. ring. Qed.
Lemma opposite_eq x1 y1 x2 y2 : opposite x1 y1 x2 y2 <-> GAff x1 y1 = gneg (GAff x2 y2).
Proof.
  cbn. split.
  - intros (-> & E). f_equal. transitivity (y1 + y2 - y2); [ring|]. rewrite E. ring.
  - intros E. injection E as -> ->. split; [reflexivity|ring].
Qed.
Lemma gadd_inf_r P : gadd P GInf = P.
Proof. destruct P; reflexivity. Qed.
Lemma gadd_comm P Q : gon P -> gon Q -> gadd P Q = gadd Q P.
Proof.
  destruct P as [|x1 y1], Q as [|x2 y2]; intros A B; try reflexivity.
  destruct (opposite_dec x1 y1 x2 y2) as [O|O].
  - rewrite !gadd_opposite; [reflexivity|apply opposite_sym, O|exact O].
  - destruct (gadd_slope_ex x1 y1 x2 y2 A B O) as (l & L & ->).
    rewrite (gadd_slope x2 y2 x1 y1 l B A (fun K => O (opposite_sym _ _ _ _ K)) (slope_sym _ _ _ _ _ L)).
    exact (third_sym _ _ _ _ _ L).
Qed.
Lemma gadd_neg_r P : gon P -> gadd P (gneg P) = GInf.
Proof. destruct P as [|x y]; [reflexivity|]. intros A. cbn [gneg]. apply gadd_opposite. split; [reflexivity|ring]. Qed.
Lemma gneg_add P Q : gon P -> gon Q -> gneg (gadd P Q) = gadd (gneg P) (gneg Q).
Proof.
  destruct P as [|x1 y1], Q as [|x2 y2]; intros A B; try reflexivity.
  destruct (opposite_dec x1 y1 x2 y2) as [O|O].
  - rewrite gadd_opposite by exact O. cbn [gneg]. rewrite gadd_opposite; [reflexivity|].
    destruct O as (-> & E). split; [reflexivity|]. transitivity (- (y1 + y2)); [ring|]. rewrite E. ring.
  - destruct (gadd_slope_ex x1 y1 x2 y2 A B O) as (l & L & ->). cbn [gneg].
    rewrite (gadd_slope x1 (- y1) x2 (- y2) (- l)).
    + unfold third. cbn [gneg]. f_equal; ring.
    + exact (gneg_on (GAff x1 y1) A).
    + exact (gneg_on (GAff x2 y2) B).
    + intros (-> & E). apply O. split; [reflexivity|]. transitivity (- (- y1 + - y2)); [ring|]. rewrite E. ring.
    + apply slope_neg, L.
Qed.

Section Nonsing.
Context (NS : forall x, 3 * x * x + a = 0 -> x * x * x + a * x + b <> 0).

(** [-P + (P + Q) = Q] *)
Lemma gcancel P Q : gon P -> gon Q -> gadd (gneg P) (gadd P Q) = Q.
Proof.
  intros A B. destruct P as [|x1 y1]; [destruct Q; reflexivity|].
  destruct Q as [|x2 y2].
  { rewrite gadd_inf_r. rewrite gadd_comm; [apply gadd_neg_r, A|apply gneg_on, A|exact A]. }
  destruct (opposite_dec x1 y1 x2 y2) as [O|O].
  - rewrite gadd_opposite by exact O. rewrite gadd_inf_r. apply opposite_eq in O. rewrite O, gneg_neg. reflexivity.
  - destruct (gadd_slope_ex x1 y1 x2 y2 A B O) as (l & L & E). rewrite E. pose proof (gadd_on _ _ A B) as ON. rewrite E in ON.
    pose proof (slope_neg _ _ _ _ _ (slope_third _ _ _ _ _ L)) as T. cbn [gneg]. unfold third in *.
    replace (- (y1 - l * (x1 - (l * l - x1 - x2)))) with (l * (x1 - (l * l - x1 - x2)) - y1) in T by ring.
    assert (ON' := gneg_on _ A). cbn [gneg] in ON'.
    rewrite (gadd_slope _ _ _ _ (- l) ON' ON); [|intros (X & Y)|exact T].
    + unfold third. destruct L as (L1 & L2). f_equal; [ring|]. apply (cmb _ _ 1 _ _ L1). ring.
    + (* the tangent would be vertical *)
      destruct T as (_ & T). rewrite Y in T. rewrite <- X in *.
      assert (Y2 : y1 = 0). { apply half0. transitivity (- (- y1 + (l * (x1 - x1) - y1))); [ring|]. rewrite Y. ring. }
      subst y1. cbn in A. apply (NS x1); [|rewrite <- A; ring]. transitivity (x1 * x1 + x1 * x1 + x1 * x1 + a); [ring|]. rewrite <- T. ring.
Qed.

(** the generic case: slope of the line through [A + B] and [C] *)
Lemma slope_generic x1 y1 x2 y2 x3 y3 l m w : slope x1 y1 x2 y2 l -> slope x2 y2 x3 y3 m -> l <> m ->
  (l - m) * w = x1 - x3 ->
  slope (l * l - x1 - x2) (l * (x1 - (l * l - x1 - x2)) - y1) x3 y3 (w - l).
Proof.
  intros (L1 & L2) (M1 & M2) N W.
  assert (KEY : (l - m) * (y2 + y2) = (l * l - x1 - x2 - x3) * (x2 - x1) - (m * m - x1 - x2 - x3) * (x2 - x3)).
  { apply (cmb _ _ 1 _ _ L2), (cmb _ _ (- (1)) _ _ M2), (cmb _ _ (- l) _ _ L1), (cmb _ _ (- m) _ _ M1). ring. }
  assert (N' := sub_neq _ _ N). split.
  - apply (fcancel (l - m)); [exact N'|].
    apply (cmb _ _ (- (1)) _ _ KEY), (cmb _ _ (- (l - m)) _ _ L1), (cmb _ _ (l - m) _ _ M1),
      (cmb _ _ (- (l * l - x1 - x2 - x3)) _ _ W). ring.
  - assert (Y1 : y1 = y2 + l * (x1 - x2)) by (apply (cmb _ _ 1 _ _ L1); ring).
    assert (Y3 : y3 = y2 - m * (x2 - x3)) by (apply (cmb _ _ (- (1)) _ _ M1); ring).
    assert (EA : a = m * (y2 + y3) - x2 * x2 - x2 * x3 - x3 * x3) by (apply (cmb _ _ (- (1)) _ _ M2); ring).
    assert (X1 : x1 = x3 + (l - m) * w) by (apply (cmb _ _ (- (1)) _ _ W); ring).
    apply (fcancel (l - m)); [exact N'|]. rewrite EA, Y1, Y3. rewrite X1 in *. apply (cmb _ _ (- m) _ _ KEY). ring.
Qed.

Lemma gneg_inj P Q : gneg P = gneg Q -> P = Q.
Proof. intros H. rewrite <- (gneg_neg P), <- (gneg_neg Q), H. reflexivity. Qed.
(** [A + B = -C] iff [B + C = -A] *)
Lemma flip A B C : gon A -> gon B -> gon C -> gadd A B = gneg C -> gadd B C = gneg A.
Proof.
  intros ONA ONB ONC H. apply gneg_inj. rewrite gneg_neg, gneg_add by assumption. rewrite <- H.
  rewrite (gadd_comm A B) by assumption. apply gcancel; assumption.
Qed.
Lemma gadd_inf_iff x1 y1 x2 y2 : gon (GAff x1 y1) -> gon (GAff x2 y2) -> gadd (GAff x1 y1) (GAff x2 y2) = GInf -> opposite x1 y1 x2 y2.
Proof.
  intros A B H. destruct (opposite_dec x1 y1 x2 y2) as [O|O]; [exact O|].
  destruct (gadd_slope_ex _ _ _ _ A B O) as (l & _ & E). rewrite E in H. discriminate.
Qed.

(** ** associativity *)
Theorem gadd_assoc A B C : gon A -> gon B -> gon C -> gadd (gadd A B) C = gadd A (gadd B C).
Proof.
  intros ONA ONB ONC.
  destruct A as [|x1 y1]; [reflexivity|]. destruct B as [|x2 y2]; [reflexivity|].
  destruct C as [|x3 y3]; [rewrite !gadd_inf_r; reflexivity|].
  destruct (opposite_dec x1 y1 x2 y2) as [O1|O1].
  { rewrite (gadd_opposite _ _ _ _ O1). apply opposite_eq in O1. rewrite O1. symmetry. apply gcancel; assumption. }
  destruct (opposite_dec x2 y2 x3 y3) as [O2|O2].
  { rewrite (gadd_opposite _ _ _ _ O2), gadd_inf_r. apply opposite_sym, opposite_eq in O2. rewrite O2.
    rewrite (gadd_comm (gadd _ _)); [|apply gadd_on; assumption|apply gneg_on; assumption].
    rewrite (gadd_comm (GAff x1 y1)) by assumption. apply gcancel; assumption. }
  destruct (gadd_slope_ex _ _ _ _ ONA ONB O1) as (l & L & EL). destruct (gadd_slope_ex _ _ _ _ ONB ONC O2) as (m & M & EM).
  pose proof (gadd_on _ _ ONA ONB) as OND. pose proof (gadd_on _ _ ONB ONC) as ONE.
  destruct (fp_eq_dec p l m) as [->|N].
  { destruct (fp_eq_dec p x1 x3) as [->|NX].
    - assert (y1 = y3).
      { apply sub0. destruct L as (L1 & _), M as (M1 & _). apply (cmb _ _ 1 _ _ L1), (cmb _ _ 1 _ _ M1). ring. }
      subst y3. rewrite (gadd_comm (gadd _ _)) by assumption. f_equal. apply gadd_comm; assumption.
    - (* the three points are on one line *)
      assert (G : gadd (GAff x1 y1) (GAff x2 y2) = gneg (GAff x3 y3)).
      { rewrite EL. unfold third. cbn [gneg]. destruct L as (L1 & L2), M as (M1 & M2).
        assert (X3 : m * m - x1 - x2 = x3).
        { apply (fcancel (x1 - x3)); [apply sub_neq, NX|].
          apply (cmb _ _ (- m) _ _ L1), (cmb _ _ (- m) _ _ M1), (cmb _ _ 1 _ _ L2), (cmb _ _ (- (1)) _ _ M2). ring. }
        rewrite X3. f_equal. apply (cmb _ _ (- (1)) _ _ L1), (cmb _ _ (- (1)) _ _ M1). ring. }
      rewrite G. pose proof (flip _ _ _ ONA ONB ONC G) as G2. rewrite G2. rewrite gadd_neg_r by assumption.
      rewrite gadd_comm; [apply gadd_neg_r; assumption|apply gneg_on; assumption|assumption]. }
  assert (N' := sub_neq _ _ N).
  assert (W : exists w, (l - m) * w = x1 - x3) by (exists ((x1 - x3) / (l - m)); field; exact N').
  destruct W as (w & W).
  pose proof (slope_generic _ _ _ _ _ _ _ _ _ L M N W) as S.
  assert (W2 : (m - l) * w = x3 - x1) by (apply (cmb _ _ (- (1)) _ _ W); ring).
  pose proof (slope_generic _ _ _ _ _ _ _ _ _ (slope_sym _ _ _ _ _ M) (slope_sym _ _ _ _ _ L) (not_eq_sym N) W2) as T.
  rewrite (third_sym _ _ _ _ _ M) in EM. rewrite EL, EM in *. unfold third in OND, ONE |- *.
  destruct (opposite_dec (l * l - x1 - x2) (l * (x1 - (l * l - x1 - x2)) - y1) x3 y3) as [O3|O3].
  { rewrite (gadd_opposite _ _ _ _ O3). apply opposite_eq in O3. unfold third in EL, EM. rewrite O3 in EL.
    pose proof (flip _ _ _ ONA ONB ONC EL) as G2. rewrite EM in G2. rewrite G2. symmetry. apply gadd_neg_r; assumption. }
  rewrite (gadd_slope _ _ _ _ (w - l) OND ONC O3 S).
  destruct (opposite_dec (m * m - x3 - x2) (m * (x3 - (m * m - x3 - x2)) - y3) x1 y1) as [O4|O4].
  { exfalso. apply O3. apply opposite_eq in O4. unfold third in EL, EM. rewrite O4 in EM.
    rewrite gadd_comm in EM by assumption. pose proof (flip _ _ _ ONC ONB ONA EM) as G2.
    rewrite gadd_comm, EL in G2 by assumption. apply opposite_eq. exact G2. }
  rewrite (gadd_comm (GAff x1 y1)) by assumption.
  rewrite (gadd_slope _ _ _ _ (w - m) ONE ONA O4 T).
  rewrite (third_sym _ _ _ _ _ S), (third_sym _ _ _ _ _ T). unfold third.
  assert (EX : (w - l) * (w - l) - x3 - (l * l - x1 - x2) = (w - m) * (w - m) - x1 - (m * m - x3 - x2)).
  { apply (cmb _ _ (- (2)) _ _ W). ring. }
  f_equal; [exact EX|]. rewrite <- EX. destruct L as (L1 & L2), M as (M1 & M2).
  apply (cmb _ _ 1 _ _ L1), (cmb _ _ 1 _ _ M1).
  first [apply (cmb _ _ (w - l - l) _ _ W); ring|apply (cmb _ _ (- (w - l - l)) _ _ W); ring].
Qed.
End Nonsing.
End Char.
End Curve.
