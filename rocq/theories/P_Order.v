(** Order and sign of amounts through the conversions of unit.py. *)
From Coq Require Import ZArith Reals Lia Lra Bool Psatz QArith Qabs Qpower Qreals.
From Coq Require Import SpecFloat.
From Flocq Require Import Core Relative BinarySingleNaN.
From Verif Require Import Base M_Keys M_Unit M_URI S_Unit S_URI P_Float P_Unit P_Decimal S_Order.
Open Scope Z_scope.

Lemma to_float_amount x p f : amount x p -> to_float x = Ok f -> okf f = true /\ fin f = true /\ val f = RN (Q2R p).
Proof.
  intros [z q N|g q0 q O V N] E; cbn [to_float] in E; apply Qeq_eqR in N; rewrite <- N.
  - destruct (Z.le_gt_cases (2 ^ 1024 - 2 ^ 970) (Z.abs z)) as [K|K]; [rewrite (float_of_int_err z K) in E; discriminate|].
    destruct (float_of_int_ok z) as (f' & EF & OF & FF & VF); [unfold too_large; lia|]. rewrite Q2R_Z. assert (f' = f) as -> by congruence. tauto.
  - assert (g = f) as -> by congruence. destruct (fvalue_val f q0 V) as (F & W). split; [exact O|]. split; [exact F|]. rewrite W, RN_format; [reflexivity|]. apply val_format, O.
Qed.

Lemma Ztrunc_opp' x : Ztrunc (- x) = - Ztrunc x.
Proof. apply Ztrunc_opp. Qed.

Lemma given_amount d x p u : amount x p -> given d x = Ok u -> u_satoshis u = Ztrunc (RN (RN (Q2R p) * per d)).
Proof.
  intros A E. rewrite given_scaled in E. unfold scaled in E. destruct (to_float x) as [f|e] eqn:F; [|discriminate]. cbn [bind] in E.
  destruct (to_float_amount x p f A F) as (O & FF & V). destruct (unit_val d) as (UO & UF & UV).
  destruct (set_values_float _ _ E) as (FM & SU). destruct (mul_inv f (unit_of d) O UO FM) as (_ & _ & W). rewrite SU, W, V, UV. reflexivity.
Qed.

Lemma given_order d x y p q u v : amount x p -> amount y q -> (p <= q)%Q -> given d x = Ok u -> given d y = Ok v -> u_satoshis u <= u_satoshis v.
Proof.
  intros A B L EU EV. rewrite (given_amount d x p u A EU), (given_amount d y q v B EV). apply Ztrunc_le, RN_le.
  apply Rmult_le_compat_r; [pose proof (per_bounds d); lra|]. apply RN_le, Qle_Rle, L.
Qed.

Lemma satoshis_order x y p q u v : amount x p -> amount y q -> (p <= q)%Q -> unit_init (Some x) None None None = Ok u -> unit_init (Some y) None None None = Ok v ->
  u_satoshis u <= u_satoshis v.
Proof.
  assert (C : forall x p u, amount x p -> set_values x = Ok u -> u_satoshis u = Ztrunc (Q2R p)).
  { intros x' p' u' [z p1 N|f p0 p1 O V N] E; apply Qeq_eqR in N; rewrite <- N.
    - rewrite Q2R_Z, Ztrunc_IZR. destruct (set_int z) as (w & EW & SW & _); [intros K; rewrite (set_int_err _ K) in E; discriminate|]. congruence.
    - destruct (set_values_float _ _ E) as (_ & S). rewrite S. destruct (fvalue_val f p0 V) as (_ & ->). reflexivity. }
  cbn [unit_init]. intros A B L EU EV. rewrite (C x p u A EU), (C y q v B EV). apply Ztrunc_le, Qle_Rle, L.
Qed.

Lemma too_large_opp z : too_large (- z) <-> too_large z.
Proof. unfold too_large. rewrite Z.abs_opp. reflexivity. Qed.

Lemma given_ok d x p f : amount x p -> to_float x = Ok f -> (Rabs (RN (RN (Q2R p) * per d)) < bpow radix2 1024)%R -> ~ too_large (Ztrunc (RN (RN (Q2R p) * per d))) ->
  exists u, given d x = Ok u /\ u_satoshis u = Ztrunc (RN (RN (Q2R p) * per d)).
Proof.
  intros A F B T. rewrite given_scaled. unfold scaled. rewrite F. cbn [bind].
  destruct (to_float_amount x p f A F) as (O & FF & V). destruct (unit_val d) as (UO & UF & UV).
  destruct (mul_ok f (unit_of d) O UO FF UF) as (FM & VM); [rewrite V, UV; exact B|]. rewrite V, UV in VM.
  pose proof (trunc_val _ FM) as I. rewrite VM in I. rewrite (set_float _ _ I).
  destruct (set_int _ T) as (u & EU & SU & _). exists u. split; [exact EU|exact SU].
Qed.

Lemma given_bounds d x p u : amount x p -> given d x = Ok u -> (exists f, to_float x = Ok f) /\ (Rabs (RN (RN (Q2R p) * per d)) < bpow radix2 1024)%R /\ ~ too_large (Ztrunc (RN (RN (Q2R p) * per d))).
Proof.
  intros A E. pose proof (given_amount d x p u A E) as SU. rewrite given_scaled in E. unfold scaled in E. destruct (to_float x) as [f|e] eqn:F; [|discriminate]. cbn [bind] in E.
  split; [exists f; reflexivity|]. destruct (to_float_amount x p f A F) as (O & FF & V). destruct (unit_val d) as (UO & UF & UV).
  destruct (set_values_float _ _ E) as (FM & S'). destruct (mul_inv f (unit_of d) O UO FM) as (_ & _ & W). rewrite V, UV in W. split.
  - rewrite <- W. pose proof (mul_valid f (unit_of d) O UO) as OM. apply to_B in OM as (b & EB). rewrite EB. destruct (of_B b) as (_ & -> & _). apply (abs_B2R_lt_emax 53 1024).
  - intros K. rewrite (set_float _ (Ztrunc (RN (RN (Q2R p) * per d)))) in E by (rewrite trunc_val by exact FM; rewrite W; reflexivity). rewrite (set_int_err _ K) in E. discriminate.
Qed.

Lemma to_float_opp x y p q f : amount x p -> amount y q -> (q == - p)%Q -> to_float x = Ok f -> (Rabs (RN (Q2R p)) < bpow radix2 1024)%R -> exists g, to_float y = Ok g.
Proof.
  intros A B N F L. destruct B as [z q M|g q0 q O V M]; cbn [to_float]; [|exists g; reflexivity]. rewrite <- M in N. clear M.
  destruct (Z.le_gt_cases (2 ^ 1024 - 2 ^ 970) (Z.abs z)) as [K|K].
  - exfalso. apply (proj1 (RN_overflow_iff z)) in K. apply Qeq_eqR in N. rewrite Q2R_Z, Q2R_opp in N. rewrite N, RN_opp, Rabs_Ropp in K. lra.
  - destruct (float_of_int_ok z) as (g & EF & _); [unfold too_large; lia|]. exists g. exact EF.
Qed.

Lemma given_opp d x y p q u : amount x p -> amount y q -> (q == - p)%Q -> given d x = Ok u -> exists v, given d y = Ok v /\ u_satoshis v = - u_satoshis u.
Proof.
  intros A B N E. destruct (given_bounds d x p u A E) as ((f & F) & L & T). rewrite (given_amount d x p u A E).
  assert (LF : (Rabs (RN (Q2R p)) < bpow radix2 1024)%R).
  { destruct (to_float_amount x p f A F) as (O & _ & <-). apply to_B in O as (b & ->). destruct (of_B b) as (_ & -> & _). apply (abs_B2R_lt_emax 53 1024). }
  destruct (to_float_opp x y p q f A B N F LF) as (g & G).
  assert (R : RN (RN (Q2R q) * per d) = (- RN (RN (Q2R p) * per d))%R).
  { apply Qeq_eqR in N. rewrite Q2R_opp in N. rewrite N, RN_opp, Ropp_mult_distr_l_reverse, RN_opp. reflexivity. }
  destruct (given_ok d y q g B G) as (v & EV & SV).
  - rewrite R, Rabs_Ropp. exact L.
  - rewrite R, Ztrunc_opp, too_large_opp. exact T.
  - exists v. split; [exact EV|]. rewrite SV, R, Ztrunc_opp. reflexivity.
Qed.

Lemma given_same d x y p q u : amount x p -> amount y q -> (p == q)%Q -> given d x = Ok u -> given d y = Ok u.
Proof.
  intros A B N E.
  assert (N' : (- p == - q)%Q) by (rewrite N; reflexivity).
  assert (exists f, to_float x = Ok f) as (f & F) by (destruct (given_bounds d x p u A E) as (H & _); exact H).
  destruct (given_bounds d x p u A E) as (_ & L & T).
  assert (LF : (Rabs (RN (Q2R p)) < bpow radix2 1024)%R).
  { destruct (to_float_amount x p f A F) as (O & _ & <-). apply to_B in O as (b & ->). destruct (of_B b) as (_ & -> & _). apply (abs_B2R_lt_emax 53 1024). }
  assert (exists g, to_float y = Ok g) as (g & G).
  { destruct B as [z q M|g q0 q O V M]; cbn [to_float]; [|exists g; reflexivity]. rewrite <- M in N. clear M.
    destruct (Z.le_gt_cases (2 ^ 1024 - 2 ^ 970) (Z.abs z)) as [K|K].
    - exfalso. apply (proj1 (RN_overflow_iff z)) in K. apply Qeq_eqR in N. rewrite Q2R_Z in N. rewrite <- N in K. lra.
    - destruct (float_of_int_ok z) as (g & EF & _); [unfold too_large; lia|]. exists g. exact EF. }
  apply Qeq_eqR in N. destruct (given_ok d y q g B G) as (v & EV & SV); [rewrite <- N; exact L|rewrite <- N; exact T|].
  assert (S : forall x f, scaled x (unit_of d) = Ok (NFloat f) -> forall z w, int_of_float f = Ok z -> given d x = Ok w -> set_values (NInt z) = Ok w).
  { intros x' f' SC z w I GW. rewrite given_scaled, SC in GW. cbn [bind] in GW. rewrite (set_float _ _ I) in GW. exact GW. }
  assert (R : u_satoshis u = u_satoshis v) by (rewrite SV, (given_amount d x p u A E), N; reflexivity).
  assert (W : forall x w, given d x = Ok w -> set_values (NInt (u_satoshis w)) = Ok w).
  { intros x' w GW. rewrite given_scaled in GW. destruct (scaled x' (unit_of d)) as [s|e] eqn:SC; [|discriminate]. cbn [bind] in GW. unfold set_values in GW. destruct (to_int s) as [z|e] eqn:I; [|discriminate].
    assert (Z1 : set_values (NInt z) = Ok w) by exact GW. destruct (set_int z) as (w' & EW & SW & _); [intros K; rewrite (set_int_err _ K) in Z1; discriminate|].
    assert (w' = w) as -> by congruence. rewrite SW. exact Z1. }
  pose proof (W x u E) as WX. pose proof (W y v EV) as WY. rewrite EV. rewrite R in WX. congruence.
Qed.

(** *** rates *)
Lemma div_inv x y : okf x = true -> okf y = true -> fin y = true -> val y <> 0%R -> fin (f_div x y) = true -> fin x = true /\ val (f_div x y) = RN (val x / val y).
Proof.
  intros X Y FY NZ FM.
  assert (FX : fin x = true).
  { destruct x as [s|s| |s m e]; try reflexivity; destruct y as [t|t| |t n k]; try discriminate FY; try discriminate FM. }
  split; [exact FX|]. destruct (Rlt_or_le (Rabs (RN (val x / val y))) (bpow radix2 1024)) as [L|L]; [apply div_ok; assumption|].
  exfalso. apply to_B in X as (a & ->). apply to_B in Y as (b & ->). rewrite div_NE in FM. destruct (of_B a) as (_ & VA & _), (of_B b) as (_ & VB & _). rewrite VA, VB in L. rewrite VB in NZ.
  pose proof (Bdiv_correct 53 1024 P_Float.Hprec P_Float.Hmax mode_NE a b NZ) as C. rewrite fexp_FLT in C. cbn [round_mode] in C. fold (RN (B2R a / B2R b)) in C.
  rewrite Rlt_bool_false in C by exact L. rewrite C in FM. destruct (xorb _ _); discriminate.
Qed.

Lemma RN_pos x : (0 <= x)%R -> (0 <= RN x)%R.
Proof. intros H. rewrite <- RN_0. apply RN_le, H. Qed.

Lemma at_rate_order s t u v r r' p p' f g a b : 0 <= s <= t -> unit_init (Some (NInt s)) None None None = Ok u -> unit_init (Some (NInt t)) None None None = Ok v ->
  amount r p -> amount r' p' -> (0 <= p)%Q -> (p <= p')%Q -> at_rate u r = Ok f -> at_rate v r' = Ok g -> fvalue f = Some a -> fvalue g = Some b -> (a <= b)%Q.
Proof.
  intros L EU EV A A' P0 PL EF EG VF VG. cbn [unit_init] in EU, EV.
  destruct (set_int s) as (u' & EU' & _ & B); [intros K; rewrite (set_int_err _ K) in EU; discriminate|]. rewrite EU in EU'. injection EU' as <-.
  destruct (set_int t) as (v' & EV' & _ & B'); [intros K; rewrite (set_int_err _ K) in EV; discriminate|]. rewrite EV in EV'. injection EV' as <-.
  specialize (B Btc). specialize (B' Btc). cbn [shown] in B, B'. destruct B as (BO & BF & BV), B' as (BO' & BF' & BV').
  unfold at_rate in EF, EG. destruct (to_float r) as [x|] eqn:FR; [|discriminate]. destruct (to_float r') as [x'|] eqn:FR'; [|discriminate]. cbn [bind] in EF, EG. injection EF as <-. injection EG as <-.
  destruct (to_float_amount r p x A FR) as (O & F & V), (to_float_amount r' p' x' A' FR') as (O' & F' & V').
  destruct (fvalue_val _ _ VF) as (FM & VM), (fvalue_val _ _ VG) as (FM' & VM'). apply Rle_Qle. rewrite VM, VM'.
  destruct (mul_inv _ _ BO O FM) as (_ & _ & W), (mul_inv _ _ BO' O' FM') as (_ & _ & W'). rewrite W, W', V, V', BV, BV'.
  apply Qle_Rle in P0, PL. rewrite Q2R_0' in P0. pose proof (per_bounds Btc).
  apply RN_le, Rmult_le_compat.
  - apply RN_pos, Rmult_le_pos; [apply RN_pos, IZR_le; lia|]. left. apply Rinv_0_lt_compat. lra.
  - apply RN_pos, P0.
  - apply RN_le, Rmult_le_compat_r; [left; apply Rinv_0_lt_compat; lra|]. apply RN_le, IZR_le. lia.
  - apply RN_le, PL.
Qed.

Lemma fiat_order x y r r' p q w w' u v : amount x p -> amount y q -> amount r w -> amount r' w' -> (0 <= p)%Q -> (p <= q)%Q -> (0 < w')%Q -> (w' <= w)%Q ->
  from_fiat x r = Ok u -> from_fiat y r' = Ok v -> u_satoshis u <= u_satoshis v.
Proof.
  intros A B C D P0 PL W0 WL EU EV.
  assert (K : forall x r p w u, amount x p -> amount r w -> (0 < w)%Q -> from_fiat x r = Ok u -> (RN (Q2R w) <> 0)%R /\ u_satoshis u = Ztrunc (RN (RN (RN (Q2R p) / RN (Q2R w)) * per Btc))).
  { clear. intros x r p w u A C W0 E. unfold from_fiat in E. destruct (to_float r) as [fr|] eqn:FR; [|discriminate]. destruct (to_float x) as [fx|] eqn:FX; [|discriminate]. cbn [bind] in E.
    destruct (to_float_amount r w fr C FR) as (OR & FFR & VR), (to_float_amount x p fx A FX) as (OX & FFX & VX).
    destruct (py_div fx fr) as [g|e] eqn:DV; [|discriminate]. cbn [bind] in E.
    assert (NZ : val fr <> 0%R).
    { destruct fr as [s|s| |s m k]; try discriminate FFR; [discriminate DV|]. unfold val. cbn [SF2R]. apply F2R_neq_0. destruct s; discriminate. }
    assert (g = f_div fx fr) as -> by (destruct fr; try discriminate DV; cbn [py_div] in DV; congruence).
    change (given Btc (NFloat (f_div fx fr)) = Ok u) in E. rewrite given_scaled in E. unfold scaled in E. cbn [to_float bind] in E. destruct (unit_val Btc) as (UO & UF & UV).
    destruct (set_values_float _ _ E) as (FM & SU). destruct (mul_inv _ (unit_of Btc) (div_valid fx fr OX OR) UO FM) as (FD & _ & W).
    destruct (div_inv fx fr OX OR FFR NZ FD) as (_ & VD). rewrite <- VR. split; [exact NZ|]. rewrite SU, W, VD, VX, VR, UV. reflexivity. }
  destruct (K y r' q w' v B D W0 EV) as (NZ' & SV). destruct (K x r p w u A C) as (NZ & SU); [eapply Qlt_le_trans; eassumption|exact EU|]. rewrite SU, SV.
  apply Qle_Rle in P0, PL, WL. apply Qlt_Rlt in W0. rewrite Q2R_0' in P0, W0. pose proof (per_bounds Btc).
  pose proof (RN_pos _ P0). pose proof (RN_pos (Q2R w') ltac:(lra)). pose proof (RN_le _ _ WL). pose proof (RN_le _ _ PL).
  apply Ztrunc_le, RN_le, Rmult_le_compat_r; [lra|]. apply RN_le. unfold Rdiv. apply Rmult_le_compat; [assumption| |assumption|].
  - left. apply Rinv_0_lt_compat. lra.
  - apply Rinv_le_contravar; lra.
Qed.

Definition two_satoshis : num := NFloat (S754_finite false 0x15798ee2308c3a (-78)).
Definition three_satoshis : num := NFloat (S754_finite false 0x101b2b29a4692b (-77)).
Lemma strict_refuted : exists x y p q u v, amount x p /\ amount y q /\ ((99 # 100) <= (q - p) * 100000000)%Q /\ given Btc x = Ok u /\ given Btc y = Ok v /\ u_satoshis u = u_satoshis v.
Proof.
  exists two_satoshis, three_satoshis, (inject_Z 0x15798ee2308c3a * Qpower (inject_Z 2) (-78))%Q, (inject_Z 0x101b2b29a4692b * Qpower (inject_Z 2) (-77))%Q.
  do 2 eexists. split; [eapply Amount_float; [reflexivity|reflexivity|reflexivity]|]. split; [eapply Amount_float; [reflexivity|reflexivity|reflexivity]|].
  split; [vm_compute; discriminate|]. split; [vm_compute; reflexivity|]. split; [vm_compute; reflexivity|]. reflexivity.
Qed.

(** *** texts *)
Lemma text_order d t t' q q' f g u v : denotes t q -> denotes t' q' -> in_range q -> in_range q' -> (q <= q')%Q -> py_float t = Ok f -> py_float t' = Ok g ->
  given d (NFloat f) = Ok u -> given d (NFloat g) = Ok v -> u_satoshis u <= u_satoshis v.
Proof.
  intros D D' R R' L F G EU EV. destruct (read_ok t q D R) as (f' & EF & O & FF & V), (read_ok t' q' D' R') as (g' & EG & O' & FG & V').
  assert (f' = f) as -> by congruence. assert (g' = g) as -> by congruence.
  destruct (val_fvalue f FF) as (a & A & AV), (val_fvalue g FG) as (b & B & BV).
  refine (given_order d (NFloat f) (NFloat g) a b u v (Amount_float f a a O A (Qeq_refl a)) (Amount_float g b b O' B (Qeq_refl b)) _ EU EV).
  apply Rle_Qle. rewrite AV, BV, V, V'. apply RN_le, Qle_Rle, L.
Qed.
