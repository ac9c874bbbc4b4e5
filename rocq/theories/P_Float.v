(** Binary64 arithmetic of the model over the reals, from Flocq. *)
From Coq Require Import ZArith Reals Lia Lra Bool Psatz.
From Coq Require Import SpecFloat.
From Flocq Require Import Core Relative BinarySingleNaN.
From Verif Require Import Base M_Unit.

Local Instance Hprec : Prec_gt_0 53 := eq_refl.
Local Instance Hmax : Prec_lt_emax 53 1024 := eq_refl.
Notation bf := (binary_float 53 1024).

Definition val (f : float) : R := SF2R radix2 f.
Definition fin (f : float) : bool := is_finite_SF f.
Definition okf (f : float) : bool := valid_binary 53 1024 f.
Definition RN (x : R) : R := round radix2 (FLT_exp (-1074) 53) ZnearestE x.

Lemma choice_NE s m l : round_nearest_even m l = choice_mode mode_NE s m l.
Proof. destruct l as [|[| |]]; try reflexivity. cbn. unfold Round.cond_incr. destruct (Z.even m); reflexivity. Qed.
Lemma round_aux_NE s m e l : SpecFloat.binary_round_aux 53 1024 s m e l = binary_round_aux 53 1024 mode_NE s m e l.
Proof. unfold SpecFloat.binary_round_aux, binary_round_aux. destruct (shr_fexp _ _ _ _ _) as (r & e'). rewrite (choice_NE s). reflexivity. Qed.
Lemma binary_round_NE s m e : SpecFloat.binary_round 53 1024 s m e = binary_round 53 1024 mode_NE s m e.
Proof. unfold SpecFloat.binary_round, binary_round, shl_align_fexp. destruct (shl_align _ _ _). apply round_aux_NE. Qed.
Lemma normalize_NE m e : f_round m e = B2SF (binary_normalize 53 1024 Hprec Hmax mode_NE m e false).
Proof. unfold f_round. destruct m as [|p|p]; [reflexivity| |]; cbn; rewrite B2SF_SF2B; apply binary_round_NE. Qed.
Lemma mul_NE (x y : bf) : f_mul (B2SF x) (B2SF y) = B2SF (Bmult mode_NE x y).
Proof. destruct x, y; try reflexivity. cbn. rewrite B2SF_SF2B. apply round_aux_NE. Qed.
Lemma div_NE (x y : bf) : f_div (B2SF x) (B2SF y) = B2SF (Bdiv mode_NE x y).
Proof.
  destruct x, y; try reflexivity. cbn. rewrite B2SF_SF2B. destruct (SFdiv_core_binary _ _ _ _ _ _) as ((m' & e') & l). apply round_aux_NE.
Qed.
Lemma fexp_FLT : SpecFloat.fexp 53 1024 = FLT_exp (-1074) 53.
Proof. reflexivity. Qed.

Lemma to_B f : okf f = true -> exists x : bf, f = B2SF x.
Proof. intros H. exists (SF2B f H). rewrite B2SF_SF2B. reflexivity. Qed.
Lemma of_B (x : bf) : okf (B2SF x) = true /\ val (B2SF x) = B2R x /\ fin (B2SF x) = is_finite x.
Proof. split; [apply valid_binary_B2SF|]. split; [unfold val; apply SF2R_B2SF|]. unfold fin. apply is_finite_SF_B2SF. Qed.

Lemma mul_valid x y : okf x = true -> okf y = true -> okf (f_mul x y) = true.
Proof. intros X Y. apply to_B in X as (a & ->). apply to_B in Y as (b & ->). rewrite mul_NE. apply of_B. Qed.
Lemma div_valid x y : okf x = true -> okf y = true -> okf (f_div x y) = true.
Proof. intros X Y. apply to_B in X as (a & ->). apply to_B in Y as (b & ->). rewrite div_NE. apply of_B. Qed.
Lemma round_valid m e : okf (f_round m e) = true.
Proof. rewrite normalize_NE. apply of_B. Qed.

Lemma mul_ok x y : okf x = true -> okf y = true -> fin x = true -> fin y = true -> (Rabs (RN (val x * val y)) < bpow radix2 1024)%R ->
  fin (f_mul x y) = true /\ val (f_mul x y) = RN (val x * val y).
Proof.
  intros X Y FX FY B. apply to_B in X as (a & ->). apply to_B in Y as (b & ->). rewrite mul_NE.
  destruct (of_B a) as (_ & VA & FA), (of_B b) as (_ & VB & FB), (of_B (Bmult mode_NE a b)) as (_ & VC & FC).
  rewrite VC, FC, VA, VB in *. pose proof (Bmult_correct 53 1024 Hprec Hmax mode_NE a b) as C. rewrite fexp_FLT in C. cbn [round_mode] in C. fold (RN (B2R a * B2R b)) in C.
  rewrite Rlt_bool_true in C by exact B. destruct C as (C & D & _). split; [|exact C]. rewrite D, <- FA, <- FB, FX, FY. reflexivity.
Qed.
Lemma div_ok x y : okf x = true -> okf y = true -> fin x = true -> val y <> 0%R -> (Rabs (RN (val x / val y)) < bpow radix2 1024)%R ->
  fin (f_div x y) = true /\ val (f_div x y) = RN (val x / val y).
Proof.
  intros X Y FX NZ B. apply to_B in X as (a & ->). apply to_B in Y as (b & ->). rewrite div_NE.
  destruct (of_B a) as (_ & VA & FA), (of_B b) as (_ & VB & FB), (of_B (Bdiv mode_NE a b)) as (_ & VC & FC).
  rewrite VC, FC, VA, VB in *. pose proof (Bdiv_correct 53 1024 Hprec Hmax mode_NE a b NZ) as C. rewrite fexp_FLT in C. cbn [round_mode] in C. fold (RN (B2R a / B2R b)) in C.
  rewrite Rlt_bool_true in C by exact B. destruct C as (C & D & _). split; [|exact C]. rewrite D, <- FA, FX. reflexivity.
Qed.
Lemma round_ok m e : (Rabs (RN (IZR m * bpow radix2 e)) < bpow radix2 1024)%R -> fin (f_round m e) = true /\ val (f_round m e) = RN (IZR m * bpow radix2 e).
Proof.
  intros B. rewrite normalize_NE. destruct (of_B (binary_normalize 53 1024 Hprec Hmax mode_NE m e false)) as (_ & VC & FC). rewrite VC, FC.
  pose proof (binary_normalize_correct 53 1024 Hprec Hmax mode_NE m e false) as C. cbv zeta in C. rewrite fexp_FLT in C. cbn [round_mode] in C.
  unfold F2R in C. cbn [Fnum Fexp] in C. fold (RN (IZR m * bpow radix2 e)) in C. rewrite Rlt_bool_true in C by exact B. tauto.
Qed.
Lemma round_overflow m e : (bpow radix2 1024 <= Rabs (RN (IZR m * bpow radix2 e)))%R -> exists s, f_round m e = S754_infinity s.
Proof.
  intros B. rewrite normalize_NE.
  pose proof (binary_normalize_correct 53 1024 Hprec Hmax mode_NE m e false) as C. cbv zeta in C. rewrite fexp_FLT in C. cbn [round_mode] in C.
  unfold F2R in C. cbn [Fnum Fexp] in C. fold (RN (IZR m * bpow radix2 e)) in C. rewrite Rlt_bool_false in C by exact B. rewrite C. eexists. reflexivity.
Qed.

(** *** rounding *)
Lemma RN_le x y : (x <= y)%R -> (RN x <= RN y)%R.
Proof. intros H. apply round_le; [apply FLT_exp_valid; reflexivity|apply valid_rnd_N|exact H]. Qed.
Lemma RN_0 : RN 0 = 0%R.
Proof. apply round_0. apply valid_rnd_N. Qed.
Lemma RN_format x : generic_format radix2 (FLT_exp (-1074) 53) x -> RN x = x.
Proof. apply round_generic. apply valid_rnd_N. Qed.
Lemma RN_int z : (Z.abs z <= 2 ^ 53)%Z -> RN (IZR z) = IZR z.
Proof.
  intros H. apply RN_format. destruct (Z.eq_dec (Z.abs z) (2 ^ 53)) as [E|N].
  - replace (IZR z) with (if Z.ltb z 0 then - bpow radix2 53 else bpow radix2 53)%R.
    + destruct (z <? 0)%Z; [apply generic_format_opp|]; (apply generic_format_bpow; vm_compute; congruence).
    + destruct (Z.ltb_spec z 0).
      * replace z with (- 2 ^ 53)%Z by lia. rewrite opp_IZR. reflexivity.
      * replace z with (2 ^ 53)%Z by lia. reflexivity.
  - apply generic_format_FLT. exists (Float radix2 z 0); cbn; [unfold F2R; cbn; ring|lia|lia].
Qed.
(** relative error 2^-53 away from the subnormals *)
Lemma RN_rel x : (bpow radix2 (-1022) <= Rabs x)%R -> exists d, (Rabs d <= bpow radix2 (-53))%R /\ RN x = (x * (1 + d))%R.
Proof.
  intros H. destruct (relative_error_N_FLT_ex radix2 (-1074) 53 Hprec (fun n => negb (Z.even n)) x) as (d & A & B); [exact H|].
  exists d. split; [|exact B]. eapply Rle_trans; [exact A|]. apply Req_le. change (-53)%Z with (-1 + (-53 + 1))%Z. rewrite bpow_plus. cbn. lra.
Qed.
Lemma RN_bound x e : (-1022 < e <= 1023)%Z -> (Rabs x <= bpow radix2 e)%R -> (Rabs (RN x) <= bpow radix2 e)%R.
Proof.
  intros E H. unfold RN. apply abs_round_le_generic; [apply FLT_exp_valid; reflexivity|apply valid_rnd_N| |exact H].
  apply generic_format_bpow. unfold FLT_exp. lia.
Qed.
Lemma RN_small x e : (-1022 < e <= 1023)%Z -> (Rabs x <= bpow radix2 e)%R -> (Rabs (RN x) < bpow radix2 1024)%R.
Proof. intros E H. eapply Rle_lt_trans; [apply (RN_bound x e); assumption|]. apply bpow_lt. lia. Qed.

(** *** truncation *)
Lemma trunc_val f : fin f = true -> int_of_float f = Ok (Ztrunc (val f)).
Proof.
  destruct f as [s|s| |s m e]; try discriminate; intros _.
  - cbn. rewrite Ztrunc_IZR. reflexivity.
  - cbn [int_of_float]. f_equal. unfold val. cbn [SF2R]. unfold F2R. cbn [Fnum Fexp].
    assert (P : Ztrunc (IZR (Zpos m) * bpow radix2 e) = (if 0 <=? e then Zpos m * 2 ^ e else Zpos m / 2 ^ (- e))%Z).
    { destruct (Z.leb_spec 0 e).
      - rewrite <- IZR_Zpower by assumption. rewrite <- mult_IZR, Ztrunc_IZR. reflexivity.
      - replace e with (- (- e))%Z at 1 by lia. rewrite bpow_opp, <- IZR_Zpower by lia. change (IZR (Zpos m) * / IZR (radix2 ^ (- e)))%R with (IZR (Zpos m) / IZR (radix2 ^ (- e)))%R.
        rewrite Ztrunc_floor.
        + rewrite Zfloor_div; [reflexivity|]. cbn. lia.
        + apply Rmult_le_pos; [apply IZR_le; lia|]. apply Rlt_le, Rinv_0_lt_compat, IZR_lt. cbn. lia. }
    destruct s; cbn [cond_Zopp].
    + change (Z.opp (Zpos m)) with (- Zpos m)%Z. rewrite opp_IZR, Ropp_mult_distr_l_reverse, Ztrunc_opp, P. reflexivity.
    + symmetry. exact P.
Qed.
