(** Proofs about amounts. *)
From Coq Require Import ZArith Reals Lia Lra Bool Psatz QArith Qabs Qpower Qreals.
From Coq Require Import SpecFloat.
From Flocq Require Import Core Relative BinarySingleNaN.
From Verif Require Import Base M_Unit S_Unit P_Float.
Open Scope Z_scope.

Local Instance Hprec : Prec_gt_0 53 := eq_refl.

(** *** rationals and reals *)
Lemma Q2R_Z z : Q2R (inject_Z z) = IZR z.
Proof. unfold Q2R, inject_Z. cbn [Qnum Qden]. lra. Qed.
Lemma Q2R_0' : Q2R 0 = 0%R.
Proof. unfold Q2R. cbn. lra. Qed.
Lemma Q2R_pow2 e : Q2R (Qpower (inject_Z 2) e) = bpow radix2 e.
Proof.
  assert (P : forall n, 0 <= n -> Q2R (Qpower (inject_Z 2) n) = bpow radix2 n).
  { intros n N. rewrite <- (Qeq_eqR _ _ (Zpower_Qpower 2 n N)), Q2R_Z. rewrite <- (IZR_Zpower radix2) by exact N. reflexivity. }
  destruct (Z.le_gt_cases 0 e) as [N|N]; [apply P, N|]. replace e with (- (- e)) by lia. rewrite (Qeq_eqR _ _ (Qpower_opp _ _)), Q2R_inv, P, (bpow_opp radix2 (- e)) by (try lia; apply Qpower_not_0; discriminate).
  reflexivity.
Qed.
Lemma fvalue_val f q : fvalue f = Some q -> fin f = true /\ Q2R q = val f.
Proof.
  destruct f as [s|s| |s m e]; cbn [fvalue]; try discriminate; intros E; injection E as <-.
  - split; [reflexivity|]. unfold val. cbn. unfold Q2R. cbn. lra.
  - split; [reflexivity|]. rewrite Q2R_mult, Q2R_Z, Q2R_pow2. unfold val. cbn [SF2R]. unfold F2R. cbn [Fnum Fexp]. destruct s; reflexivity.
Qed.
Lemma val_fvalue f : fin f = true -> exists q, fvalue f = Some q /\ Q2R q = val f.
Proof.
  intros F. destruct (fvalue f) as [q|] eqn:E; [|destruct f; discriminate]. exists q. split; [reflexivity|]. apply fvalue_val, E.
Qed.
Lemma Q2R_abs q : Q2R (Qabs q) = Rabs (Q2R q).
Proof.
  apply (Qabs_case q (fun x => Q2R x = Rabs (Q2R q))); intros H; apply Qle_Rle in H; rewrite Q2R_0' in H.
  - rewrite Rabs_pos_eq; [reflexivity|exact H].
  - rewrite Q2R_opp, Rabs_left1; [reflexivity|exact H].
Qed.
Lemma val_format f : okf f = true -> generic_format radix2 (FLT_exp (-1074) 53) (val f).
Proof. intros H. apply to_B in H as (x & ->). destruct (of_B x) as (_ & -> & _). apply (generic_format_B2R 53 1024). Qed.
(** a float holding a rounded value is nearest to it *)
Lemma nearest_RN f q : okf f = true -> fin f = true -> val f = RN (Q2R q) -> nearest q f.
Proof.
  intros O F E. split; [exact O|]. destruct (val_fvalue f F) as (v & EV & RV). exists v. split; [exact EV|]. intros g w OG EG.
  destruct (fvalue_val g w EG) as (FG & RG). apply Rle_Qle. rewrite !Q2R_abs, !Q2R_minus, RV, E, RG.
  destruct (round_N_pt radix2 (FLT_exp (-1074) 53) (fun n => negb (Z.even n)) (Q2R q)) as (_ & N). apply N, val_format, OG.
Qed.
Lemma cut_trunc f q z : fvalue f = Some q -> int_of_float f = Ok z -> cut q z.
Proof.
  intros E H. destruct (fvalue_val f q E) as (F & V). rewrite trunc_val in H by exact F. injection H as <-. unfold cut. destruct (Rle_or_lt 0 (val f)) as [P|N].
  - left. rewrite Ztrunc_floor by exact P. split; [apply Rle_Qle; rewrite V, Q2R_0'; lra|]. split.
    + apply Rle_Qle. rewrite V, Q2R_Z. apply Zfloor_lb.
    + apply Rlt_Qlt. rewrite V, Q2R_Z, plus_IZR. apply Zfloor_ub.
  - right. rewrite Ztrunc_ceil by lra. split; [apply Rle_Qle; rewrite V, Q2R_0'; lra|]. split.
    + apply Rle_Qle. rewrite V, Q2R_Z. apply Zceil_ub.
    + apply Rlt_Qlt. rewrite V, Q2R_Z, minus_IZR. pose proof (Zceil_lb (val f)). lra.
Qed.

(** *** the constants *)
Definition unit_of (d : denom) : float := match d with Bits => unit_bits | MilliBtc => unit_mbtc | Btc => unit_btc end.
Definition per (d : denom) : R := IZR (satoshis_per d).
Lemma per_bounds d : (100 <= per d <= 100000000)%R.
Proof. unfold per. destruct d; cbn; lra. Qed.
Lemma unit_val d : okf (unit_of d) = true /\ fin (unit_of d) = true /\ val (unit_of d) = per d.
Proof.
  split; [destruct d; reflexivity|]. split; [destruct d; reflexivity|]. unfold per.
  assert (Q : fvalue (unit_of d) = fvalue (unit_of d)) by reflexivity. destruct (val_fvalue (unit_of d)) as (q & E & V); [destruct d; reflexivity|].
  rewrite <- V, <- Q2R_Z. apply Qeq_eqR. destruct d; vm_compute in E; injection E as <-; reflexivity.
Qed.
Lemma py_div_unit f d : py_div f (unit_of d) = Ok (f_div f (unit_of d)).
Proof. destruct d; reflexivity. Qed.
Lemma given_scaled d x : given d x = bind (scaled x (unit_of d)) set_values.
Proof. destruct d; reflexivity. Qed.

(** *** conversion of an integer *)
Lemma RN_opp x : RN (- x) = (- RN x)%R.
Proof. apply round_NE_opp. Qed.
Lemma RN_abs z : Rabs (RN (IZR z)) = RN (IZR (Z.abs z)).
Proof.
  assert (P : (0 <= RN (IZR (Z.abs z)))%R) by (rewrite <- RN_0; apply RN_le, IZR_le; lia).
  destruct (Z.le_gt_cases 0 z).
  - rewrite Z.abs_eq in * by lia. apply Rabs_pos_eq, P.
  - rewrite Z.abs_neq in * by lia. rewrite opp_IZR, RN_opp in *. rewrite Rabs_left1 by lra. reflexivity.
Qed.
Lemma mul_bpow0 z : (IZR z * bpow radix2 0 = IZR z)%R.
Proof. cbn. ring. Qed.
Lemma RN_overflow_iff z : too_large z <-> (bpow radix2 1024 <= Rabs (RN (IZR z)))%R.
Proof.
  unfold too_large. rewrite RN_abs. split; intros H.
  - eapply Rle_trans; [|apply RN_le, IZR_le, H]. apply Rnot_lt_le. intros K.
    assert (K' : (Rabs (RN (IZR (2 ^ 1024 - 2 ^ 970) * bpow radix2 0)) < bpow radix2 1024)%R) by (rewrite mul_bpow0, RN_abs; exact K).
    apply round_ok in K' as (F & _). vm_compute in F. discriminate.
  - apply Z.nlt_ge. intros K. apply Rle_not_lt in H. apply H. eapply Rle_lt_trans; [apply RN_le, IZR_le; apply Zlt_succ_le; unfold Z.succ; replace (Z.abs z) with (Z.abs z) by reflexivity; instantiate (1 := 2 ^ 1024 - 2 ^ 970 - 1); lia|].
    apply Rnot_le_lt. intros L.
    assert (L' : (bpow radix2 1024 <= Rabs (RN (IZR (2 ^ 1024 - 2 ^ 970 - 1) * bpow radix2 0)))%R) by (rewrite mul_bpow0, RN_abs; exact L).
    apply round_overflow in L' as (b & E). vm_compute in E. discriminate.
Qed.
Lemma float_of_int_ok z : ~ too_large z -> exists f, float_of_int z = Ok f /\ okf f = true /\ fin f = true /\ val f = RN (IZR z).
Proof.
  intros H. rewrite RN_overflow_iff in H. apply Rnot_le_lt in H. rewrite <- (mul_bpow0 z) in H. destruct (round_ok z 0 H) as (F & V). rewrite mul_bpow0 in V.
  exists (f_round z 0). split; [|split; [apply round_valid|split; assumption]]. unfold float_of_int. destruct (f_round z 0); try discriminate; reflexivity.
Qed.
Lemma float_of_int_err z : too_large z -> float_of_int z = Err E_OverflowError.
Proof.
  intros H. apply RN_overflow_iff in H. rewrite <- (mul_bpow0 z) in H. destruct (round_overflow z 0 H) as (b & E). unfold float_of_int. rewrite E. reflexivity.
Qed.
Lemma float_of_int_exact z : Z.abs z <= 2 ^ 53 -> exists f, float_of_int z = Ok f /\ okf f = true /\ fin f = true /\ val f = IZR z.
Proof.
  intros H. destruct (float_of_int_ok z) as (f & A & B & C & D); [unfold too_large; lia|]. exists f. rewrite RN_int in D by exact H. auto.
Qed.

(** *** the fields *)
Lemma set_int s : ~ too_large s -> exists u, set_values (NInt s) = Ok u /\ u_satoshis u = s /\
  forall d, okf (shown d u) = true /\ fin (shown d u) = true /\ val (shown d u) = RN (RN (IZR s) / per d).
Proof.
  intros H. destruct (float_of_int_ok s H) as (f & E & O & F & V). exists (Unit s (f_div f unit_bits) (f_div f unit_mbtc) (f_div f unit_btc)).
  split; [|split; [reflexivity|]].
  - unfold set_values. cbn [to_int bind]. rewrite E. cbn [bind]. rewrite (py_div_unit f Bits : py_div f unit_bits = _), (py_div_unit f MilliBtc : py_div f unit_mbtc = _), (py_div_unit f Btc : py_div f unit_btc = _).
    reflexivity.
  - intros d. replace (shown d _) with (f_div f (unit_of d)) by (destruct d; reflexivity). destruct (unit_val d) as (UO & UF & UV). pose proof (per_bounds d) as PB.
    split; [apply div_valid; assumption|]. rewrite RN_overflow_iff in H. apply Rnot_le_lt in H.
    destruct (div_ok f (unit_of d) O UO F) as (A & B); [rewrite UV; lra| |split; [exact A|rewrite B, V, UV; reflexivity]].
    rewrite V, UV. apply (RN_small _ 1018); [lia|]. unfold Rdiv. rewrite Rabs_mult, Rabs_inv, (Rabs_pos_eq (per d)) by lra.
    apply Rle_trans with (bpow radix2 1024 * / 100)%R.
    + apply Rmult_le_compat; [apply Rabs_pos|left; apply Rinv_0_lt_compat; lra|lra|apply Rinv_le; lra].
    + change 1024%Z with (1018 + 6)%Z. rewrite bpow_plus. pose proof (bpow_gt_0 radix2 1018). replace (bpow radix2 6) with 64%R by (cbn; lra). lra.
Qed.
Lemma set_int_err s : too_large s -> set_values (NInt s) = Err E_OverflowError.
Proof. intros H. unfold set_values. cbn [to_int bind]. rewrite (float_of_int_err s H). reflexivity. Qed.
Lemma Q2R_ratio s d : Q2R (s # Z.to_pos (satoshis_per d)) = (IZR s / per d)%R.
Proof. unfold Q2R, per. cbn [Qnum Qden]. destruct d; cbn; reflexivity. Qed.

Lemma unit_fields s u : unit_init (Some (NInt s)) None None None = Ok u -> u_satoshis u = s /\ 
  (Z.abs s <= 2 ^ 53 -> forall d, nearest (s # Z.to_pos (satoshis_per d)) (shown d u)).
Proof.
  cbn [unit_init]. intros E. assert (H : ~ too_large s) by (intros K; rewrite (set_int_err s K) in E; discriminate).
  destruct (set_int s H) as (u' & E' & A & B). rewrite E in E'. injection E' as <-. split; [exact A|]. intros S0 d. destruct (B d) as (O & F & V).
  apply nearest_RN; [exact O|exact F|]. rewrite V, Q2R_ratio, RN_int by exact S0. reflexivity.
Qed.
Lemma unit_init_int s b m c : (~ too_large s -> exists u, unit_init (Some (NInt s)) b m c = Ok u /\ u_satoshis u = s) /\
  (too_large s -> unit_init (Some (NInt s)) b m c = Err E_OverflowError).
Proof.
  split; intros H; cbn [unit_init].
  - destruct (set_int s H) as (u & E & A & _). exists u. auto.
  - apply set_int_err, H.
Qed.

(** *** there and back *)
Definition eps : R := bpow radix2 (-53).
Lemma eps_bounds : (0 < eps /\ eps * 4503599627370496 * 2 = 1)%R.
Proof. unfold eps. split; [apply bpow_gt_0|]. cbn. lra. Qed.
Lemma trunc_near m s : s <> 0 -> (Rabs (m - IZR s) < 1)%R -> Ztrunc m = s \/ Ztrunc m = s - Z.sgn s.
Proof.
  intros NZ H. apply Rabs_lt_inv in H as (A & B). destruct (Z.lt_ge_cases s 0) as [N|P].
  - assert (IZR s <= -1)%R by (apply IZR_le; lia). rewrite Ztrunc_ceil by lra. rewrite Z.sgn_neg by exact N.
    pose proof (Zceil_ub m) as U. pose proof (Zceil_lb m) as L. assert (s - 1 < Zceil m < s + 2) as (X & Y).
    { split; apply lt_IZR; rewrite ?minus_IZR, ?plus_IZR; lra. }
    lia.
  - assert (1 <= IZR s)%R by (apply IZR_le; lia). rewrite Ztrunc_floor by lra. rewrite Z.sgn_pos by lia.
    pose proof (Zfloor_lb m) as U. pose proof (Zfloor_ub m) as L. assert (s - 2 < Zfloor m < s + 1) as (X & Y).
    { split; apply lt_IZR; rewrite ?minus_IZR, ?plus_IZR; lra. }
    lia.
Qed.
(** the float product of a shown amount and its unit *)
Lemma back_error s d : s <> 0 -> Z.abs s < 2 ^ 53 -> exists e, (Rabs e <= 2 * eps + eps * eps)%R /\
  RN (RN (IZR s / per d) * per d) = (IZR s * (1 + e))%R /\ (Rabs (RN (IZR s / per d)) <= bpow radix2 53)%R.
Proof.
  intros NZ B. pose proof (per_bounds d) as PB. pose proof eps_bounds as (E0 & E1).
  assert (S1 : (1 <= Rabs (IZR s))%R) by (rewrite <- abs_IZR; apply IZR_le; lia).
  assert (S2 : (Rabs (IZR s) <= bpow radix2 53)%R) by (rewrite <- abs_IZR; replace (bpow radix2 53) with (IZR (2 ^ 53)) by reflexivity; apply IZR_le; lia).
  assert (X : (Rabs (IZR s / per d) = Rabs (IZR s) * / per d)%R) by (unfold Rdiv; rewrite Rabs_mult, Rabs_inv, (Rabs_pos_eq (per d)) by lra; reflexivity).
  assert (I : (0 < / per d <= 1)%R) by (split; [apply Rinv_0_lt_compat; lra|]; rewrite <- Rinv_1; apply Rinv_le; lra).
  assert (SM : (bpow radix2 (-1022) <= bpow radix2 (-53))%R) by (apply bpow_le; lia).
  assert (I2 : (bpow radix2 (-53) <= / per d)%R) by (change (-53)%Z with (- (53))%Z; rewrite bpow_opp; apply Rinv_le; [lra|]; replace (bpow radix2 53) with (IZR (2 ^ 53)) by reflexivity; cbn; lra).
  destruct (RN_rel (IZR s / per d)) as (d1 & D1 & Q1); [rewrite X; nra|]. fold eps in D1.
  destruct (RN_rel (RN (IZR s / per d) * per d)) as (d2 & D2 & Q2).
  { rewrite Q1. replace (IZR s / per d * (1 + d1) * per d)%R with (IZR s * (1 + d1))%R by (field; lra). rewrite Rabs_mult.
    assert (/ 2 <= Rabs (1 + d1))%R by (apply Rabs_le_inv in D1; rewrite Rabs_pos_eq; lra). assert (bpow radix2 (-53) <= / 2)%R by (cbn; lra). nra. }
  fold eps in D2. exists (d1 + d2 + d1 * d2)%R. split; [|split].
  - eapply Rle_trans; [apply Rabs_triang|]. rewrite Rabs_mult. eapply Rle_trans; [apply Rplus_le_compat_r, Rabs_triang|].
    pose proof (Rabs_pos d1). pose proof (Rabs_pos d2). nra.
  - rewrite Q2, Q1. field. lra.
  - apply RN_bound; [lia|]. rewrite X. nra.
Qed.
Lemma there_and_back s d : s <> 0 -> Z.abs s < 2 ^ 53 -> exists u u' e, unit_init (Some (NInt s)) None None None = Ok u /\ given d (NFloat (shown d u)) = Ok u' /\
  (Rabs e <= 2 * eps + eps * eps)%R /\ u_satoshis u' = Ztrunc (IZR s * (1 + e)).
Proof.
  intros NZ B. destruct (set_int s) as (u & E & S0 & A); [unfold too_large; lia|]. destruct (A d) as (O & F & V). rewrite RN_int in V by lia.
  destruct (back_error s d NZ B) as (e & EB & EV & BB). destruct (unit_val d) as (UO & UF & UV). pose proof (per_bounds d) as PB. pose proof eps_bounds as (E0 & E1).
  destruct (mul_ok (shown d u) (unit_of d) O UO F UF) as (MF & MV).
  { rewrite V, UV. apply (RN_small _ 83); [lia|]. rewrite Rabs_mult, (Rabs_pos_eq (per d)) by lra. change 83 with (53 + 30). rewrite bpow_plus.
    apply Rmult_le_compat; [apply Rabs_pos|lra|exact BB|]. replace (bpow radix2 30) with (IZR (2 ^ 30)) by reflexivity. cbn. lra. }
  rewrite V, UV, EV in MV. pose proof (trunc_val _ MF) as T. rewrite MV in T.
  assert (NB : ~ too_large (Ztrunc (IZR s * (1 + e)))).
  { unfold too_large. assert (Z.abs (Ztrunc (IZR s * (1 + e))) <= 2 ^ 54).
    { rewrite <- Ztrunc_abs, Ztrunc_floor by apply Rabs_pos. apply le_IZR. eapply Rle_trans; [apply Zfloor_lb|]. rewrite Rabs_mult. replace (IZR (2 ^ 54)) with (IZR (2 ^ 53) * 2)%R by (cbn; lra).
      apply Rmult_le_compat; [apply Rabs_pos|apply Rabs_pos|rewrite <- abs_IZR; apply IZR_le; lia|]. eapply Rle_trans; [apply Rabs_triang|]. rewrite Rabs_R1. nra. }
    lia. }
  destruct (set_int _ NB) as (u' & E' & S1 & _). exists u, u', e. split; [exact E|]. split; [|split; [exact EB|exact S1]].
  rewrite given_scaled. unfold scaled. cbn [to_float bind]. unfold set_values in *. cbn [to_int] in *. rewrite T. exact E'.
Qed.
Lemma zero_back d : exists u u', unit_init (Some (NInt 0)) None None None = Ok u /\ given d (NFloat (shown d u)) = Ok u' /\ u_satoshis u' = 0.
Proof. destruct d; do 2 eexists; (split; [vm_compute; reflexivity|]; split; [vm_compute; reflexivity|reflexivity]). Qed.
Lemma unit_roundtrip s d : Z.abs s < 2 ^ 52 -> exists u u', unit_init (Some (NInt s)) None None None = Ok u /\ given d (NFloat (shown d u)) = Ok u' /\
  (u_satoshis u' = s \/ u_satoshis u' = s - Z.sgn s).
Proof.
  intros B. destruct (Z.eq_dec s 0) as [->|NZ].
  - destruct (zero_back d) as (u & u' & A & C & D). exists u, u'. auto.
  - destruct (there_and_back s d NZ ltac:(lia)) as (u & u' & e & A & C & EB & SU). exists u, u'. split; [exact A|]. split; [exact C|]. rewrite SU. apply trunc_near; [exact NZ|].
    replace (IZR s * (1 + e) - IZR s)%R with (IZR s * e)%R by ring. rewrite Rabs_mult. pose proof eps_bounds as (E0 & E1).
    assert (S2 : (Rabs (IZR s) <= 4503599627370495)%R) by (rewrite <- abs_IZR; apply IZR_le; lia).
    apply Rle_lt_trans with (4503599627370495 * (2 * eps + eps * eps))%R; [apply Rmult_le_compat; try apply Rabs_pos; assumption|]. nra.
Qed.
(** whole multiples of the denomination survive *)
Lemma whole_exact z d : Z.abs (z * satoshis_per d) <= 2 ^ 53 ->
  exists u, given d (NInt z) = Ok u /\ u_satoshis u = z * satoshis_per d.
Proof.
  intros B. assert (PZ : 100 <= satoshis_per d) by (destruct d; cbn; lia). assert (BZ : Z.abs z <= 2 ^ 53) by nia.
  destruct (float_of_int_exact z BZ) as (f & E & O & F & V). destruct (unit_val d) as (UO & UF & UV).
  assert (P : RN (val f * val (unit_of d)) = IZR (z * satoshis_per d)) by (rewrite V, UV; unfold per; rewrite <- mult_IZR; apply RN_int, B).
  destruct (mul_ok f (unit_of d) O UO F UF) as (MF & MV).
  { rewrite P, <- abs_IZR. apply Rle_lt_trans with (IZR (2 ^ 53)); [apply IZR_le, B|]. change (IZR (2 ^ 53)) with (bpow radix2 53). apply bpow_lt. lia. }
  pose proof (trunc_val _ MF) as T. rewrite MV, P, Ztrunc_IZR in T. destruct (set_int (z * satoshis_per d)) as (u & EU & SU & _); [unfold too_large; lia|].
  exists u. split; [|exact SU]. rewrite given_scaled. unfold scaled. cbn [to_float]. rewrite E. cbn [bind]. unfold set_values in *. cbn [to_int] in *. rewrite T. exact EU.
Qed.
Lemma whole_back z d : Z.abs (z * satoshis_per d) <= 2 ^ 53 ->
  exists u u', unit_init (Some (NInt (z * satoshis_per d))) None None None = Ok u /\ given d (NFloat (shown d u)) = Ok u' /\ u_satoshis u' = z * satoshis_per d.
Proof.
  intros B. assert (PZ : 100 <= satoshis_per d) by (destruct d; cbn; lia). assert (BZ : Z.abs z <= 2 ^ 53) by nia. pose proof (per_bounds d) as PB.
  destruct (set_int (z * satoshis_per d)) as (u & EU & SU & A); [unfold too_large; lia|]. destruct (A d) as (O & F & V). destruct (unit_val d) as (UO & UF & UV).
  rewrite RN_int in V by exact B. replace (IZR (z * satoshis_per d) / per d)%R with (IZR z) in V by (rewrite mult_IZR; unfold per in *; field; lra). rewrite RN_int in V by exact BZ.
  assert (P : RN (val (shown d u) * val (unit_of d)) = IZR (z * satoshis_per d)) by (rewrite V, UV; unfold per; rewrite <- mult_IZR; apply RN_int, B).
  destruct (mul_ok (shown d u) (unit_of d) O UO F UF) as (MF & MV).
  { rewrite P, <- abs_IZR. apply Rle_lt_trans with (IZR (2 ^ 53)); [apply IZR_le, B|]. change (IZR (2 ^ 53)) with (bpow radix2 53). apply bpow_lt. lia. }
  pose proof (trunc_val _ MF) as T. rewrite MV, P, Ztrunc_IZR in T. exists u, u. split; [exact EU|]. split; [|exact SU].
  rewrite given_scaled. unfold scaled. cbn [to_float bind]. unfold set_values in *. cbn [to_int] in *. rewrite T. exact EU.
Qed.
(** *** different amounts look different, and larger ones larger *)
Lemma unit_injective s t d u v : Z.abs s < 2 ^ 51 -> Z.abs t < 2 ^ 51 ->
  unit_init (Some (NInt s)) None None None = Ok u -> unit_init (Some (NInt t)) None None None = Ok v -> fvalue (shown d u) = fvalue (shown d v) -> s = t.
Proof.
  intros BS BT EU EV E. cbn [unit_init] in EU, EV.
  destruct (set_int s) as (u' & EU' & _ & A); [unfold too_large; lia|]. rewrite EU in EU'. injection EU' as <-.
  destruct (set_int t) as (v' & EV' & _ & A'); [unfold too_large; lia|]. rewrite EV in EV'. injection EV' as <-.
  destruct (A d) as (_ & F & V), (A' d) as (_ & F' & V'). rewrite RN_int in V, V' by lia.
  destruct (val_fvalue _ F) as (q & Q1 & Q2). destruct (val_fvalue _ F') as (q' & Q1' & Q2'). rewrite Q1, Q1' in E. injection E as <-. rewrite Q2 in Q2'. rewrite V, V' in Q2'. clear - BS BT Q2'.
  assert (N : forall s, Z.abs s < 2 ^ 51 -> (Rabs (RN (RN (IZR s / per d) * per d) - IZR s) < / 2)%R).
  { clear. intros s B. destruct (Z.eq_dec s 0) as [->|NZ].
    - unfold Rdiv. rewrite Rmult_0_l, RN_0, Rmult_0_l, RN_0, Rminus_0_r, Rabs_R0. lra.
    - destruct (back_error s d NZ ltac:(lia)) as (e & EB & -> & _). replace (IZR s * (1 + e) - IZR s)%R with (IZR s * e)%R by ring. rewrite Rabs_mult. pose proof eps_bounds as (E0 & E1).
      assert (S2 : (Rabs (IZR s) <= 2251799813685247)%R) by (rewrite <- abs_IZR; apply IZR_le; lia).
      apply Rle_lt_trans with (2251799813685247 * (2 * eps + eps * eps))%R; [apply Rmult_le_compat; try apply Rabs_pos; assumption|]. nra. }
  pose proof (N s BS) as NS. pose proof (N t BT) as NT. rewrite Q2' in NS. apply Rabs_lt_inv in NS, NT. assert (s - t < 1 /\ t - s < 1) by (split; apply lt_IZR; rewrite minus_IZR; lra). lia.
Qed.
Lemma unit_monotone s t d u v q r : s <= t -> unit_init (Some (NInt s)) None None None = Ok u -> unit_init (Some (NInt t)) None None None = Ok v ->
  fvalue (shown d u) = Some q -> fvalue (shown d v) = Some r -> (q <= r)%Q.
Proof.
  intros L EU EV Q1 R1. cbn [unit_init] in EU, EV.
  destruct (set_int s) as (u' & EU' & _ & A); [intros K; rewrite (set_int_err _ K) in EU; discriminate|]. rewrite EU in EU'. injection EU' as <-.
  destruct (set_int t) as (v' & EV' & _ & A'); [intros K; rewrite (set_int_err _ K) in EV; discriminate|]. rewrite EV in EV'. injection EV' as <-.
  destruct (A d) as (_ & _ & V), (A' d) as (_ & _ & V'). apply Rle_Qle. destruct (fvalue_val _ _ Q1) as (_ & ->), (fvalue_val _ _ R1) as (_ & ->). rewrite V, V'.
  apply RN_le. apply Rmult_le_compat_r; [left; apply Rinv_0_lt_compat; pose proof (per_bounds d); lra|]. apply RN_le, IZR_le, L.
Qed.
Lemma unit_always_shown s d u : unit_init (Some (NInt s)) None None None = Ok u -> is_float (shown d u) /\ exists q, fvalue (shown d u) = Some q.
Proof.
  cbn [unit_init]. intros EU. destruct (set_int s) as (u' & EU' & _ & A); [intros K; rewrite (set_int_err _ K) in EU; discriminate|]. rewrite EU in EU'. injection EU' as <-.
  destruct (A d) as (O & F & _). split; [exact O|]. destruct (val_fvalue _ F) as (q & Q & _). exists q. exact Q.
Qed.
(** *** floats *)
Lemma unit_float f u : unit_init (Some (NFloat f)) None None None = Ok u -> exists q, fvalue f = Some q /\ cut q (u_satoshis u).
Proof.
  cbn [unit_init]. unfold set_values. cbn [to_int]. intros E. destruct (int_of_float f) as [z|e] eqn:I; [|discriminate]. cbn [bind] in E.
  destruct (val_fvalue f) as (q & Q & _); [destruct f; (discriminate || reflexivity)|]. exists q. split; [exact Q|].
  assert (u_satoshis u = z) as ->; [|exact (cut_trunc f q z Q I)].
  destruct (float_of_int z) as [g|]; [|discriminate]. cbn [bind] in E.
  rewrite (py_div_unit g Bits : py_div g unit_bits = _), (py_div_unit g MilliBtc : py_div g unit_mbtc = _), (py_div_unit g Btc : py_div g unit_btc = _) in E. cbn [bind] in E. injection E as <-. reflexivity.
Qed.
Lemma set_float f z : int_of_float f = Ok z -> set_values (NFloat f) = set_values (NInt z).
Proof. intros H. unfold set_values. cbn [to_int]. rewrite H. reflexivity. Qed.
Lemma set_values_err x e : set_values x = Err e -> match x with
  | NFloat S754_nan => e = E_ValueError
  | NFloat (S754_infinity _) => e = E_OverflowError
  | NFloat f => is_float f -> False
  | NInt z => too_large z /\ e = E_OverflowError
  end.
Proof.
  intros E. assert (D : forall z, set_values (NInt z) = Err e -> too_large z /\ e = E_OverflowError).
  { clear. intros z E. destruct (Z.le_gt_cases (2 ^ 1024 - 2 ^ 970) (Z.abs z)) as [K|K].
    - rewrite (set_int_err _ K) in E. split; [exact K|congruence].
    - destruct (set_int z) as (u & E' & _); [unfold too_large; lia|]. congruence. }
  destruct x as [z|f]; [apply D, E|]. destruct f as [s|s| |s m k].
  - discriminate.
  - cbn in E. congruence.
  - cbn in E. congruence.
  - intros O. assert (I : exists z, int_of_float (S754_finite s m k) = Ok z) by (eexists; reflexivity). destruct I as (z & I).
    rewrite (set_float _ _ I) in E. apply D in E as (L & _). rewrite trunc_val in I by reflexivity. assert (T : Ztrunc (val (S754_finite s m k)) = z) by congruence.
    apply to_B in O as (x & X). rewrite X in T. destruct (of_B x) as (_ & V & _). rewrite V in T. pose proof (abs_B2R_le_emax_minus_prec 53 1024 Hprec x) as M.
    unfold too_large in L. rewrite <- T, <- Ztrunc_abs, Ztrunc_floor in L by apply Rabs_pos.
    assert (C : 2 ^ 1024 - 2 ^ 970 <= 2 ^ 1024 - 2 ^ 971); [|vm_compute in C; congruence].
    apply (Z.le_trans _ _ _ L). apply le_IZR. eapply Rle_trans; [apply Zfloor_lb|]. eapply Rle_trans; [exact M|]. apply Req_le. rewrite minus_IZR. reflexivity.
Qed.
Lemma mul_inv x y : okf x = true -> okf y = true -> fin (f_mul x y) = true -> fin x = true /\ fin y = true /\ val (f_mul x y) = RN (val x * val y).
Proof.
  intros X Y FM. assert (F : fin x = true /\ fin y = true) by (destruct x, y; try discriminate FM; split; reflexivity). destruct F as (FX & FY). split; [exact FX|]. split; [exact FY|].
  destruct (Rlt_or_le (Rabs (RN (val x * val y))) (bpow radix2 1024)) as [L|L]; [apply mul_ok; assumption|].
  exfalso. apply to_B in X as (a & ->). apply to_B in Y as (b & ->). rewrite mul_NE in FM. destruct (of_B a) as (_ & VA & _), (of_B b) as (_ & VB & _). rewrite VA, VB in L.
  pose proof (Bmult_correct 53 1024 P_Float.Hprec P_Float.Hmax mode_NE a b) as C. rewrite fexp_FLT in C. cbn [round_mode] in C. fold (RN (B2R a * B2R b)) in C.
  rewrite Rlt_bool_false in C by exact L. rewrite C in FM. destruct (xorb _ _); discriminate.
Qed.
Lemma set_values_float f u : set_values (NFloat f) = Ok u -> fin f = true /\ u_satoshis u = Ztrunc (val f).
Proof.
  intros E. destruct (int_of_float f) as [z|e] eqn:I; [|unfold set_values in E; cbn [to_int] in E; rewrite I in E; discriminate].
  rewrite (set_float _ _ I) in E. assert (F : fin f = true) by (destruct f; (discriminate || reflexivity)). split; [exact F|]. rewrite trunc_val in I by exact F.
  destruct (set_int z) as (u' & E' & S0 & _); [intros K; rewrite (set_int_err _ K) in E; discriminate|]. congruence.
Qed.
Lemma given_float d f u : is_float f -> given d (NFloat f) = Ok u -> exists q g w, fvalue f = Some q /\
  nearest (q * inject_Z (satoshis_per d)) g /\ fvalue g = Some w /\ cut w (u_satoshis u).
Proof.
  intros O E. rewrite given_scaled in E. unfold scaled in E. cbn [to_float bind] in E. destruct (unit_val d) as (UO & UF & UV).
  destruct (set_values_float _ _ E) as (FM & SU). destruct (mul_inv f (unit_of d) O UO FM) as (FX & _ & V).
  destruct (val_fvalue f FX) as (q & Q & QV). destruct (val_fvalue _ FM) as (w & W & WV). exists q, (f_mul f (unit_of d)), w. split; [exact Q|]. split; [|split; [exact W|]].
  - apply nearest_RN; [apply mul_valid; assumption|exact FM|]. rewrite V, Q2R_mult, Q2R_Z, QV, UV. reflexivity.
  - apply (cut_trunc _ _ _ W). rewrite trunc_val by exact FM. congruence.
Qed.
Lemma given_err d x e : match x with NFloat f => is_float f | NInt _ => True end -> given d x = Err e ->
  e = E_OverflowError \/ (e = E_ValueError /\ x = NFloat S754_nan).
Proof.
  intros O E. rewrite given_scaled in E. unfold scaled in E. destruct (unit_val d) as (UO & UF & _).
  assert (P : forall f, okf f = true -> f <> S754_nan -> set_values (NFloat (f_mul f (unit_of d))) = Err e -> e = E_OverflowError).
  { intros f OF NN H. pose proof (mul_valid f (unit_of d) OF UO) as OM. apply set_values_err in H.
    assert (NM : f_mul f (unit_of d) <> S754_nan).
    { apply to_B in OF as (a & ->). destruct (to_B _ UO) as (b & EB). assert (BF : is_finite b = true) by (rewrite EB in UF; destruct (of_B b) as (_ & _ & <-); exact UF).
      assert (BZ : B2R b <> 0%R) by (destruct (of_B b) as (_ & <- & _); rewrite <- EB; destruct (unit_val d) as (_ & _ & ->); pose proof (per_bounds d); lra).
      rewrite EB, mul_NE. destruct a as [sa|sa| |sa ma ea Ha]; try contradiction (NN eq_refl); destruct b as [sb|sb| |sb mb eb Hb]; try discriminate BF; try (contradiction BZ; reflexivity); try discriminate.
      pose proof (Bmult_correct 53 1024 P_Float.Hprec P_Float.Hmax mode_NE (B754_finite sa ma ea Ha) (B754_finite sb mb eb Hb)) as C. destruct (Rlt_bool _ _).
      - destruct C as (_ & C & _). intros K. destruct (Bmult _ _ _); discriminate.
      - rewrite C. destruct (xorb _ _); discriminate. }
    destruct (f_mul f (unit_of d)); [contradiction (H OM)|exact H|contradiction (NM eq_refl)|contradiction (H OM)]. }
  destruct x as [z|f]; cbn [to_float] in E.
  - destruct (Z.le_gt_cases (2 ^ 1024 - 2 ^ 970) (Z.abs z)) as [K|K].
    + rewrite (float_of_int_err z K) in E. left. cbn in E. congruence.
    + destruct (float_of_int_ok z) as (f & EF & OF & FF & _); [unfold too_large; lia|]. rewrite EF in E. left. apply (P f OF); [intros ->; discriminate|exact E].
  - cbn [bind] in E. destruct f as [s|s| |s m k] eqn:EF; try (left; apply (P f); [rewrite EF; exact O|rewrite EF; discriminate|rewrite EF; exact E]).
    right. split; [|reflexivity]. destruct d; cbn in E; congruence.
Qed.
Lemma unit_nothing : unit_init None None None None = Err E_ValueError.
Proof. reflexivity. Qed.
Lemma unit_first_wins x b m c : unit_init (Some x) b m c = unit_init (Some x) None None None /\ unit_init None (Some x) m c = given Bits x /\
  unit_init None None (Some x) c = given MilliBtc x.
Proof. repeat split. Qed.
Lemma unit_not_exact : ~ (forall s u u', Z.abs s <= 21 * 10 ^ 14 -> unit_init (Some (NInt s)) None None None = Ok u -> unit_init None None None (Some (NFloat (u_btc u))) = Ok u' -> u_satoshis u' = s).
Proof.
  intros H. assert (exists u u', unit_init (Some (NInt 3)) None None None = Ok u /\ unit_init None None None (Some (NFloat (u_btc u))) = Ok u' /\ u_satoshis u' = 2) as (u & u' & A & B & C)
    by (do 2 eexists; split; [vm_compute; reflexivity|]; split; [vm_compute; reflexivity|reflexivity]).
  specialize (H 3 u u' ltac:(lia) A B). congruence.
Qed.
Lemma unit_not_exact_any d : ~ (forall s u u', Z.abs s <= 21 * 10 ^ 14 -> unit_init (Some (NInt s)) None None None = Ok u -> given d (NFloat (shown d u)) = Ok u' -> u_satoshis u' = s).
Proof.
  intros H. set (s := match d with Bits => 29 | MilliBtc => 7 | Btc => 3 end).
  assert (exists u u', unit_init (Some (NInt s)) None None None = Ok u /\ given d (NFloat (shown d u)) = Ok u' /\ u_satoshis u' = s - 1) as (u & u' & A & B & C)
    by (destruct d; do 2 eexists; (split; [vm_compute; reflexivity|]; split; [vm_compute; reflexivity|reflexivity])).
  specialize (H s u u' ltac:(destruct d; cbn; lia) A B). lia.
Qed.

(** *** fiat money *)
Lemma rel_compose a b ea eb : (Rabs a <= ea)%R -> (Rabs b <= eb)%R -> exists c, (Rabs c <= ea + eb + ea * eb)%R /\ ((1 + a) * (1 + b) = 1 + c)%R.
Proof.
  intros A B. exists (a + b + a * b)%R. split; [|ring]. eapply Rle_trans; [apply Rabs_triang|]. rewrite Rabs_mult. eapply Rle_trans; [apply Rplus_le_compat_r, Rabs_triang|].
  pose proof (Rabs_pos a). pose proof (Rabs_pos b). nra.
Qed.
Lemma step_rel x d0 e0 : (bpow radix2 (-900) <= Rabs x <= bpow radix2 900)%R -> (Rabs d0 <= e0)%R -> (0 <= e0 <= / 4)%R ->
  exists d1, (Rabs d1 <= e0 + eps + e0 * eps)%R /\ RN (x * (1 + d0)) = (x * (1 + d1))%R /\ (Rabs (RN (x * (1 + d0))) < bpow radix2 1024)%R.
Proof.
  intros (L & U) D E. assert (N : (/ 2 <= Rabs (1 + d0) <= 2)%R) by (apply Rabs_le_inv in D; rewrite Rabs_pos_eq; lra).
  pose proof (bpow_gt_0 radix2 (-900)). assert (B1 : (bpow radix2 (-1022) <= bpow radix2 (-900) * / 2)%R) by (change (/ 2)%R with (bpow radix2 (-1)); rewrite <- bpow_plus; apply bpow_le; lia).
  destruct (RN_rel (x * (1 + d0))) as (d2 & D2 & Q); [rewrite Rabs_mult; nra|]. fold eps in D2. destruct (rel_compose d0 d2 e0 eps D D2) as (c & C & CE). exists c.
  split; [exact C|]. split; [rewrite Q, Rmult_assoc, CE; reflexivity|]. apply (RN_small _ 901); [lia|]. rewrite Rabs_mult. change 901 with (900 + 1). rewrite bpow_plus.
  apply Rmult_le_compat; try apply Rabs_pos; try assumption. cbn. lra.
Qed.
Lemma fiat_back s r w : Z.abs s <= 21 * 10 ^ 14 -> is_float r -> fvalue r = Some w -> (Qpower 2 (-64) <= Qabs w)%Q -> (Qabs w <= Qpower 2 64)%Q ->
  exists u x u', unit_init (Some (NInt s)) None None None = Ok u /\ at_rate u (NFloat r) = Ok x /\ from_fiat (NFloat x) (NFloat r) = Ok u' /\
    (u_satoshis u' = s \/ u_satoshis u' = s - Z.sgn s).
Proof.
  intros B O W WL WU. destruct (fvalue_val r w W) as (FR & VW). apply Qle_Rle in WL, WU. rewrite Q2R_abs, VW in WL, WU. change (2 # 1)%Q with (inject_Z 2) in WL, WU. rewrite Q2R_pow2 in WL, WU.
  assert (RZ : val r <> 0%R) by (intros K; rewrite K, Rabs_R0 in WL; pose proof (bpow_gt_0 radix2 (-64)); lra).
  destruct (set_int s) as (u & E & S0 & A); [unfold too_large; lia|]. destruct (A Btc) as (OB & FB & VB). rewrite RN_int in VB by lia. cbn [shown] in *.
  exists u. cbn [at_rate to_float bind]. unfold at_rate. cbn [to_float bind]. exists (f_mul (u_btc u) r).
  assert (D0 : exists b, r = b /\ py_div (f_mul (u_btc u) r) r = Ok (f_div (f_mul (u_btc u) r) r)) by (exists r; split; [reflexivity|]; destruct r; try reflexivity; exfalso; apply RZ; reflexivity).
  destruct D0 as (_ & _ & PD). unfold from_fiat. cbn [to_float bind]. rewrite PD. cbn [bind]. change (unit_init None None None (Some (NFloat (f_div (f_mul (u_btc u) r) r)))) with (given Btc (NFloat (f_div (f_mul (u_btc u) r) r))).
  rewrite given_scaled. unfold scaled. cbn [to_float bind]. destruct (unit_val Btc) as (UO & UF & UV). pose proof (per_bounds Btc) as PB. pose proof eps_bounds as (E0 & E1).
  assert (MV : okf (f_mul (u_btc u) r) = true) by (apply mul_valid; assumption). assert (DV : okf (f_div (f_mul (u_btc u) r) r) = true) by (apply div_valid; assumption).
  destruct (Z.eq_dec s 0) as [->|NZ].
  - assert (Z0 : val (u_btc u) = 0%R) by (rewrite VB; unfold Rdiv; rewrite Rmult_0_l; apply RN_0).
    assert (B0 : (Rabs (RN 0) < bpow radix2 1024)%R) by (rewrite RN_0, Rabs_R0; apply bpow_gt_0).
    destruct (mul_ok _ r OB O FB FR) as (F1 & V1); [rewrite Z0, Rmult_0_l; exact B0|]. rewrite Z0, Rmult_0_l, RN_0 in V1.
    destruct (div_ok _ r MV O F1 RZ) as (F2 & V2); [rewrite V1; unfold Rdiv; rewrite Rmult_0_l; exact B0|]. rewrite V1 in V2. unfold Rdiv in V2. rewrite Rmult_0_l, RN_0 in V2.
    destruct (mul_ok _ (unit_of Btc) DV UO F2 UF) as (F3 & V3); [rewrite V2, Rmult_0_l; exact B0|]. rewrite V2, Rmult_0_l, RN_0 in V3.
    pose proof (trunc_val _ F3) as T. rewrite V3, Ztrunc_IZR in T. exists u. split; [exact E|]. split; [reflexivity|]. split; [|left; exact S0]. rewrite (set_float _ _ T). exact E.
  - assert (S1 : (1 <= Rabs (IZR s))%R) by (rewrite <- abs_IZR; apply IZR_le; lia).
    assert (S2 : (Rabs (IZR s) <= 2100000000000000)%R) by (rewrite <- abs_IZR; apply IZR_le; lia).
    assert (X : (bpow radix2 (-30) <= Rabs (IZR s / per Btc) <= bpow radix2 60)%R).
    { unfold Rdiv. rewrite Rabs_mult, Rabs_inv, (Rabs_pos_eq (per Btc)) by lra. unfold per. cbn [satoshis_per]. replace (bpow radix2 60) with (IZR (2 ^ 60)) by reflexivity.
      replace (bpow radix2 (-30)) with (/ IZR (2 ^ 30))%R by reflexivity. cbn [Z.pow Z.pow_pos Pos.iter Z.mul Pos.mul]. assert (/ 1073741824 <= / 100000000)%R by (apply Rinv_le; lra).
      assert (/ 100000000 <= 1)%R by (rewrite <- Rinv_1; apply Rinv_le; lra). assert (0 < / 100000000)%R by (apply Rinv_0_lt_compat; lra). split; nra. }
    assert (Y : (bpow radix2 (-94) <= Rabs (IZR s / per Btc * val r) <= bpow radix2 124)%R).
    { rewrite Rabs_mult. change (-94) with (-30 + -64). change 124 with (60 + 64). rewrite !bpow_plus.
      pose proof (bpow_gt_0 radix2 (-30)). pose proof (bpow_gt_0 radix2 (-64)). split; apply Rmult_le_compat; try apply Rabs_pos; lra. }
    assert (M1 : (bpow radix2 (-900) <= bpow radix2 (-94))%R) by (apply bpow_le; lia). assert (M2 : (bpow radix2 124 <= bpow radix2 900)%R) by (apply bpow_le; lia).
    assert (M3 : (bpow radix2 (-900) <= bpow radix2 (-30))%R) by (apply bpow_le; lia). assert (M4 : (bpow radix2 60 <= bpow radix2 900)%R) by (apply bpow_le; lia).
    assert (ES : (eps <= / 1000000)%R) by lra.
    destruct (step_rel (IZR s / per Btc) 0 0) as (d1 & D1 & Q1 & _); [lra|rewrite Rabs_R0; lra|lra|]. rewrite Rplus_0_r, Rmult_1_r in Q1. rewrite Q1 in VB.
    assert (D1' : (Rabs d1 <= eps)%R) by lra.
    destruct (step_rel (IZR s / per Btc * val r) d1 eps) as (d2 & D2 & Q2 & L2); [lra|exact D1'|lra|].
    assert (EE : (0 <= eps * eps <= eps * / 1000000)%R) by (split; [apply Rmult_le_pos; lra|apply Rmult_le_compat_l; lra]).
    assert (D2' : (Rabs d2 <= 2.001 * eps)%R) by lra. clear D1 D2.
    replace (IZR s / per Btc * val r * (1 + d1))%R with (val (u_btc u) * val r)%R in Q2, L2 by (rewrite VB; ring).
    destruct (mul_ok _ r OB O FB FR L2) as (F1 & V1). rewrite Q2 in V1.
    destruct (step_rel (IZR s / per Btc) d2 _ ltac:(lra) D2') as (d3 & D3 & Q3 & L3); [lra|].
    assert (D3' : (Rabs d3 <= 3.002 * eps)%R) by (rewrite Rmult_assoc in D3; lra). clear D3.
    replace (IZR s / per Btc * (1 + d2))%R with (val (f_mul (u_btc u) r) / val r)%R in Q3, L3 by (rewrite V1; field; split; first [exact RZ|lra]).
    destruct (div_ok _ r MV O F1 RZ L3) as (F2 & V2). rewrite Q3 in V2.
    assert (SB : (bpow radix2 (-900) <= Rabs (IZR s) <= bpow radix2 900)%R).
    { split; [apply Rle_trans with (bpow radix2 0); [apply bpow_le; lia|exact S1]|]. apply Rle_trans with (bpow radix2 60); [|exact M4]. eapply Rle_trans; [exact S2|].
      replace (bpow radix2 60) with (IZR (2 ^ 60)) by reflexivity. apply IZR_le. lia. }
    destruct (step_rel (IZR s) d3 _ SB D3') as (d4 & D4 & Q4 & L4); [lra|].
    assert (D4' : (Rabs d4 <= 4.003 * eps)%R) by (rewrite Rmult_assoc in D4; lra). clear D4.
    replace (IZR s * (1 + d3))%R with (val (f_div (f_mul (u_btc u) r) r) * val (unit_of Btc))%R in Q4, L4 by (rewrite V2, UV; field; lra).
    destruct (mul_ok _ _ DV UO F2 UF L4) as (F3 & V3). rewrite Q4 in V3.
    pose proof (trunc_val _ F3) as T. rewrite (set_float _ _ T), V3.
    assert (NR : Ztrunc (IZR s * (1 + d4)) = s \/ Ztrunc (IZR s * (1 + d4)) = s - Z.sgn s).
    { apply trunc_near; [exact NZ|]. replace (IZR s * (1 + d4) - IZR s)%R with (IZR s * d4)%R by ring. rewrite Rabs_mult.
      apply Rle_lt_trans with (2100000000000000 * Rabs d4)%R; [apply Rmult_le_compat_r; [apply Rabs_pos|exact S2]|]. lra. }
    destruct (set_int (Ztrunc (IZR s * (1 + d4)))) as (u' & EU & SU & _); [unfold too_large; lia|]. exists u'. split; [exact E|]. split; [reflexivity|]. split; [exact EU|]. rewrite SU. exact NR.
Qed.
Lemma fiat_zero_rate v s : match v with NInt z => ~ too_large z | _ => True end -> from_fiat v (NFloat (S754_zero s)) = Err E_ZeroDivisionError /\ from_fiat v (NInt 0) = Err E_ZeroDivisionError.
Proof.
  intros H. unfold from_fiat. change (to_float (NInt 0)) with (Ok (S754_zero false)). cbn [to_float bind].
  destruct v as [z|f]; cbn [to_float]; [destruct (float_of_int_ok z H) as (f & -> & _)|]; split; reflexivity.
Qed.
Lemma fiat_not_exact : ~ (forall s r u x u', 0 <= s <= 21 * 10 ^ 14 -> unit_init (Some (NInt s)) None None None = Ok u ->
  at_rate u (NInt r) = Ok x -> from_fiat (NFloat x) (NInt r) = Ok u' -> u_satoshis u' = s).
Proof.
  intros H. assert (exists u x u', unit_init (Some (NInt 3)) None None None = Ok u /\ at_rate u (NInt 350) = Ok x /\ from_fiat (NFloat x) (NInt 350) = Ok u' /\ u_satoshis u' = 2) as (u & x & u' & A & B & C & D)
    by (do 3 eexists; split; [vm_compute; reflexivity|]; split; [vm_compute; reflexivity|]; split; [vm_compute; reflexivity|reflexivity]).
  specialize (H 3 350 u x u' ltac:(lia) A B C). congruence.
Qed.
