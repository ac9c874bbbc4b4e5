(** Proofs about decimal numerals: reading them into floats and writing floats. *)
From Coq Require Import ZArith Reals Lia Lra Bool Psatz QArith Qabs Qpower Qreals List.
From Coq Require Import SpecFloat.
From Coq.Strings Require Import Byte String.
From Flocq Require Import Core Relative BinarySingleNaN.
From Verif Require Import Base M_Unit S_Unit P_Float P_Unit M_Keys M_URI S_URI.
Import ListNotations.
Open Scope Z_scope.

Local Instance Hprec : Prec_gt_0 53 := eq_refl.

(** *** digits *)
Lemma is_digit_iff b : is_digit b = true <-> digit b.
Proof. unfold is_digit, digit. lia. Qed.
Lemma is_iff c b : is c b = true <-> bZ b = c.
Proof. unfold is. lia. Qed.
Lemma forallb_digit l : forallb is_digit l = true <-> Forall digit l.
Proof. rewrite forallb_forall, Forall_forall. split; intros H x I; apply is_digit_iff, H, I. Qed.
Lemma blen_app' {A} (a b : list A) : blen (a ++ b) = blen a + blen b.
Proof. unfold blen. rewrite app_length. lia. Qed.
Lemma blen_cons' {A} (x : A) l : blen (x :: l) = 1 + blen l.
Proof. unfold blen. cbn [length]. lia. Qed.
Lemma blen_pos {A} (l : list A) : 0 <= blen l.
Proof. unfold blen. lia. Qed.
Lemma number_app a b : number (a ++ b) = number a * 10 ^ blen b + number b.
Proof.
  induction a as [|x a IH]; cbn [app number]; [lia|]. rewrite IH, blen_app', Z.pow_add_r by apply blen_pos. ring.
Qed.
Lemma dec_val_acc l a : fold_left (fun a b => 10 * a + (bZ b - 48)) l a = a * 10 ^ blen l + number l.
Proof.
  revert a. induction l as [|x l IH]; intros a; cbn [fold_left number]; [unfold blen; cbn; lia|].
  rewrite IH, blen_cons', Z.pow_add_r by (try apply blen_pos; lia). ring.
Qed.
Lemma dec_val_number l : dec_val l = number l.
Proof. unfold dec_val. rewrite dec_val_acc. lia. Qed.
Lemma number_nonneg l : Forall digit l -> 0 <= number l < 10 ^ blen l.
Proof.
  induction 1 as [|x l D _ IH]; cbn [number]; [cbn; lia|]. rewrite blen_cons', Z.pow_add_r by (try apply blen_pos; lia). unfold digit in D.
  pose proof (Z.pow_pos_nonneg 10 (blen l) ltac:(lia) (blen_pos l)). nia.
Qed.
Lemma number_zeros n : number (zeros_text n) = 0.
Proof. unfold zeros_text. induction (Z.to_nat n) as [|k IH]; cbn [repeat number]; [reflexivity|]. rewrite IH. reflexivity. Qed.
Lemma blen_zeros n : 0 <= n -> blen (zeros_text n) = n.
Proof. intros H. unfold zeros_text, blen. rewrite repeat_length. lia. Qed.
Lemma digit_zeros n : Forall digit (zeros_text n).
Proof. unfold zeros_text. apply Forall_forall. intros x I. apply repeat_spec in I. subst. unfold digit. cbn. lia. Qed.

Lemma bZ_Zb z : 0 <= z < 256 -> bZ (Zb z) = z.
Proof.
  intros H. unfold Zb, bZ. rewrite Z.mod_small by lia. destruct (Byte.of_N (Z.to_N z)) as [b|] eqn:E.
  - apply Byte.to_of_N in E. rewrite E. lia.
  - apply Byte.of_N_None_iff in E. lia.
Qed.
Lemma dec_text_f_ok fuel n : 0 <= n -> n < 2 ^ Z.of_nat fuel -> (0 < fuel)%nat ->
  Forall digit (dec_text_f fuel n) /\ number (dec_text_f fuel n) = n /\ 0 < blen (dec_text_f fuel n) /\ (0 < n -> 10 ^ (blen (dec_text_f fuel n) - 1) <= n).
Proof.
  revert n. induction fuel as [|f IH]; intros n N B P; [lia|]. cbn [dec_text_f].
  assert (DM : 0 <= n mod 10 < 10) by (apply Z.mod_pos_bound; lia). assert (DV : n = 10 * (n / 10) + n mod 10) by (apply Z.div_mod; lia).
  assert (DD : digit (Zb (48 + n mod 10))) by (unfold digit; rewrite bZ_Zb; lia).
  destruct (n <? 10) eqn:L.
  - cbn [app]. split; [constructor; [assumption|constructor]|]. cbn [number]. rewrite bZ_Zb by lia. change (blen [Zb (48 + n mod 10)]) with 1. change (blen []) with 0. rewrite Z.mod_small in * by lia.
    change (10 ^ (1 - 1)) with 1. change (10 ^ 0) with 1. lia.
  - assert (F : (0 < f)%nat). { destruct f; [|lia]. cbn in B. lia. }
    destruct (IH (n / 10)) as (A1 & A2 & A3 & A4); [lia| |exact F|].
    { rewrite Nat2Z.inj_succ, Z.pow_succ_r in B by lia. lia. }
    split; [apply Forall_app; split; [exact A1|constructor; [assumption|constructor]]|]. rewrite number_app, A2, blen_app'. cbn [number]. rewrite bZ_Zb by lia.
    change (blen [Zb (48 + n mod 10)]) with 1. change (blen []) with 0. split; [lia|]. split; [lia|]. intros _. specialize (A4 ltac:(lia)).
    replace (blen (dec_text_f f (n / 10)) + 1 - 1) with (1 + (blen (dec_text_f f (n / 10)) - 1)) by lia. rewrite Z.pow_add_r by lia. lia.
Qed.
Lemma dec_text_ok n : 0 <= n -> Forall digit (dec_text n) /\ number (dec_text n) = n /\ 0 < blen (dec_text n) /\ (0 < n -> 10 ^ (blen (dec_text n) - 1) <= n < 10 ^ blen (dec_text n)).
Proof.
  intros N. unfold dec_text. destruct (dec_text_f_ok (S (Z.to_nat (Z.log2 n))) n N) as (A & B & C & D); [|lia|].
  - rewrite Nat2Z.inj_succ, Z2Nat.id by apply Z.log2_nonneg. destruct (Z.eq_dec n 0) as [->|]; [reflexivity|]. apply Z.log2_spec. lia.
  - split; [exact A|]. split; [exact B|]. split; [exact C|]. intros P. split; [apply D, P|]. pose proof (number_nonneg _ A). lia.
Qed.

(** *** powers of ten *)
Definition p10 (k : Z) : R := Q2R (pow10 k).
Lemma p10_pos k : (0 < p10 k)%R.
Proof. unfold p10, pow10. rewrite <- Q2R_0'. apply Qlt_Rlt. apply Qpower_0_lt. reflexivity. Qed.
Lemma p10_Z k : 0 <= k -> p10 k = IZR (10 ^ k).
Proof. intros H. unfold p10, pow10. rewrite <- (Qeq_eqR _ _ (Zpower_Qpower 10 k H)). apply Q2R_Z. Qed.
Lemma p10_plus a b : p10 (a + b) = (p10 a * p10 b)%R.
Proof. unfold p10, pow10. rewrite <- Q2R_mult. apply Qeq_eqR. apply Qpower_plus. discriminate. Qed.
Lemma p10_0 : p10 0 = 1%R.
Proof. rewrite p10_Z by lia. reflexivity. Qed.
Lemma p10_opp a : p10 (- a) = (/ p10 a)%R.
Proof. apply Rmult_eq_reg_r with (p10 a); [|pose proof (p10_pos a); lra]. rewrite <- p10_plus, Rinv_l by (pose proof (p10_pos a); lra). replace (- a + a) with 0 by lia. apply p10_0. Qed.

(** *** the nearest float to a ratio *)
Lemma ratio_ok n d : okf (f_ratio n d) = true /\
  ((Rabs (RN (IZR (Zpos n) / IZR (Zpos d))) < bpow radix2 1024)%R -> fin (f_ratio n d) = true /\ val (f_ratio n d) = RN (IZR (Zpos n) / IZR (Zpos d))) /\
  ((bpow radix2 1024 <= Rabs (RN (IZR (Zpos n) / IZR (Zpos d))))%R -> f_ratio n d = S754_infinity false).
Proof.
  pose proof (Bdiv_correct_aux 53 1024 P_Float.Hprec P_Float.Hmax mode_NE false n 0 false d 0) as C. cbv zeta in C. rewrite fexp_FLT in C. cbn [round_mode cond_Zopp xorb] in C.
  unfold F2R in C. cbn [Fnum Fexp] in C. rewrite !mul_bpow0 in C. fold (RN (IZR (Zpos n) / IZR (Zpos d))) in C.
  assert (E : f_ratio n d = (let '(mz, ez, lz) := SFdiv_core_binary 53 1024 (Zpos n) 0 (Zpos d) 0 in binary_round_aux 53 1024 mode_NE false mz ez lz)).
  { unfold f_ratio. destruct (SFdiv_core_binary _ _ _ _ _ _) as ((m' & e') & l). apply round_aux_NE. }
  rewrite <- E in C. destruct C as (V & C). split; [exact V|]. split; intros B.
  - rewrite Rlt_bool_true in C by exact B. unfold fin, val. tauto.
  - rewrite Rlt_bool_false in C by exact B. rewrite C. reflexivity.
Qed.
Lemma decimal_ok n k : 0 <= n -> okf (f_decimal n k) = true /\
  ((RN (IZR n * p10 k) < bpow radix2 1024)%R -> fin (f_decimal n k) = true /\ val (f_decimal n k) = RN (IZR n * p10 k)) /\
  ((bpow radix2 1024 <= RN (IZR n * p10 k))%R -> f_decimal n k = S754_infinity false).
Proof.
  intros N. destruct n as [|p|p]; [|clear N|lia].
  - cbn [f_decimal]. rewrite Rmult_0_l, RN_0. split; [reflexivity|]. split; [split; reflexivity|]. intros H. pose proof (bpow_gt_0 radix2 1024). lra.
  - cbn [f_decimal]. pose proof (p10_pos k) as PK. assert (P : (0 < IZR (Zpos p))%R) by (apply IZR_lt; lia).
    assert (NN : (0 <= RN (IZR (Zpos p) * p10 k))%R) by (rewrite <- RN_0; apply RN_le; nra).
    destruct (0 <=? k) eqn:K.
    + assert (E : (IZR (Zpos p) * p10 k)%R = (IZR (Zpos p * 10 ^ k) * bpow radix2 0)%R) by (rewrite mul_bpow0, mult_IZR, p10_Z by lia; reflexivity).
      rewrite E in *. split; [apply round_valid|]. split; intros B.
      * apply round_ok. rewrite Rabs_pos_eq by exact NN. exact B.
      * destruct (round_overflow (Zpos p * 10 ^ k) 0) as (s & S); [rewrite Rabs_pos_eq by exact NN; exact B|].
        rewrite normalize_NE in *. pose proof (binary_normalize_correct 53 1024 P_Float.Hprec P_Float.Hmax mode_NE (Zpos p * 10 ^ k) 0 false) as C. cbv zeta in C. rewrite fexp_FLT in C. cbn [round_mode] in C.
        unfold F2R in C. cbn [Fnum Fexp] in C. fold (RN (IZR (Zpos p * 10 ^ k) * bpow radix2 0)) in C. rewrite Rlt_bool_false in C by (rewrite Rabs_pos_eq by exact NN; exact B).
        rewrite C. rewrite Rlt_bool_false; [reflexivity|]. rewrite <- E. nra.
    + assert (PP : 0 < 10 ^ (- k)) by (apply Z.pow_pos_nonneg; lia).
      assert (E : (IZR (Zpos p) * p10 k)%R = (IZR (Zpos p) / IZR (Zpos (Z.to_pos (10 ^ (- k)))))%R).
      { rewrite Z2Pos.id by lia. rewrite <- p10_Z by lia. rewrite p10_opp. unfold Rdiv. rewrite Rinv_inv. reflexivity. }
      rewrite E in *. pose proof (ratio_ok p (Z.to_pos (10 ^ (- k)))) as RO. rewrite (Rabs_pos_eq (RN _)) in RO by exact NN. exact RO.
Qed.

(** *** reading *)
Lemma span_app p a b : forallb p a = true -> (match b with x :: _ => p x = false | [] => True end) -> span p (a ++ b) = (a, b).
Proof.
  induction a as [|x a IH]; cbn [app span forallb]; intros A B.
  - destruct b as [|y b]; [reflexivity|]. cbn [span]. rewrite B. reflexivity.
  - apply andb_prop in A as (-> & A). rewrite (IH A B). reflexivity.
Qed.
Lemma lstrip_id l : (match l with b :: _ => is_space b = false | [] => True end) -> lstrip l = l.
Proof. destruct l as [|b l]; [reflexivity|]. cbn [lstrip]. intros ->. reflexivity. Qed.
Lemma strip_id l : Forall (fun b => is_space b = false) l -> strip l = l.
Proof.
  intros H. unfold strip. rewrite (lstrip_id l) by (destruct H; auto). rewrite lstrip_id; [apply rev_involutive|].
  apply Forall_rev in H. destruct H; auto.
Qed.
Lemma digit_not_space b : digit b -> is_space b = false.
Proof. unfold digit, is_space, is. lia. Qed.
Lemma sign_not_space sg s : sign_text sg s -> Forall (fun b => is_space b = false) sg.
Proof. intros []; repeat (constructor; [reflexivity|]); constructor. Qed.
Lemma exp_not_space et x : exp_text et x -> Forall (fun b => is_space b = false) et.
Proof.
  intros [|e sg s ds E S N D]; constructor; [destruct E as [->| ->]; reflexivity|]. apply Forall_app. split; [eapply sign_not_space, S|].
  eapply Forall_impl; [|exact D]. apply digit_not_space.
Qed.
Lemma sign_of_app sg s l : sign_text sg s -> (match l with b :: _ => bZ b <> 43 /\ bZ b <> 45 | [] => False end) ->
  exists neg, sign_of (sg ++ l) = (neg, l) /\ s = if neg then -1 else 1.
Proof.
  intros S L. destruct l as [|b l]; [contradiction|]. destruct S; cbn [app sign_of].
  - exists false. unfold is. destruct (bZ b =? 45) eqn:A; [lia|]. destruct (bZ b =? 43) eqn:B; [lia|]. auto.
  - exists false. auto.
  - exists true. auto.
Qed.
Lemma digit_not_sign b : digit b -> bZ b <> 43 /\ bZ b <> 45.
Proof. unfold digit. lia. Qed.
Lemma exponent_ok et x : exp_text et x -> exponent_of et = Ok x.
Proof.
  intros [|e sg s ds E S N D]; [reflexivity|]. cbn [exponent_of]. replace (is 101 e || is 69 e) with true by (destruct E as [->| ->]; reflexivity).
  destruct (sign_of_app sg s ds S) as (neg & -> & ->). { destruct D; [contradiction (N eq_refl)|apply digit_not_sign; assumption]. }
  destruct ds as [|d ds]; [contradiction (N eq_refl)|]. rewrite (proj2 (forallb_digit _) D). rewrite dec_val_number. destruct neg; f_equal; lia.
Qed.
Lemma bytes_eqb_head a b l m : byte_eqb a b = false -> bytes_eqb (a :: l) (b :: m) = false.
Proof. cbn [bytes_eqb]. intros ->. reflexivity. Qed.
Lemma byte_eqb_bZ a b : bZ a <> bZ b -> byte_eqb a b = false.
Proof. intros H. unfold byte_eqb. destruct (Byte.eqb a b) eqn:E; [|reflexivity]. apply Byte.byte_dec_bl in E. congruence. Qed.
Lemma numeral_head b l : digit b \/ b = x2e -> let low := map lower (b :: l) in
  bytes_eqb low (txt "inf"%string) = false /\ bytes_eqb low (txt "infinity"%string) = false /\ bytes_eqb low (txt "nan"%string) = false.
Proof.
  intros H. cbv zeta. cbn [map]. assert (E : lower b = b). { unfold lower, is_upper. destruct H as [H| ->]; [|reflexivity]. unfold digit in H. destruct ((65 <=? bZ b) && (bZ b <=? 90)) eqn:K; [lia|reflexivity]. }
  rewrite E. assert (B : bZ b < 58) by (destruct H as [H| ->]; [unfold digit in H; lia|cbn; lia]).
  repeat split; apply bytes_eqb_head, byte_eqb_bZ; cbn; lia.
Qed.
Lemma py_float_denotes t q : denotes t q -> exists neg n k, py_float t = Ok (f_opp neg (f_decimal n k)) /\ 0 <= n /\
  Q2R q = ((if neg then - 1 else 1) * (IZR n * p10 k))%R.
Proof.
  intros (sg & s & ip & ft & fp & et & x & -> & S & F & X & NE & D & Q).
  pose proof (proj1 (Forall_app _ _ _) D) as (DI & DF).
  assert (H : exists b l, ip ++ ft ++ et = b :: l /\ (digit b \/ b = x2e)).
  { destruct ip as [|b ip]; [|exists b, (ip ++ ft ++ et); split; [reflexivity|left; inversion DI; assumption]].
    destruct F as [|fp]; [contradiction (NE eq_refl)|]. exists x2e, (fp ++ et). auto. }
  assert (NS : Forall (fun b => is_space b = false) (sg ++ ip ++ ft ++ et)).
  { repeat (apply Forall_app; split); [eapply sign_not_space, S|eapply Forall_impl; [apply digit_not_space|exact DI]| |eapply exp_not_space, X].
    destruct F; [constructor|]. constructor; [reflexivity|]. eapply Forall_impl; [apply digit_not_space|exact DF]. }
  unfold py_float. rewrite (strip_id _ NS). destruct H as (b & l & E & H).
  destruct (sign_of_app sg s (ip ++ ft ++ et) S) as (neg & SO & ->). { rewrite E. destruct H as [H| ->]; [apply digit_not_sign, H|cbn; lia]. }
  rewrite SO. cbv zeta. rewrite E. destruct (numeral_head b l H) as (H1 & H2 & H3). cbv zeta in H1, H2, H3. rewrite H1, H2, H3. cbn [orb]. rewrite <- E.
  assert (EH : match et with y :: _ => is_digit y = false /\ is 46 y = false | [] => True end) by (destruct X as [|? ? ? ? [->| ->]]; auto).
  rewrite span_app; [|apply forallb_digit, DI|].
  2: { destruct F; cbn [app]; [destruct et; tauto|reflexivity]. }
  assert (FP : (match ft ++ et with b0 :: r' => if is 46 b0 then span is_digit r' else ([], ft ++ et) | [] => ([], ft ++ et) end) = (fp, et)).
  { destruct F as [|fp]; cbn [app].
    - destruct et as [|y et]; [reflexivity|]. destruct EH as (_ & ->). reflexivity.
    - change (is 46 x2e) with true. cbv iota. apply span_app; [apply forallb_digit, DF|]. destruct et; tauto. }
  rewrite FP. destruct (ip ++ fp) as [|c ds] eqn:CD; [contradiction (NE eq_refl)|]. rewrite (exponent_ok et x X). cbn [bind]. rewrite <- CD in *.
  exists neg, (dec_val (ip ++ fp)), (x - blen fp). split; [reflexivity|]. rewrite dec_val_number. split; [apply number_nonneg, D|].
  rewrite (Qeq_eqR _ _ Q), Q2R_mult, Q2R_Z, mult_IZR. unfold p10. destruct neg; ring.
Qed.
(** the range of finite results *)
Definition limit : R := IZR (2 ^ 1024 - 2 ^ 970).
Lemma RN_finite x : (Rabs x < limit)%R -> (Rabs (RN x) < bpow radix2 1024)%R.
Proof.
  assert (P : forall y, (0 <= y < limit)%R -> (RN y < bpow radix2 1024)%R).
  { intros y (Y0 & Y1). apply Rnot_le_lt. intros K. set (g := (IZR (2 ^ 53 - 1) * bpow radix2 971)%R).
    assert (G : generic_format radix2 (FLT_exp (-1074) 53) g). { apply generic_format_FLT. exists (Float radix2 (2 ^ 53 - 1) 971); [reflexivity|cbn; lia|cbn; lia]. }
    assert (L1 : limit = (g + bpow radix2 970)%R).
    { unfold limit, g. replace (2 ^ 1024 - 2 ^ 970) with ((2 ^ 53 - 1) * 2 ^ 971 + 2 ^ 970) by (vm_compute; reflexivity). rewrite plus_IZR, mult_IZR.
      rewrite <- !(IZR_Zpower radix2) by lia. reflexivity. }
    assert (L2 : bpow radix2 1024 = (limit + bpow radix2 970)%R). { unfold limit. rewrite <- !(IZR_Zpower radix2) by lia. rewrite <- plus_IZR. f_equal. }
    destruct (Rle_or_lt g y) as [A|A].
    - destruct (round_N_pt radix2 (FLT_exp (-1074) 53) (fun n => negb (Z.even n)) y) as (_ & N). specialize (N g G). fold ZnearestE in N. change (round _ _ _ y) with (RN y) in N.
      pose proof (bpow_gt_0 radix2 970). rewrite (Rabs_pos_eq (RN y - y)) in N by lra. rewrite Rabs_left1 in N by lra. lra.
    - pose proof (RN_le y g ltac:(lra)) as H. rewrite (RN_format g G) in H. pose proof (bpow_gt_0 radix2 970). lra. }
  intros H. destruct (Rle_or_lt 0 x) as [S|S].
  - rewrite Rabs_pos_eq in H by exact S. rewrite Rabs_pos_eq by (rewrite <- RN_0; apply RN_le, S). apply P. lra.
  - rewrite Rabs_left in H by exact S. replace x with (- - x)%R by lra. rewrite RN_opp, Rabs_Ropp. rewrite Rabs_pos_eq by (rewrite <- RN_0; apply RN_le; lra). apply P. lra.
Qed.
Lemma RN_infinite x : (limit <= x)%R -> (bpow radix2 1024 <= RN x)%R.
Proof.
  intros H. eapply Rle_trans; [|apply RN_le, H]. pose proof (proj1 (RN_overflow_iff (2 ^ 1024 - 2 ^ 970))) as K. rewrite RN_abs in K. apply K. unfold too_large. lia.
Qed.
Lemma in_range_R q : in_range q <-> (Rabs (Q2R q) < limit)%R.
Proof. unfold in_range, limit. rewrite <- Q2R_abs, <- Q2R_Z. split; [apply Qlt_Rlt|apply Rlt_Qlt]. Qed.
Lemma opp_ok f : okf (SFopp f) = okf f /\ fin (SFopp f) = fin f /\ val (SFopp f) = (- val f)%R.
Proof.
  destruct f as [s|s| |s m e]; repeat split; try (unfold val; cbn; lra). unfold val. cbn [SFopp SF2R]. unfold F2R. cbn [Fnum Fexp].
  destruct s; cbn [cond_Zopp negb]; [|rewrite opp_IZR]; try change (Z.neg m) with (- Z.pos m); rewrite ?opp_IZR; cbn [Z.opp]; try ring.
Qed.
Lemma read_ok t q : denotes t q -> in_range q -> exists f, py_float t = Ok f /\ okf f = true /\ fin f = true /\ val f = RN (Q2R q).
Proof.
  intros D I. destruct (py_float_denotes t q D) as (neg & n & k & E & N & Q). apply in_range_R, RN_finite in I.
  destruct (decimal_ok n k N) as (O & A & _). pose proof (p10_pos k) as PK. assert (NR : (0 <= IZR n)%R) by (apply IZR_le, N).
  assert (NN : (0 <= RN (IZR n * p10 k))%R) by (rewrite <- RN_0; apply RN_le; nra).
  assert (B : Rabs (RN (Q2R q)) = RN (IZR n * p10 k)).
  { rewrite Q. destruct neg.
    - replace (-1 * (IZR n * p10 k))%R with (- (IZR n * p10 k))%R by ring. rewrite RN_opp, Rabs_Ropp. apply Rabs_pos_eq, NN.
    - rewrite Rmult_1_l. apply Rabs_pos_eq, NN. }
  rewrite B in I. destruct (A I) as (F & V). exists (f_opp neg (f_decimal n k)). split; [exact E|]. unfold f_opp. destruct neg.
  - destruct (opp_ok (f_decimal n k)) as (-> & -> & ->). split; [exact O|]. split; [exact F|]. rewrite V, Q. replace (-1 * (IZR n * p10 k))%R with (- (IZR n * p10 k))%R by ring. rewrite RN_opp. reflexivity.
  - split; [exact O|]. split; [exact F|]. rewrite V, Q, Rmult_1_l. reflexivity.
Qed.
Lemma read_nearest t q : denotes t q -> in_range q -> exists f, py_float t = Ok f /\ nearest q f.
Proof. intros D I. destruct (read_ok t q D I) as (f & E & O & F & V). exists f. split; [exact E|]. apply nearest_RN; assumption. Qed.
Lemma read_overflow t q : denotes t q -> ~ in_range q -> py_float t = Ok (S754_infinity (negb (Qle_bool 0 q))).
Proof.
  intros D I. destruct (py_float_denotes t q D) as (neg & n & k & E & N & Q). rewrite in_range_R in I. apply Rnot_lt_le in I.
  destruct (decimal_ok n k N) as (_ & _ & A). pose proof (p10_pos k) as PK. assert (NR : (0 <= IZR n)%R) by (apply IZR_le, N).
  assert (B : Rabs (Q2R q) = (IZR n * p10 k)%R).
  { rewrite Q. destruct neg; [rewrite Rabs_left1 by nra; ring|rewrite Rabs_pos_eq by nra; ring]. }
  rewrite B in I. specialize (A (RN_infinite _ I)). rewrite E, A. assert (LP : (0 < limit)%R) by (unfold limit; apply IZR_lt; lia). f_equal. unfold f_opp. destruct neg; cbn [SFopp negb]; f_equal.
  - destruct (Qle_bool 0 q) eqn:K; [|reflexivity]. apply Qle_bool_iff, Qle_Rle in K. rewrite Q2R_0', Q in K. nra.
  - destruct (Qle_bool 0 q) eqn:K; [reflexivity|]. exfalso. rewrite <- not_true_iff_false in K. apply K, Qle_bool_iff, Rle_Qle. rewrite Q2R_0', Q. nra.
Qed.

(** *** writing *)
Lemma R_of_int_le a b : (IZR a <= IZR b)%R <-> a <= b.
Proof. split; [apply le_IZR|apply IZR_le]. Qed.
Lemma div_bounds a b c : 0 < b -> a = c / b -> (IZR a <= IZR c / IZR b < IZR (a + 1))%R.
Proof.
  intros B ->. assert (BR : (0 < IZR b)%R) by (apply IZR_lt, B). pose proof (Z.div_mod c b ltac:(lia)) as E. pose proof (Z.mod_pos_bound c b B) as M.
  split.
  - apply Rmult_le_reg_r with (IZR b); [exact BR|]. unfold Rdiv. rewrite Rmult_assoc, Rinv_l, Rmult_1_r by lra. rewrite <- mult_IZR. apply IZR_le. lia.
  - apply Rmult_lt_reg_r with (IZR b); [exact BR|]. unfold Rdiv. rewrite Rmult_assoc, Rinv_l, Rmult_1_r by lra. rewrite <- mult_IZR. apply IZR_lt. lia.
Qed.
Lemma dec_point_ok n d : 0 < n -> 0 < d -> (p10 (dec_point n d - 1) <= IZR n / IZR d < p10 (dec_point n d))%R.
Proof.
  intros N D. assert (NR : (0 < IZR n)%R) by (apply IZR_lt, N). assert (DR : (0 < IZR d)%R) by (apply IZR_lt, D). unfold dec_point. destruct (d <=? n) eqn:L.
  - assert (A : 0 < n / d) by (apply Z.div_str_pos; lia). destruct (dec_text_ok (n / d)) as (_ & _ & B & C); [lia|]. specialize (C A).
    destruct (div_bounds (n / d) d n D eq_refl) as (E & F). rewrite !p10_Z by lia. split.
    + eapply Rle_trans; [|exact E]. apply IZR_le. lia.
    + eapply Rlt_le_trans; [exact F|]. apply IZR_le. lia.
  - assert (A : 0 < (d - 1) / n) by (apply Z.div_str_pos; lia). destruct (dec_text_ok ((d - 1) / n)) as (_ & _ & B & C); [lia|]. specialize (C A). set (w := blen (dec_text ((d - 1) / n))) in *. clearbody w.
    pose proof (Z.div_mod (d - 1) n ltac:(lia)) as E. pose proof (Z.mod_pos_bound (d - 1) n N) as M. set (b := (d - 1) / n) in *. clearbody b.
    replace (1 - w - 1) with (- w) by lia. replace (1 - w) with (- (w - 1)) by lia. rewrite !p10_opp, !p10_Z by lia.
    assert (W : (0 < IZR (10 ^ w))%R) by (apply IZR_lt, Z.pow_pos_nonneg; lia). assert (W1 : (0 < IZR (10 ^ (w - 1)))%R) by (apply IZR_lt, Z.pow_pos_nonneg; lia).
    split.
    + apply Rmult_le_reg_r with (IZR (10 ^ w) * IZR d)%R; [nra|]. replace (/ IZR (10 ^ w) * (IZR (10 ^ w) * IZR d))%R with (IZR d) by (field; lra).
      replace (IZR n / IZR d * (IZR (10 ^ w) * IZR d))%R with (IZR n * IZR (10 ^ w))%R by (field; lra). rewrite <- mult_IZR. apply IZR_le. nia.
    + apply Rmult_lt_reg_r with (IZR (10 ^ (w - 1)) * IZR d)%R; [nra|]. replace (/ IZR (10 ^ (w - 1)) * (IZR (10 ^ (w - 1)) * IZR d))%R with (IZR d) by (field; lra).
      replace (IZR n / IZR d * (IZR (10 ^ (w - 1)) * IZR d))%R with (IZR n * IZR (10 ^ (w - 1)))%R by (field; lra). rewrite <- mult_IZR. apply IZR_lt. nia.
Qed.
Lemma round_even_ok n d : 0 < d -> (Rabs (IZR n / IZR d - IZR (round_even n d)) <= / 2)%R.
Proof.
  intros D. assert (DR : (0 < IZR d)%R) by (apply IZR_lt, D). pose proof (Z.div_mod n d ltac:(lia)) as E. pose proof (Z.mod_pos_bound n d D) as M.
  assert (H : 2 * Z.abs (n - round_even n d * d) <= d).
  { unfold round_even. destruct ((2 * (n mod d) <? d) || ((2 * (n mod d) =? d) && Z.even (n / d))) eqn:C.
    - assert (2 * (n mod d) <= d) by lia. nia.
    - assert (d <= 2 * (n mod d)) by (apply orb_false_elim in C as (C & _); lia). nia. }
  replace (IZR n / IZR d - IZR (round_even n d))%R with (IZR (n - round_even n d * d) / IZR d)%R by (rewrite minus_IZR, mult_IZR; field; lra).
  unfold Rdiv. rewrite Rabs_mult, Rabs_inv, (Rabs_pos_eq (IZR d)), <- abs_IZR by lra. apply Rmult_le_reg_r with (2 * IZR d)%R; [lra|].
  replace (IZR (Z.abs (n - round_even n d * d)) * / IZR d * (2 * IZR d))%R with (2 * IZR (Z.abs (n - round_even n d * d)))%R by (field; lra).
  replace (/ 2 * (2 * IZR d))%R with (IZR d) by field. rewrite <- mult_IZR. apply IZR_le, H.
Qed.
Lemma digits12_ok n d ds p' : 0 < n -> 0 < d -> digits12 n d = (ds, p') -> Forall digit ds /\ blen ds = 12 /\ 0 < number ds /\
  exists p m, (p10 (p - 1) <= IZR n / IZR d < p10 p)%R /\ (IZR (number ds) * p10 (p' - 12) = IZR m * p10 (p - 12))%R /\
    (Rabs (IZR n / IZR d - IZR m * p10 (p - 12)) * 2 <= p10 (p - 12))%R.
Proof.
  intros N D. unfold digits12. pose proof (dec_point_ok n d N D) as PB. set (p := dec_point n d) in *. clearbody p. cbv zeta.
  assert (DR : (0 < IZR d)%R) by (apply IZR_lt, D). pose proof (p10_pos (12 - p)) as PK. pose proof (p10_pos (p - 12)) as PK'.
  assert (PP : (p10 (12 - p) * p10 (p - 12) = 1)%R) by (rewrite <- p10_plus; replace (12 - p + (p - 12)) with 0 by lia; apply p10_0).
  set (m := if 0 <=? 12 - p then round_even (n * 10 ^ (12 - p)) d else round_even n (d * 10 ^ (- (12 - p)))).
  assert (MB : (Rabs (IZR n / IZR d * p10 (12 - p) - IZR m) <= / 2)%R).
  { unfold m. destruct (0 <=? 12 - p) eqn:K.
    - rewrite p10_Z by lia. replace (IZR n / IZR d * IZR (10 ^ (12 - p)))%R with (IZR (n * 10 ^ (12 - p)) / IZR d)%R by (rewrite mult_IZR; field; lra). apply round_even_ok, D.
    - assert (PZ : 0 < 10 ^ (- (12 - p))) by (apply Z.pow_pos_nonneg; lia). assert (PR : (0 < IZR (10 ^ (- (12 - p))))%R) by (apply IZR_lt, PZ).
      replace (p10 (12 - p)) with (/ IZR (10 ^ (- (12 - p))))%R by (rewrite <- p10_Z, p10_opp, Rinv_inv by lia; reflexivity).
      replace (IZR n / IZR d * / IZR (10 ^ (- (12 - p))))%R with (IZR n / IZR (d * 10 ^ (- (12 - p))))%R by (rewrite mult_IZR; field; lra). apply round_even_ok. nia. }
  clearbody m.
  assert (V : (IZR (10 ^ 11) <= IZR n / IZR d * p10 (12 - p) < IZR (10 ^ 12))%R).
  { split.
    - rewrite <- p10_Z by lia. replace 11 with ((p - 1) + (12 - p)) by lia. rewrite p10_plus. apply Rmult_le_compat_r; lra.
    - rewrite <- p10_Z by lia. replace 12 with (p + (12 - p)) at 2 by lia. rewrite p10_plus. apply Rmult_lt_compat_r; lra. }
  assert (MR : 10 ^ 11 <= m <= 10 ^ 12).
  { apply Rabs_le_inv in MB. split; apply Zlt_succ_le; apply lt_IZR; unfold Z.succ; rewrite plus_IZR; lra. }
  assert (GB : (Rabs (IZR n / IZR d - IZR m * p10 (p - 12)) * 2 <= p10 (p - 12))%R).
  { replace (IZR n / IZR d - IZR m * p10 (p - 12))%R with ((IZR n / IZR d * p10 (12 - p) - IZR m) * p10 (p - 12))%R.
    - rewrite Rabs_mult, (Rabs_pos_eq (p10 (p - 12))) by lra. nra.
    - rewrite Rmult_minus_distr_r, Rmult_assoc, PP, Rmult_1_r. reflexivity. }
  destruct (m =? 10 ^ 12) eqn:E; intros X.
  - assert (D1 : ds = dec_text (10 ^ 11)) by congruence. assert (D2 : p' = p + 1) by congruence. subst p'. rewrite D1. clear X D1 ds.
    assert (BL : blen (dec_text (10 ^ 11)) = 12) by (vm_compute; reflexivity). assert (NU : number (dec_text (10 ^ 11)) = 10 ^ 11) by (vm_compute; reflexivity).
    split; [apply dec_text_ok; lia|]. split; [exact BL|]. split; [rewrite NU; lia|]. exists p, m. split; [exact PB|]. split; [|exact GB]. rewrite NU.
    assert (m = 10 ^ 12) as -> by lia. replace (p + 1 - 12) with (1 + (p - 12)) by lia. rewrite p10_plus. replace (p10 1) with 10%R by (rewrite p10_Z by lia; reflexivity).
    replace (IZR (10 ^ 12)) with (IZR (10 ^ 11) * 10)%R by (rewrite <- mult_IZR; f_equal). ring.
  - assert (D1 : ds = dec_text m) by congruence. assert (D2 : p' = p) by congruence. rewrite D1, D2. clear X D1 D2 ds.
    destruct (dec_text_ok m) as (A & B & C & F); [lia|]. specialize (F ltac:(lia)). split; [exact A|]. split.
    + assert (10 ^ (blen (dec_text m) - 1) < 10 ^ 12) by lia. assert (10 ^ 11 < 10 ^ blen (dec_text m)) by lia.
      apply Z.pow_lt_mono_r_iff in H; [|lia|lia]. apply Z.pow_lt_mono_r_iff in H0; [|lia|lia]. lia.
    + rewrite B. split; [lia|]. exists p, m. split; [exact PB|]. split; [reflexivity|exact GB].
Qed.
Lemma lzero_ok l : Forall digit l -> exists k, 0 <= k /\ l = zeros_text k ++ lzero l.
Proof.
  induction 1 as [|b l D _ (k & K & E)]; [exists 0; split; [lia|reflexivity]|]. cbn [lzero]. destruct (is 48 b) eqn:I.
  - exists (1 + k). split; [lia|]. rewrite E at 1. unfold zeros_text. replace (Z.to_nat (1 + k)) with (S (Z.to_nat k)) by lia. cbn [repeat app]. f_equal.
    apply is_iff in I. apply (f_equal Zb) in I. rewrite <- I. symmetry. unfold Zb. pose proof (Byte.to_N_bounded b). unfold bZ. rewrite Z.mod_small by lia. rewrite N2Z.id. rewrite Byte.of_to_N. reflexivity.
  - exists 0. split; [lia|reflexivity].
Qed.
Lemma rev_repeat' {A} (x : A) n : rev (repeat x n) = repeat x n.
Proof.
  induction n as [|n IH]; [reflexivity|]. cbn [repeat rev]. rewrite IH. clear. induction n as [|n IH]; [reflexivity|]. cbn [repeat app]. rewrite IH. reflexivity.
Qed.
Lemma strip_zeros_ok l : Forall digit l -> exists k, 0 <= k /\ l = strip_zeros l ++ zeros_text k.
Proof.
  intros D. destruct (lzero_ok (rev l)) as (k & K & E); [apply Forall_rev, D|]. exists k. split; [exact K|]. unfold strip_zeros.
  apply (f_equal (@rev byte)) in E. rewrite rev_involutive, rev_app_distr in E. unfold zeros_text in *. rewrite rev_repeat' in E. exact E.
Qed.
Lemma mk_denotes sg s ip ft fp et x : sign_text sg s -> frac_text ft fp -> exp_text et x -> ip ++ fp <> [] -> Forall digit (ip ++ fp) ->
  exists q, denotes (sg ++ ip ++ ft ++ et) q /\ Q2R q = (IZR (s * number (ip ++ fp)) * p10 (x - blen fp))%R.
Proof.
  intros S F X N D. exists (inject_Z (s * number (ip ++ fp)) * pow10 (x - blen fp))%Q. split.
  - exists sg, s, ip, ft, fp, et, x. repeat (split; [assumption || reflexivity|]). reflexivity.
  - rewrite Q2R_mult, Q2R_Z. reflexivity.
Qed.
Lemma two_digits_ok n : 0 <= n -> Forall digit (two_digits n) /\ number (two_digits n) = n /\ two_digits n <> [].
Proof.
  intros N. destruct (dec_text_ok n N) as (A & B & C & _). unfold two_digits. destruct (n <? 10).
  - split; [constructor; [unfold digit; cbn; lia|exact A]|]. split; [|discriminate]. cbn [number]. rewrite B. cbn. lia.
  - split; [exact A|]. split; [exact B|]. intros E. rewrite E in C. cbn in C. lia.
Qed.
Lemma layout_ok sg s ds p : sign_text sg s -> Forall digit ds -> ds <> [] ->
  exists q, denotes (sg ++ layout ds p) q /\ Q2R q = (IZR (s * number ds) * p10 (p - blen ds))%R.
Proof.
  intros S D N. unfold layout. destruct ((p <=? -4) || (11 <? p)) eqn:EX.
  - assert (X : exists et, exp_text et (p - 1) /\ [Zb 101] ++ (if p - 1 <? 0 then Zb 45 :: two_digits (1 - p) else Zb 43 :: two_digits (p - 1)) = et).
    { eexists. split; [|reflexivity]. destruct (p - 1 <? 0) eqn:L.
      - destruct (two_digits_ok (1 - p)) as (A & B & C); [lia|]. replace (p - 1) with (-1 * number (two_digits (1 - p))) by lia.
        apply (an_exp x65 [x2d] (-1)); [left; reflexivity|constructor|exact C|exact A].
      - destruct (two_digits_ok (p - 1)) as (A & B & C); [lia|]. replace (p - 1) with (1 * number (two_digits (p - 1))) at 2 by lia.
        apply (an_exp x65 [x2b] 1); [left; reflexivity|constructor|exact C|exact A]. }
    destruct X as (et & X & ->). destruct ds as [|b r]; [contradiction (N eq_refl)|]. destruct r as [|c r].
    + destruct (mk_denotes sg s [b] [] [] et (p - 1) S no_frac X) as (q & A & B); [discriminate|exact D|]. exists q. split; [exact A|]. rewrite B. cbn [app]. change (blen [b]) with 1. change (blen (@nil byte)) with 0. rewrite Z.sub_0_r. reflexivity.
    + destruct (mk_denotes sg s [b] (x2e :: c :: r) (c :: r) et (p - 1) S (a_frac _) X) as (q & A & B); [discriminate|exact D|]. exists q. split; [exact A|]. rewrite B. cbn [app]. rewrite (blen_cons' b). do 2 f_equal. lia.
  - destruct (p <=? 0) eqn:P0.
    + destruct (mk_denotes sg s [x30] (x2e :: zeros_text (- p) ++ ds) (zeros_text (- p) ++ ds) [] 0 S (a_frac _) no_exp) as (q & A & B); [discriminate| |].
      { constructor; [unfold digit; cbn; lia|]. apply Forall_app. split; [apply digit_zeros|exact D]. }
      exists q. split; [rewrite app_nil_r in A; exact A|]. rewrite B. rewrite !number_app, blen_app', number_zeros, blen_zeros by lia. change (number [x30]) with 0. f_equal; f_equal; lia.
    + destruct (blen ds <=? p) eqn:BL.
      * destruct (mk_denotes sg s (ds ++ zeros_text (p - blen ds)) [x2e; x30] [x30] [] 0 S (a_frac _) no_exp) as (q & A & B).
        { intros K. apply app_eq_nil in K as (_ & K). discriminate. }
        { repeat (apply Forall_app; split); [exact D|apply digit_zeros|]. constructor; [unfold digit; cbn; lia|constructor]. }
        exists q. split; [rewrite app_nil_r, <- app_assoc in A; exact A|]. rewrite B. rewrite !number_app, number_zeros, blen_zeros by lia. change (number [x30]) with 0. change (blen [x30]) with 1.
        rewrite !Z.add_0_r. replace (s * (number ds * 10 ^ (p - blen ds) * 10 ^ 1)) with (s * number ds * 10 ^ (p - blen ds + 1)) by (rewrite Z.pow_add_r by lia; ring).
        rewrite mult_IZR, <- p10_Z, Rmult_assoc, <- p10_plus by lia. do 2 f_equal. lia.
      * pose proof (firstn_skipn (Z.to_nat p) ds) as FS.
        destruct (mk_denotes sg s (firstn (Z.to_nat p) ds) (x2e :: skipn (Z.to_nat p) ds) (skipn (Z.to_nat p) ds) [] 0 S (a_frac _) no_exp) as (q & A & B); [rewrite FS; exact N|rewrite FS; exact D|].
        exists q. split; [rewrite app_nil_r in A; exact A|]. rewrite B, FS. do 2 f_equal. unfold blen in *. rewrite skipn_length. lia.
Qed.
Lemma str_pos_ok sg s n d : sign_text sg s -> 0 < n -> 0 < d -> exists q p m, denotes (sg ++ str_pos n d) q /\ (p10 (p - 1) <= IZR n / IZR d < p10 p)%R /\
  Q2R q = (IZR s * (IZR m * p10 (p - 12)))%R /\ (Rabs (IZR n / IZR d - IZR m * p10 (p - 12)) * 2 <= p10 (p - 12))%R.
Proof.
  intros S N D. unfold str_pos. destruct (digits12 n d) as (ds & p') eqn:E. destruct (digits12_ok n d ds p' N D E) as (A & B & C & p & m & P1 & P2 & P3).
  destruct (strip_zeros_ok ds A) as (k & K & EZ). set (zs := strip_zeros ds) in *. clearbody zs. assert (DZ : Forall digit zs) by (rewrite EZ in A; apply Forall_app in A; tauto).
  assert (NZ : number ds = number zs * 10 ^ k) by (rewrite EZ, number_app, number_zeros, blen_zeros by lia; lia).
  assert (BZ : blen ds = blen zs + k) by (rewrite EZ, blen_app', blen_zeros by lia; lia).
  destruct (layout_ok sg s zs p' S DZ) as (q & Q1 & Q2). { intros ->. cbn in NZ. lia. }
  exists q, p, m. split; [exact Q1|]. split; [exact P1|]. split; [|exact P3]. rewrite Q2, <- P2, NZ, !mult_IZR, <- p10_Z, Rmult_assoc by lia. f_equal. rewrite Rmult_assoc, <- p10_plus. do 2 f_equal. lia.
Qed.
Lemma fvalue_finite s m e q : fvalue (S754_finite s m e) = Some q -> exists n d, 0 < n /\ 0 < d /\
  Q2R q = ((if s then - 1 else 1) * (IZR n / IZR d))%R /\ str_float (S754_finite s m e) = (if s then [Zb 45] else []) ++ str_pos n d.
Proof.
  intros E. apply fvalue_val in E as (_ & E). unfold val in E. cbn [SF2R] in E. unfold F2R in E. cbn [Fnum Fexp] in E. cbn [str_float]. destruct (0 <=? e) eqn:L.
  - exists (Zpos m * 2 ^ e), 1. assert (0 < 2 ^ e) by (apply Z.pow_pos_nonneg; lia). split; [nia|]. split; [lia|]. split; [|reflexivity]. rewrite E, mult_IZR, <- (IZR_Zpower radix2) by lia.
    change (Zpower radix2 e) with (2 ^ e). destruct s; cbn [cond_Zopp]; rewrite ?opp_IZR; field.
  - exists (Zpos m), (2 ^ (- e)). assert (H : 0 < 2 ^ (- e)) by (apply Z.pow_pos_nonneg; lia). split; [lia|]. split; [exact H|]. split; [|reflexivity].
    rewrite E. replace (bpow radix2 e) with (/ IZR (2 ^ (- e)))%R.
    + apply IZR_lt in H. destruct s; cbn [cond_Zopp]; rewrite ?opp_IZR; field; lra.
    + replace e with (- - e) at 2 by lia. rewrite bpow_opp, <- (IZR_Zpower radix2) by lia. reflexivity.
Qed.
Lemma write_ok f q : fvalue f = Some q -> exists q', denotes (str_float f) q' /\ to_12_digits q q'.
Proof.
  destruct f as [s|s| |s m e]; try discriminate; intros E.
  - injection E as <-. destruct (mk_denotes (if s then [x2d] else []) (if s then -1 else 1) [x30] [x2e; x30] [x30] [] 0) as (q & A & B); [destruct s; constructor|constructor|constructor|discriminate| |].
    { repeat (constructor; [unfold digit; cbn; lia|]). constructor. }
    exists q. split; [destruct s; exact A|]. left. split; [reflexivity|]. apply eqR_Qeq. rewrite B, Q2R_0'. cbn [app]. change (number [x30; x30]) with 0. rewrite Z.mul_0_r. ring.
  - destruct (fvalue_finite s m e q E) as (n & d & N & D & QV & ->).
    destruct (str_pos_ok (if s then [Zb 45] else []) (if s then -1 else 1) n d) as (q' & p & k & A & B & C & F); [destruct s; constructor|exact N|exact D|].
    exists q'. split; [exact A|]. right. exists p, (if s then - k else k). assert (V : (0 < IZR n / IZR d)%R) by (pose proof (p10_pos (p - 1)); lra).
    assert (AQ : Rabs (Q2R q) = (IZR n / IZR d)%R) by (rewrite QV; destruct s; [rewrite Rabs_left1 by lra; lra|rewrite Rabs_pos_eq by lra; lra]).
    split; [apply Rle_Qle; rewrite Q2R_abs, AQ; apply B|]. split; [apply Rlt_Qlt; rewrite Q2R_abs, AQ; apply B|]. split.
    + apply eqR_Qeq. rewrite C, Q2R_mult, Q2R_Z. fold (p10 (p - 12)). destruct s; rewrite ?opp_IZR; ring.
    + apply Rle_Qle. rewrite Q2R_mult, Q2R_abs, Q2R_minus. fold (p10 (p - 12)). replace (Q2R 2) with 2%R by (unfold Q2R; cbn; lra). rewrite QV, C. destruct s.
      * replace (-1 * (IZR n / IZR d) - IZR (-1) * (IZR k * p10 (p - 12)))%R with (- (IZR n / IZR d - IZR k * p10 (p - 12)))%R by ring. rewrite Rabs_Ropp. exact F.
      * replace (1 * (IZR n / IZR d) - IZR 1 * (IZR k * p10 (p - 12)))%R with (IZR n / IZR d - IZR k * p10 (p - 12))%R by ring. exact F.
Qed.

(** *** which texts are read *)
Lemma blank_iff b : is_space b = true <-> blank b.
Proof. unfold is_space, blank, is. cbn [In]. lia. Qed.
Lemma lstrip_blank a l : Forall blank a -> lstrip (a ++ l) = lstrip l.
Proof. induction 1 as [|x a B _ IH]; [reflexivity|]. cbn [app lstrip]. apply blank_iff in B. rewrite B. exact IH. Qed.
Lemma lstrip_split l : exists a, l = a ++ lstrip l /\ Forall blank a.
Proof.
  induction l as [|x l (a & E & B)]; [exists []; auto|]. cbn [lstrip]. destruct (is_space x) eqn:S.
  - exists (x :: a). split; [cbn [app]; congruence|]. constructor; [apply blank_iff, S|exact B].
  - exists []. auto.
Qed.
Lemma strip_split t : padded (strip t) t.
Proof.
  destruct (lstrip_split t) as (a & EA & A). destruct (lstrip_split (rev (lstrip t))) as (b & EB & B).
  exists a, (rev b). split; [|split; [exact A|apply Forall_rev, B]]. unfold strip. apply (f_equal (@rev byte)) in EB. rewrite rev_involutive, rev_app_distr in EB. rewrite <- EB. exact EA.
Qed.
Lemma strip_padded c t : padded c t -> Forall (fun b => is_space b = false) c -> strip t = c.
Proof.
  intros (a & b & -> & A & B) C. unfold strip. rewrite lstrip_blank by exact A. destruct c as [|x c].
  - cbn [app]. rewrite <- (app_nil_r b), lstrip_blank by exact B. reflexivity.
  - inversion C as [|x' c' X C']; subst. cbn [app]. rewrite (lstrip_id (x :: c ++ b) X). change (x :: c ++ b) with ((x :: c) ++ b). rewrite rev_app_distr, lstrip_blank by (apply Forall_rev, B).
    rewrite lstrip_id; [apply rev_involutive|]. apply Forall_rev in C. destruct C; auto.
Qed.
Lemma denotes_no_blank t q : denotes t q -> Forall (fun b => is_space b = false) t.
Proof.
  intros (sg & s & ip & ft & fp & et & x & -> & S & F & X & NE & D & Q). pose proof (proj1 (Forall_app _ _ _) D) as (DI & DF).
  repeat (apply Forall_app; split); [eapply sign_not_space, S|eapply Forall_impl; [apply digit_not_space|exact DI]| |eapply exp_not_space, X].
  destruct F; [constructor|]. constructor; [reflexivity|]. eapply Forall_impl; [apply digit_not_space|exact DF].
Qed.
Lemma py_float_padded c t q : denotes c q -> padded c t -> py_float t = py_float c.
Proof.
  intros D P. unfold py_float. rewrite (strip_padded c t P) by (eapply denotes_no_blank, D). rewrite (strip_id c) by (eapply denotes_no_blank, D). reflexivity.
Qed.
Lemma same_letter_lower a b : 97 <= bZ b <= 122 -> lower a = b <-> same_letter a b.
Proof.
  intros B. unfold lower, is_upper, same_letter. destruct ((65 <=? bZ a) && (bZ a <=? 90)) eqn:U.
  - split.
    + intros <-. right. rewrite bZ_Zb in * by lia. lia.
    + intros [->|(_ & E)]; [lia|]. replace (bZ a + 32) with (bZ b) by lia. unfold Zb, bZ. pose proof (Byte.to_N_bounded b). rewrite Z.mod_small, N2Z.id, Byte.of_to_N by lia. reflexivity.
  - split; [auto|]. intros [->|(_ & E)]; [reflexivity|lia].
Qed.
Lemma bytes_eqb_iff' a b : bytes_eqb a b = true <-> a = b.
Proof.
  revert b. induction a as [|x a IH]; intros [|y b]; cbn [bytes_eqb]; try (split; congruence). unfold byte_eqb. rewrite andb_true_iff, IH. split.
  - intros (E & ->). apply Byte.byte_dec_bl in E. congruence.
  - intros E. injection E as -> ->. split; [apply Byte.byte_dec_lb; reflexivity|reflexivity].
Qed.
Lemma same_text w v : Forall (fun b => 97 <= bZ b <= 122) v -> bytes_eqb (map lower w) v = true <-> Forall2 same_letter w v.
Proof.
  intros V. rewrite bytes_eqb_iff'. split.
  - revert v V. induction w as [|x w IH]; intros v V E; cbn [map] in E; subst; [constructor|]. inversion V; subst. constructor; [apply same_letter_lower; [assumption|reflexivity]|]. apply IH; [assumption|reflexivity].
  - intros F. induction F as [|x y w v S _ IH]; [reflexivity|]. inversion V; subst. cbn [map]. f_equal; [apply same_letter_lower; assumption|apply IH; assumption].
Qed.
Lemma inf_lower : Forall (fun b => 97 <= bZ b <= 122) [x69; x6e; x66].
Proof. repeat (constructor; [cbn; lia|]). constructor. Qed.
Lemma infinity_lower : Forall (fun b => 97 <= bZ b <= 122) [x69; x6e; x66; x69; x6e; x69; x74; x79].
Proof. repeat (constructor; [cbn; lia|]). constructor. Qed.
Lemma nan_lower : Forall (fun b => 97 <= bZ b <= 122) [x6e; x61; x6e].
Proof. repeat (constructor; [cbn; lia|]). constructor. Qed.
Lemma byte_of_bZ b c : bZ b = bZ c -> b = c.
Proof. unfold bZ. intros E. apply N2Z.inj in E. apply (f_equal Byte.of_N) in E. rewrite !Byte.of_to_N in E. congruence. Qed.
Lemma sign_of_inv l neg r : sign_of l = (neg, r) -> exists sg s, l = sg ++ r /\ sign_text sg s /\ s = if neg then -1 else 1.
Proof.
  destruct l as [|b l]; cbn [sign_of].
  - intros E. injection E as <- <-. exists [], 1. repeat split. constructor.
  - destruct (is 45 b) eqn:A; [|destruct (is 43 b) eqn:B]; intros E; injection E as <- <-.
    + apply is_iff in A. assert (b = x2d) as -> by (apply byte_of_bZ; exact A). exists [x2d], (-1). repeat split. constructor.
    + apply is_iff in B. assert (b = x2b) as -> by (apply byte_of_bZ; exact B). exists [x2b], 1. repeat split. constructor.
    + exists [], 1. repeat split. constructor.
Qed.
Lemma span_inv p l a b : span p l = (a, b) -> l = a ++ b /\ forallb p a = true.
Proof.
  revert a b. induction l as [|x l IH]; cbn [span]; intros a b E; [injection E as <- <-; auto|]. destruct (p x) eqn:P.
  - destruct (span p l) as (u & v) eqn:S. injection E as <- <-. destruct (IH u v eq_refl) as (-> & F). cbn [app forallb]. rewrite P, F. auto.
  - injection E as <- <-. auto.
Qed.
Lemma exponent_inv l x : exponent_of l = Ok x -> exp_text l x.
Proof.
  destruct l as [|b r]; cbn [exponent_of]; [intros E; injection E as <-; constructor|]. destruct (is 101 b || is 69 b) eqn:EB; [|discriminate].
  destruct (sign_of r) as (neg & r') eqn:S. destruct r' as [|d ds] eqn:ER; [discriminate|]. destruct (forallb is_digit (d :: ds)) eqn:F; [|discriminate]. intros E.
  destruct (sign_of_inv _ _ _ S) as (sg & s & -> & ST & SV). replace x with (s * number (d :: ds)).
  - apply an_exp; [|exact ST|discriminate|apply forallb_digit, F]. unfold is in EB. destruct (bZ b =? 101) eqn:K; [left; apply byte_of_bZ; cbn; lia|right; apply byte_of_bZ; cbn; lia].
  - rewrite dec_val_number in E. rewrite SV. destruct neg; [transitivity (- number (d :: ds)); [ring|congruence]|transitivity (number (d :: ds)); [ring|congruence]].
Qed.
Lemma py_float_ok_iff t : (exists f, py_float t = Ok f) <-> exists c, padded c t /\ ((exists q, denotes c q) \/ special_text c).
Proof.
  split.
  - intros (f & E). exists (strip t). split; [apply strip_split|]. unfold py_float in E. destruct (sign_of (strip t)) as (neg & l) eqn:S. destruct (sign_of_inv _ _ _ S) as (sg & s & -> & ST & SV). cbv zeta in E.
    destruct (bytes_eqb (map lower l) (txt "inf"%string)) eqn:I1; [right; exists sg, s, l; split; [reflexivity|split; [exact ST|left; apply (same_text l _ inf_lower), I1]]|].
    destruct (bytes_eqb (map lower l) (txt "infinity"%string)) eqn:I2; [right; exists sg, s, l; split; [reflexivity|split; [exact ST|right; left; apply (same_text l _ infinity_lower), I2]]|].
    destruct (bytes_eqb (map lower l) (txt "nan"%string)) eqn:I3; [right; exists sg, s, l; split; [reflexivity|split; [exact ST|right; right; apply (same_text l _ nan_lower), I3]]|].
    cbn [orb] in E. left. destruct (span is_digit l) as (ip & r) eqn:SP. destruct (span_inv _ _ _ _ SP) as (-> & DI).
    destruct (match r with b :: r' => if is 46 b then span is_digit r' else ([], r) | [] => ([], r) end) as (fp & r2) eqn:FR.
    assert (FT : exists ft, frac_text ft fp /\ r = ft ++ r2 /\ forallb is_digit fp = true).
    { destruct r as [|b r']; [injection FR as <- <-; exists []; repeat split; constructor|]. destruct (is 46 b) eqn:B.
      - apply span_inv in FR as (-> & D). exists (x2e :: fp). split; [constructor|]. split; [|exact D]. cbn [app]. f_equal. apply byte_of_bZ. apply is_iff in B. exact B.
      - injection FR as <- <-. exists []. repeat split. constructor. }
    destruct FT as (ft & FT & -> & DF). destruct (ip ++ fp) as [|c ds] eqn:CD; [discriminate|]. destruct (exponent_of r2) as [x|] eqn:X; [|discriminate]. apply exponent_inv in X.
    destruct (mk_denotes sg s ip ft fp r2 x ST FT X) as (q & Q & _); [rewrite CD; discriminate|apply Forall_app; split; apply forallb_digit; assumption|]. exists q. exact Q.
  - intros (c & P & [(q & D)|(sg & s & w & -> & S & W)]).
    + rewrite (py_float_padded c t q D P). destruct (py_float_denotes c q D) as (neg & n & k & E & _). eexists. exact E.
    + assert (NB : forall v, Forall (fun b => 97 <= bZ b <= 122) v -> Forall2 same_letter w v -> Forall (fun b => 65 <= bZ b <= 122) w).
      { clear. intros v V F. induction F as [|x y w v X _ IH]; [constructor|]. inversion V; subst. constructor; [destruct X as [->|X]; lia|auto]. }
      assert (NW : Forall (fun b => 65 <= bZ b <= 122) w /\ w <> []).
      { destruct W as [W|[W|W]]; (split; [eapply NB; [|exact W]; first [apply inf_lower|apply infinity_lower|apply nan_lower]|intros ->; inversion W]). }
      destruct NW as (NW & NE). assert (NS : Forall (fun b => is_space b = false) (sg ++ w)).
      { apply Forall_app. split; [eapply sign_not_space, S|]. eapply Forall_impl; [|exact NW]. intros b B. cbv beta in B. unfold is_space, is. lia. }
      unfold py_float. rewrite (strip_padded _ _ P NS). destruct (sign_of_app sg s w S) as (neg & -> & _). { destruct NW; [contradiction (NE eq_refl)|cbv beta in *; lia]. }
      cbv zeta. destruct W as [W|[W|W]].
      * apply (same_text w _ inf_lower) in W. change [x69; x6e; x66] with (txt "inf"%string) in W. rewrite W. cbn [orb]. eauto.
      * apply (same_text w _ infinity_lower) in W. change [x69; x6e; x66; x69; x6e; x69; x74; x79] with (txt "infinity"%string) in W. rewrite W, orb_true_r. eauto.
      * apply (same_text w _ nan_lower) in W. change [x6e; x61; x6e] with (txt "nan"%string) in W. rewrite W. destruct (_ || _); eauto.
Qed.
Lemma bind_err {A B} (r : res A) (f : A -> res B) e : bind r f = Err e -> r = Err e \/ exists a, r = Ok a /\ f a = Err e.
Proof. destruct r as [a|e']; cbn [bind]; intros E; [right; exists a; auto|left; congruence]. Qed.
Lemma exponent_err l e : exponent_of l = Err e -> e = E_ValueError.
Proof.
  destruct l as [|b r]; cbn [exponent_of]; [discriminate|]. destruct (is 101 b || is 69 b); [|congruence]. destruct (sign_of r) as (neg & [|d ds]); [congruence|]. destruct (forallb _ _); congruence.
Qed.
Lemma py_float_err t e : py_float t = Err e -> e = E_ValueError.
Proof.
  unfold py_float. destruct (sign_of (strip t)) as (neg & l). cbv zeta. destruct (_ || _); [discriminate|]. destruct (bytes_eqb _ _); [discriminate|].
  destruct (span is_digit l) as (ip & r). destruct (match r with b :: r' => if is 46 b then span is_digit r' else ([], r) | [] => ([], r) end) as (fp & r2).
  destruct (ip ++ fp); [congruence|]. intros E. apply bind_err in E as [E|(x & _ & E)]; [apply exponent_err in E; exact E|discriminate].
Qed.
Lemma decimal_valid n k : okf (f_decimal n k) = true.
Proof. destruct n; try reflexivity. apply decimal_ok. lia. Qed.
Lemma py_float_valid t f : py_float t = Ok f -> okf f = true.
Proof.
  unfold py_float. destruct (sign_of (strip t)) as (neg & l). cbv zeta. destruct (_ || _); [intros E; injection E as <-; reflexivity|]. destruct (bytes_eqb _ _); [intros E; injection E as <-; reflexivity|].
  destruct (span is_digit l) as (ip & r). destruct (match r with b :: r' => if is 46 b then span is_digit r' else ([], r) | [] => ([], r) end) as (fp & r2).
  destruct (ip ++ fp); [congruence|]. destruct (exponent_of r2); cbn [bind]; [|discriminate]. intros E. injection E as <-. unfold f_opp. destruct neg; [rewrite (proj1 (opp_ok _))|]; apply decimal_valid.
Qed.

(** *** amounts as text *)
Lemma per_btc : per Btc = 100000000%R.
Proof. reflexivity. Qed.
Lemma val_inj f g : okf f = true -> okf g = true -> fin f = true -> fin g = true -> val f = val g -> val f <> 0%R -> f = g.
Proof.
  intros OF OG FF FG E NZ. apply to_B in OF as (a & ->). apply to_B in OG as (b & ->). destruct (of_B a) as (_ & VA & FA), (of_B b) as (_ & VB & FB). rewrite VA, VB in *. rewrite FA, FB in *.
  f_equal. apply B2R_inj; [| |exact E].
  - destruct a; try discriminate; [contradiction (NZ eq_refl)|reflexivity].
  - rewrite E in NZ. destruct b; try discriminate; [contradiction (NZ eq_refl)|reflexivity].
Qed.
Lemma amount_q s q : (q * inject_Z 100000000 == inject_Z s)%Q -> Q2R q = (IZR s / per Btc)%R.
Proof. intros E. apply Qeq_eqR in E. rewrite Q2R_mult, !Q2R_Z in E. rewrite per_btc. apply Rmult_eq_reg_r with 100000000%R; [|lra]. rewrite E. field. Qed.
(** the satoshis of an amount text *)
Lemma amount_text t q s : denotes t q -> (q * inject_Z 100000000 == inject_Z s)%Q -> Z.abs s < 2 ^ 52 ->
  exists f u, py_float t = Ok f /\ unit_init None None None (Some (NFloat f)) = Ok u /\ (u_satoshis u = s \/ u_satoshis u = s - Z.sgn s).
Proof.
  intros D Q B. pose proof (amount_q s q Q) as QR. rewrite per_btc in QR.
  assert (AB : (Rabs (IZR s) <= 4503599627370496)%R) by (rewrite <- abs_IZR; apply (IZR_le _ 4503599627370496); lia).
  destruct (read_ok t q D) as (f & E & O & F & V).
  { apply in_range_R. rewrite QR. unfold Rdiv. rewrite Rabs_mult, (Rabs_pos_eq (/ 100000000)) by lra.
    apply Rle_lt_trans with (IZR (2 ^ 53)); [cbn; lra|]. unfold limit. apply IZR_lt. lia. }
  exists f. destruct (Z.eq_dec s 0) as [->|NZ].
  - assert (Z0 : val f = 0%R) by (rewrite V, QR; unfold Rdiv; rewrite Rmult_0_l; apply RN_0).
    assert (ZF : exists b, f = S754_zero b). { destruct f as [b|b| |b m e]; try discriminate; [eauto|]. exfalso. unfold val in Z0. cbn [SF2R] in Z0. apply eq_0_F2R in Z0. destruct b; discriminate. }
    destruct ZF as (b & ->). destruct b; (eexists; split; [exact E|]; split; [vm_compute; reflexivity|left; reflexivity]).
  - destruct (there_and_back s Btc NZ ltac:(lia)) as (u & u' & e & A & C & EB & SU). exists u'. split; [exact E|].
    destruct (set_int s) as (u2 & E2 & S2 & A2); [unfold too_large; lia|]. cbn [unit_init] in A. assert (u2 = u) as -> by congruence. destruct (A2 Btc) as (O2 & F2 & V2). rewrite RN_int in V2 by lia.
    assert (FE : f = shown Btc u).
    { apply val_inj; try assumption; [rewrite V, V2, QR, per_btc; reflexivity|]. rewrite V, QR. intros K.
      destruct (back_error s Btc NZ ltac:(lia)) as (e' & EB' & EV' & _). rewrite per_btc in EV'. rewrite K, Rmult_0_l, RN_0 in EV'. pose proof eps_bounds as (P0 & P1).
      assert (1 <= Rabs (IZR s))%R by (rewrite <- abs_IZR; apply IZR_le; lia). apply Rabs_le_inv in EB'. assert (-1/2 <= e')%R by nra. symmetry in EV'. apply Rmult_integral in EV' as [K2|K2]; [rewrite K2, Rabs_R0 in *; lra|lra]. }
    rewrite FE. split; [exact C|]. rewrite SU. apply trunc_near; [exact NZ|].
    replace (IZR s * (1 + e) - IZR s)%R with (IZR s * e)%R by ring. rewrite Rabs_mult. pose proof eps_bounds as (E0 & E1).
    assert (S3 : (Rabs (IZR s) <= 4503599627370495)%R) by (rewrite <- abs_IZR; apply IZR_le; lia).
    apply Rle_lt_trans with (4503599627370495 * (2 * eps + eps * eps))%R; [apply Rmult_le_compat; try apply Rabs_pos; assumption|]. nra.
Qed.
(** the text of an amount is exact below 10^12 satoshis *)
Lemma btc_text s u : 0 <= s < 10 ^ 12 -> unit_init (Some (NInt s)) None None None = Ok u -> denotes (str_float (u_btc u)) (s # 100000000).
Proof.
  intros B E. destruct (Z.eq_dec s 0) as [->|NZ].
  { assert (str_float (u_btc u) = [x30; x2e; x30]) as ->. { assert (X : unit_init (Some (NInt 0)) None None None = Ok (Unit 0 (S754_zero false) (S754_zero false) (S754_zero false))) by (vm_compute; reflexivity). assert (u = Unit 0 (S754_zero false) (S754_zero false) (S754_zero false)) as -> by congruence. vm_compute. reflexivity. }
    exists [], 1, [x30], [x2e; x30], [x30], [], 0. split; [reflexivity|]. split; [constructor|]. split; [constructor|]. split; [constructor|]. split; [discriminate|]. split; [repeat (constructor; [unfold digit; cbn; lia|]); constructor|]. reflexivity. }
  cbn [unit_init] in E. destruct (set_int s) as (u2 & E2 & S2 & A2); [unfold too_large; lia|]. assert (u2 = u) as -> by congruence. destruct (A2 Btc) as (O2 & F2 & V2). rewrite RN_int in V2 by lia. cbn [shown] in *. rewrite per_btc in V2.
  assert (S1 : (1 <= IZR s <= 999999999999)%R) by (split; apply IZR_le; lia).
  destruct (RN_rel (IZR s / 100000000)) as (dl & DB & RE). { rewrite Rabs_pos_eq by (unfold Rdiv; lra). apply Rle_trans with (bpow radix2 (-30)); [apply bpow_le; lia|]. cbn. unfold Rdiv. lra. }
  rewrite RE in V2. fold eps in DB. pose proof eps_bounds as (E0 & E1). apply Rabs_le_inv in DB.
  assert (EPS : (eps <= / 9000000000000000)%R) by lra.
  destruct (val_fvalue _ F2) as (v & FV & QV). rewrite V2 in QV. destruct (u_btc u) as [b|b| |b m e] eqn:FE; try discriminate.
  { exfalso. injection FV as <-. rewrite Q2R_0' in QV. nra. }
  destruct (fvalue_finite b m e v FV) as (n & d & N & D & QR & ->). rewrite QR in QV.
  assert (NDP : (0 < IZR n / IZR d)%R) by (apply IZR_lt in N; apply IZR_lt in D; apply Rdiv_lt_0_compat; assumption).
  assert (XP : (0 < IZR s / 100000000 * (1 + dl))%R) by (apply Rmult_lt_0_compat; [unfold Rdiv; lra|lra]).
  destruct b; [lra|]. rewrite Rmult_1_l in QV.
  destruct (str_pos_ok [] 1 n d no_sign N D) as (q & p & k & Q1 & Q2 & Q3 & Q4). rewrite QV in Q2, Q4. cbn [app] in *. rewrite Rmult_1_l in Q3.
  assert (P4 : p <= 4).
  { apply Z.nlt_ge. intros K. assert (L : (p10 4 <= p10 (p - 1))%R). { replace (p - 1) with (4 + (p - 5)) by lia. rewrite p10_plus. rewrite (p10_Z (p - 5)) by lia. pose proof (p10_pos 4). assert (1 <= IZR (10 ^ (p - 5)))%R by (apply IZR_le; pose proof (Z.pow_pos_nonneg 10 (p - 5)); lia). nra. }
    rewrite (p10_Z 4) in L by lia. change (IZR (10 ^ 4)) with 10000%R in L.
    assert (IZR s / 100000000 * (1 + dl) < 10000)%R; [|lra]. unfold Rdiv. assert (IZR s * (1 + dl) < 1000000000000)%R by nra. lra. }
  set (w := s * 10 ^ (4 - p)).
  assert (W : (IZR s / 100000000 = IZR w * p10 (p - 12))%R).
  { unfold w. rewrite mult_IZR, <- p10_Z by lia. rewrite Rmult_assoc, <- p10_plus. replace (4 - p + (p - 12)) with (- (8)) by lia. rewrite p10_opp, (p10_Z 8) by lia. reflexivity. }
  pose proof (p10_pos (p - 12)) as PP. assert (PS : p10 p = (1000000000000 * p10 (p - 12))%R). { replace p with (12 + (p - 12)) at 1 by lia. rewrite p10_plus, (p10_Z 12) by lia. reflexivity. }
  assert (KW : k = w).
  { rewrite W in Q2, Q4. replace (IZR w * p10 (p - 12) * (1 + dl) - IZR k * p10 (p - 12))%R with ((IZR w * (1 + dl) - IZR k) * p10 (p - 12))%R in Q4 by ring.
    rewrite Rabs_mult, (Rabs_pos_eq (p10 (p - 12))) in Q4 by lra. assert (A : (Rabs (IZR w * (1 + dl) - IZR k) * 2 <= 1)%R) by (apply Rmult_le_reg_r with (p10 (p - 12)); [exact PP|lra]).
    assert (WB : (IZR w * (1 + dl) < 1000000000000)%R) by (apply Rmult_lt_reg_r with (p10 (p - 12)); [exact PP|]; rewrite PS in Q2; lra).
    assert (WP : (0 < IZR w)%R). { apply IZR_lt. unfold w. pose proof (Z.pow_pos_nonneg 10 (4 - p)). nia. }
    assert (W2 : (IZR w <= 2000000000000)%R) by nra. assert (WD : (Rabs (IZR w * dl) <= / 4)%R) by (apply Rabs_le; nra). apply Rabs_le_inv in WD.
    assert (A' : (-1 / 2 <= IZR w * (1 + dl) - IZR k <= 1 / 2)%R) by (assert (A'' : (Rabs (IZR w * (1 + dl) - IZR k) <= 1 / 2)%R) by lra; apply Rabs_le_inv in A''; lra).
    assert (k < w + 1 /\ w < k + 1); [|lia]. split; apply lt_IZR; rewrite plus_IZR; lra. }
  rewrite KW, <- W in Q3. destruct Q1 as (sg & sv & ip & ft & fp & et & x & T1 & T2 & T3 & T4 & T5 & T6 & T7). exists sg, sv, ip, ft, fp, et, x. repeat (split; [assumption|]).
  rewrite <- T7. apply eqR_Qeq. rewrite Q3. unfold Q2R. cbn [Qnum Qden]. reflexivity.
Qed.
