(** Proofs about signing and verifying with a private key. *)
From Coq Require Import ZArith Znumtheory Lia Bool List.
From Verif Require Import Base M_Hash M_Codec S_Codec P_Codec M_Keys S_Keys P_Keys M_EC S_EC P_ECProps P_DSA P_SigAlg M_HD P_HD M_Utils S_Utils P_Utils P_PubKey M_Sign S_Sign.
Import ListNotations.
Open Scope Z_scope.

(** ** DER integers *)
Lemma be_hd_lower b l : bZ b * 256 ^ Z.of_nat (length l) <= be_val (b :: l).
Proof. rewrite be_val_cons. pose proof (be_val_bound l). lia. Qed.
Lemma bytes_of_bound l v k : minimal l -> be_val l = v -> v < 256 ^ Z.of_nat k -> (length l <= k)%nat.
Proof.
  intros M E B. destruct l as [|b l]; [cbn; lia|]. cbn [minimal] in M. pose proof (be_hd_lower b l) as H. rewrite E in H.
  destruct (Nat.le_gt_cases (length (b :: l)) k) as [|G]; [assumption|exfalso]. cbn [length] in G. pose proof (bZ_range b).
  assert (256 ^ Z.of_nat k <= 256 ^ Z.of_nat (length l)) by (apply Z.pow_le_mono_r; lia). nia.
Qed.
Lemma der_integer_ok r k : 0 <= r < 256 ^ Z.of_nat k -> (1 <= k)%nat -> (k < 255)%nat ->
  exists rb lr, der_integer r = [x02; lr] ++ rb /\ bZ lr = blen rb /\ der_int rb /\ be_val rb = r /\ 1 <= blen rb <= Z.of_nat k + 1.
Proof.
  intros R K1 K. destruct (int_min r (proj1 R)) as (V & M). unfold der_integer. cbv zeta.
  pose proof (bytes_of_bound _ r k M V (proj2 R)) as L. destruct (int_to_bytes r) as [|b l] eqn:E.
  - cbn [nth]. change (bZ x00 <=? 127) with true. cbv iota. exists [x00], (Zb (blen [x00])). split; [reflexivity|].
    split; [reflexivity|]. split; [cbn; reflexivity|]. split; [rewrite <- V; reflexivity|]. unfold blen. cbn. lia.
  - cbn [nth minimal] in M |- *. pose proof (bZ_range b). assert (BL : blen (b :: l) <= Z.of_nat k) by (unfold blen; lia).
    assert (B1 : 1 <= blen (b :: l)) by (rewrite blen_cons; pose proof (blen_nonneg l); lia).
    destruct (Z.leb_spec (bZ b) 127).
    + exists (b :: l), (Zb (blen (b :: l))). split; [reflexivity|]. split; [apply bZ_Zb; lia|].
      split; [destruct l; cbn [der_int]; [lia|split; lia]|]. split; [exact V|]. lia.
    + exists (x00 :: b :: l), (Zb (blen (b :: l) + 1)). split; [reflexivity|]. rewrite (blen_cons x00).
      split; [rewrite bZ_Zb by lia; lia|]. split; [cbn [der_int]; split; [reflexivity|lia]|]. split; [rewrite be_val_zero_cons; exact V|]. lia.
Qed.
Lemma sigencode_ok r s : 0 <= r < 2 ^ 256 -> 0 <= s < 2 ^ 256 -> der_sig r s (sigencode_der r s) /\ 8 <= blen (sigencode_der r s) <= 72.
Proof.
  change (2 ^ 256) with (256 ^ Z.of_nat 32). intros R S.
  destruct (der_integer_ok r 32 R ltac:(lia) ltac:(lia)) as (rb & lr & E1 & L1 & D1 & V1 & B1).
  destruct (der_integer_ok s 32 S ltac:(lia) ltac:(lia)) as (sb & ls & E2 & L2 & D2 & V2 & B2).
  unfold sigencode_der. cbv zeta. rewrite E1, E2. change (Z.of_nat 32) with 32 in B1, B2.
  assert (BL : blen (([x02; lr] ++ rb) ++ [x02; ls] ++ sb) = 4 + blen rb + blen sb).
  { rewrite !blen_app. change (blen [x02; lr]) with 2. change (blen [x02; ls]) with 2. lia. }
  unfold der_length. rewrite BL. destruct (Z.ltb_spec (4 + blen rb + blen sb) 128); [|lia]. split.
  - exists rb, sb, (Zb (4 + blen rb + blen sb)), lr, ls. do 6 (split; [assumption|]). rewrite bZ_Zb by lia. split; [reflexivity|]. split; [lia|].
    cbn [app]. reflexivity.
  - rewrite blen_cons, blen_app, BL. change (blen [_]) with 1. lia.
Qed.
(** the encoding is determined by the numbers *)
Lemma der_int_unique a b : der_int a -> der_int b -> be_val a = be_val b -> a = b.
Proof.
  assert (N : forall l, der_int l -> l = int_to_bytes (be_val l) \/ l = x00 :: int_to_bytes (be_val l)).
  { intros l H. pose proof (be_val_bound l) as B. destruct l as [|x l]; [destruct H|]. destruct (Z.eq_dec (bZ x) 0) as [Z0|NZ].
    - right. assert (x = x00) by (apply bZ_inj; exact Z0). subst x. f_equal. rewrite be_val_zero_cons. rewrite be_val_zero_cons in B.
      apply int_min_unique; [lia|reflexivity|]. destruct l as [|y l]; [exact I|]. cbn [der_int minimal] in *. lia.
    - left. apply int_min_unique; [lia|reflexivity|exact NZ]. }
  intros A B E. destruct (N a A) as [EA|EA], (N b B) as [EB|EB]; rewrite <- E in EB; try congruence; exfalso.
  - rewrite EB in B. rewrite EA in A. destruct (int_to_bytes (be_val a)) as [|x l] eqn:X; [exact A|].
    cbn [der_int] in B. destruct B as (_ & B). destruct l; cbn [der_int] in A; lia || (specialize (B eq_refl); lia).
  - rewrite EB in B. rewrite EA in A. destruct (int_to_bytes (be_val a)) as [|x l] eqn:X; [exact B|].
    cbn [der_int] in A. destruct A as (_ & A). destruct l; cbn [der_int] in B; lia || (specialize (A eq_refl); lia).
Qed.
Lemma der_sig_unique r s b b' : der_sig r s b -> der_sig r s b' -> b = b'.
Proof.
  intros (rb & sb & t & lr & ls & D1 & D2 & V1 & V2 & L1 & L2 & T & _ & ->) (rb' & sb' & t' & lr' & ls' & D1' & D2' & V1' & V2' & L1' & L2' & T' & _ & ->).
  assert (rb = rb') by (apply der_int_unique; congruence). assert (sb = sb') by (apply der_int_unique; congruence). subst rb' sb'.
  assert (lr = lr') by (apply bZ_inj; congruence). assert (ls = ls') by (apply bZ_inj; congruence). assert (t = t') by (apply bZ_inj; congruence).
  subst. reflexivity.
Qed.
Lemma der_sig_bip66 r s b h : der_sig r s b -> r < 2 ^ 256 -> s < 2 ^ 256 -> bip66 (b ++ [h]).
Proof.
  intros H R S. assert (R0 : 0 <= r) by (destruct H as (rb & sb & ? & ? & ? & _ & _ & <- & _); apply be_val_bound).
  assert (S0 : 0 <= s) by (destruct H as (rb & sb & ? & ? & ? & _ & _ & _ & <- & _); apply be_val_bound).
  destruct (sigencode_ok r s ltac:(lia) ltac:(lia)) as (H' & L). rewrite <- (der_sig_unique _ _ _ _ H H') in L.
  destruct H as (rb & sb & t & lr & ls & D1 & D2 & V1 & V2 & L1 & L2 & T & _ & ->).
  exists t, lr, ls, rb, sb, h. split; [cbn [app]; rewrite <- !app_assoc; reflexivity|].
  rewrite blen_app. change (blen [h]) with 1.
  assert (BB : blen ([x30; t; x02; lr] ++ rb ++ [x02; ls] ++ sb) = 6 + blen rb + blen sb).
  { rewrite !blen_app. change (blen [x30; t; x02; lr]) with 4. change (blen [x02; ls]) with 2. lia. }
  split; [lia|]. repeat (split; [assumption|]). lia.
Qed.

(** ** the decoder *)
Lemma slice_to_nn {A} n (l : list A) : 0 <= n -> slice_to n l = firstn (Z.to_nat n) l.
Proof.
  intros N. unfold slice_to. destruct (Z.ltb_spec n 0); [lia|]. unfold blen. destruct (Z.le_ge_cases n (Z.of_nat (length l))) as [L|L].
  - rewrite Z.min_l by lia. reflexivity.
  - rewrite Z.min_r, Nat2Z.id by lia. rewrite firstn_all. symmetry. apply firstn_all2. lia.
Qed.
Lemma slice_from_nn {A} n (l : list A) : 0 <= n -> slice_from n l = skipn (Z.to_nat n) l.
Proof.
  intros N. unfold slice_from. destruct (Z.ltb_spec n 0); [lia|]. unfold blen. destruct (Z.le_ge_cases n (Z.of_nat (length l))) as [L|L].
  - rewrite Z.min_l by lia. reflexivity.
  - rewrite Z.min_r, Nat2Z.id by lia. rewrite skipn_all. symmetry. apply skipn_all2. lia.
Qed.
Lemma ber_length_nonneg l n : ber_length l n -> 0 <= n.
Proof. intros [(b & _ & _ & ->)|(b & d & _ & _ & _ & ->)]; [apply bZ_range|apply be_val_bound]. Qed.
Lemma string_to_number_ok l n : string_to_number l = SOk n <-> l <> [] /\ n = be_val l.
Proof.
  destruct l as [|b l]; cbn [string_to_number].
  - split; [discriminate|intros (H & _); congruence].
  - rewrite ifb_be. split; [intros H; injection H as <-; split; [discriminate|reflexivity]|intros (_ & ->); reflexivity].
Qed.
Lemma land_high b : (Z.land (bZ b) 128 =? 0) = (bZ b <? 128).
Proof. destruct b; reflexivity. Qed.
Lemma land_low b : Z.land (bZ b) 127 = if bZ b <? 128 then bZ b else bZ b - 128.
Proof. destruct b; reflexivity. Qed.
Lemma read_length_ok l n k : read_length l = SOk (n, k) <-> exists h t, l = h ++ t /\ ber_length h n /\ k = blen h.
Proof.
  destruct l as [|b r]; cbn [read_length].
  { split; [discriminate|]. intros (h & t & E & [(b & -> & _)|(b & d & -> & _)] & _); discriminate. }
  rewrite land_high, land_low. pose proof (bZ_range b) as BR. destruct (Z.ltb_spec (bZ b) 128) as [B|B].
  - split.
    + intros H. injection H as <- <-. exists [b], r. split; [reflexivity|]. split; [left; exists b; auto|reflexivity].
    + intros (h & t & E & [(b' & -> & _ & ->)|(b' & d & -> & D1 & D2 & _)] & ->); injection E as <- _; [reflexivity|lia].
  - cbv zeta. rewrite Z.gtb_ltb. destruct (Z.ltb_spec (blen r) (bZ b - 128)) as [S|S].
    + split; [discriminate|]. intros (h & t & E & [(b' & -> & B' & _)|(b' & d & -> & D1 & D2 & _)] & _); injection E as <- E; [lia|].
      rewrite E, blen_app in S. pose proof (blen_nonneg t). lia.
    + split.
      * destruct (string_to_number (slice_to (bZ b - 128) r)) as [v|e] eqn:Q; cbn [sbind]; [|discriminate]. apply string_to_number_ok in Q. destruct Q as (NE & ->).
        intros H. injection H as <- <-. rewrite slice_to_nn in * by lia. set (j := Z.to_nat (bZ b - 128)) in *.
        assert (FL : blen (firstn j r) = bZ b - 128) by (unfold blen, j in *; rewrite firstn_length; lia).
        exists (b :: firstn j r), (skipn j r). cbn [app]. rewrite firstn_skipn. split; [reflexivity|]. rewrite blen_cons, FL. split; [|reflexivity].
        right. exists b, (firstn j r). split; [reflexivity|]. split; [destruct (firstn j r); [congruence|rewrite blen_cons; pose proof (blen_nonneg l); lia]|].
        split; [lia|reflexivity].
      * intros (h & t & E & [(b' & -> & B' & _)|(b' & d & -> & D1 & D2 & ->)] & ->); injection E as <- E; [lia|].
        assert (FD : slice_to (bZ b - 128) r = d).
        { rewrite slice_to_nn by lia. rewrite E. apply firstn_exact. unfold blen in *. lia. }
        rewrite FD. assert (Q : string_to_number d = SOk (be_val d)) by (apply string_to_number_ok; split; [intros ->; unfold blen in D1; cbn in D1; lia|reflexivity]).
        rewrite Q. cbn [sbind]. rewrite blen_cons. do 2 f_equal. lia.
Qed.
Lemma read_tag_ok tag l r n : read_tag tag l = SOk (r, n) <-> exists h, l = tag :: h ++ r /\ ber_length h n.
Proof.
  destruct l as [|b l]; cbn [read_tag]; [split; [discriminate|intros (h & E & _); discriminate]|].
  destruct (byte_eqb b tag) eqn:T; cbn [negb].
  - apply byte_eqb_eq in T. subst b. destruct (read_length l) as [(v, k)|e] eqn:Q; cbn [sbind].
    + apply read_length_ok in Q. destruct Q as (h & t & -> & BL & ->).
      assert (SF : slice_from (blen h) (h ++ t) = t).
      { rewrite slice_from_nn by apply blen_nonneg. unfold blen. rewrite Nat2Z.id. rewrite skipn_app, skipn_all, Nat.sub_diag. reflexivity. }
      rewrite SF. split.
      * intros H. injection H as <- <-. exists h. split; [reflexivity|exact BL].
      * intros (h' & E & BL'). injection E as E. assert (R1 : read_length (h ++ t) = SOk (v, blen h)) by (apply read_length_ok; exists h, t; auto).
        assert (R2 : read_length (h ++ t) = SOk (n, blen h')) by (apply read_length_ok; exists h', r; auto). rewrite R1 in R2. injection R2 as -> L.
        assert (EH : h = h' /\ t = r).
        { assert (LL : length h = length h') by (unfold blen in L; lia). rewrite <- (firstn_exact (length h) h t eq_refl) at 1.
          split; [rewrite E, LL; apply firstn_exact; reflexivity|]. apply (f_equal (skipn (length h))) in E. rewrite LL in E at 2.
          rewrite !skipn_app, !skipn_all, !Nat.sub_diag in E. exact E. }
        destruct EH as (_ & ->). reflexivity.
    + split; [discriminate|]. intros (h & E & BL). injection E as ->.
      assert (R1 : read_length (h ++ r) = SOk (n, blen h)) by (apply read_length_ok; exists h, r; auto). congruence.
  - split; [discriminate|]. intros (h & E & _). injection E as -> _. assert (byte_eqb tag tag = true) by (apply byte_eqb_eq; reflexivity). congruence.
Qed.
Lemma remove_sequence_ok l body junk : remove_sequence l = SOk (body, junk) <->
  exists h n r, l = x30 :: h ++ r /\ ber_length h n /\ body = firstn (Z.to_nat n) r /\ junk = skipn (Z.to_nat n) r.
Proof.
  unfold remove_sequence. split.
  - destruct (read_tag x30 l) as [(r, n)|e] eqn:Q; cbn [sbind]; [|discriminate]. apply read_tag_ok in Q. destruct Q as (h & -> & B).
    pose proof (ber_length_nonneg _ _ B). rewrite slice_to_nn, slice_from_nn by lia. intros H9. injection H9 as <- <-. exists h, n, r. auto.
  - intros (h & n & r & -> & B & -> & ->). assert (Q : read_tag x30 (x30 :: h ++ r) = SOk (r, n)) by (apply read_tag_ok; exists h; auto).
    rewrite Q. cbn [sbind]. pose proof (ber_length_nonneg _ _ B). rewrite slice_to_nn, slice_from_nn by lia. reflexivity.
Qed.
Lemma remove_integer_ok l v rest : remove_integer l = SOk (v, rest) <->
  exists h n r, l = x02 :: h ++ r /\ ber_length h n /\ lax_int (firstn (Z.to_nat n) r) /\ v = be_val (firstn (Z.to_nat n) r) /\ rest = skipn (Z.to_nat n) r.
Proof.
  unfold remove_integer. split.
  - destruct (read_tag x02 l) as [(r, n)|e] eqn:Q; cbn [sbind]; [|discriminate]. apply read_tag_ok in Q. destruct Q as (h & -> & B).
    pose proof (ber_length_nonneg _ _ B). rewrite slice_to_nn, slice_from_nn by lia.
    destruct (firstn (Z.to_nat n) r) as [|b t] eqn:F; [discriminate|]. destruct (Z.ltb_spec (bZ b) 128); [|discriminate].
    intros H'. rewrite ifb_be in H'. injection H' as <- <-. exists h, n, r. rewrite F. cbn [lax_int]. auto.
  - intros (h & n & r & -> & B & L & -> & ->). assert (Q : read_tag x02 (x02 :: h ++ r) = SOk (r, n)) by (apply read_tag_ok; exists h; auto).
    rewrite Q. cbn [sbind]. pose proof (ber_length_nonneg _ _ B). rewrite slice_to_nn, slice_from_nn by lia.
    destruct (firstn (Z.to_nat n) r) as [|b t] eqn:F; [destruct L|]. cbn [lax_int] in L. destruct (Z.ltb_spec (bZ b) 128); [|lia]. rewrite ifb_be. reflexivity.
Qed.
Lemma skipn_nil_inv {A} k (l : list A) : skipn k l = [] -> firstn k l = l /\ (length l <= k)%nat.
Proof.
  intros H. assert (L : (length l <= k)%nat) by (apply (f_equal (@length A)) in H; rewrite skipn_length in H; cbn in H; lia).
  split; [apply firstn_all2, L|exact L].
Qed.
Lemma sigdecode_ok b r s : sigdecode_der b = SOk (r, s) <-> lax_sig r s b.
Proof.
  unfold sigdecode_der. split.
  - destruct (remove_sequence b) as [(body, junk)|e] eqn:Q; cbn [sbind]; [|discriminate]. apply remove_sequence_ok in Q.
    destruct Q as (l0 & n0 & r0 & -> & B0 & -> & J). destruct junk; [|discriminate]. symmetry in J. apply skipn_nil_inv in J. destruct J as (F0 & L0). rewrite F0.
    destruct (remove_integer r0) as [(v1, r1)|e] eqn:Q; cbn [sbind]; [|discriminate]. apply remove_integer_ok in Q.
    destruct Q as (l1 & n1 & t1 & -> & B1 & I1 & -> & ->).
    destruct (remove_integer (skipn (Z.to_nat n1) t1)) as [(v2, r2)|e] eqn:Q; cbn [sbind]; [|discriminate]. apply remove_integer_ok in Q.
    destruct Q as (l2 & n2 & t2 & E2 & B2 & I2 & -> & J). destruct r2; [|discriminate]. symmetry in J. apply skipn_nil_inv in J. destruct J as (F2 & L2). rewrite F2 in *.
    intros H. injection H as <- <-. pose proof (ber_length_nonneg _ _ B0). pose proof (ber_length_nonneg _ _ B1). pose proof (ber_length_nonneg _ _ B2).
    assert (LB : blen (firstn (Z.to_nat n1) t1) = n1).
    { apply (f_equal (@length byte)) in E2. rewrite skipn_length in E2. cbn [length] in E2. unfold blen. rewrite firstn_length. lia. }
    assert (ET : t1 = firstn (Z.to_nat n1) t1 ++ [x02] ++ l2 ++ t2) by (cbn [app]; rewrite <- E2; symmetry; apply firstn_skipn).
    exists l0, n0, l1, (firstn (Z.to_nat n1) t1), l2, n2, t2. rewrite <- ET, LB. split; [reflexivity|]. split; [exact B0|].
    split; [unfold blen in *; cbn [app]; lia|]. split; [exact B1|]. split; [exact B2|]. split; [unfold blen; lia|]. auto.
  - intros (l0 & n0 & l1 & rb & l2 & n2 & sb & -> & B0 & L0 & B1 & B2 & L2 & I1 & I2 & <- & <-).
    pose proof (ber_length_nonneg _ _ B0). pose proof (ber_length_nonneg _ _ B1). pose proof (ber_length_nonneg _ _ B2).
    set (body := [x02] ++ l1 ++ rb ++ [x02] ++ l2 ++ sb) in *.
    assert (Q : remove_sequence ([x30] ++ l0 ++ body) = SOk (body, [])).
    { apply remove_sequence_ok. exists l0, n0, body. split; [reflexivity|]. split; [exact B0|]. unfold blen in L0.
      split; [symmetry; apply firstn_all2; lia|symmetry; apply skipn_all2; lia]. }
    rewrite Q. cbn [sbind]. clear Q.
    assert (Q : remove_integer body = SOk (be_val rb, [x02] ++ l2 ++ sb)).
    { apply remove_integer_ok. exists l1, (blen rb), (rb ++ [x02] ++ l2 ++ sb). split; [reflexivity|]. split; [exact B1|].
      unfold blen. rewrite Nat2Z.id. rewrite firstn_exact by reflexivity. split; [exact I1|]. split; [reflexivity|]. rewrite skipn_app, skipn_all, Nat.sub_diag. reflexivity. }
    rewrite Q. cbn [sbind]. clear Q.
    assert (Q : remove_integer ([x02] ++ l2 ++ sb) = SOk (be_val sb, [])).
    { apply remove_integer_ok. exists l2, n2, sb. split; [reflexivity|]. split; [exact B2|]. unfold blen in L2.
      rewrite firstn_all2 by lia. split; [exact I2|]. split; [reflexivity|]. symmetry. apply skipn_all2. lia. }
    rewrite Q. reflexivity.
Qed.
Lemma der_int_lax l : der_int l -> lax_int l.
Proof. destruct l as [|a [|b l]]; cbn [der_int lax_int]; tauto. Qed.
Lemma der_lax r s b : der_sig r s b -> lax_sig r s b.
Proof.
  intros (rb & sb & t & lr & ls & D1 & D2 & V1 & V2 & L1 & L2 & T & T' & ->).
  assert (P1 : 0 <= blen rb) by apply blen_nonneg. assert (P2 : 0 <= blen sb) by apply blen_nonneg.
  exists [t], (bZ t), [lr], rb, [ls], (blen sb), sb. split; [cbn [app]; reflexivity|]. split; [left; exists t; auto|].
  split; [cbn [app]; rewrite !blen_cons, blen_app, !blen_cons; lia|]. split; [left; exists lr; split; [reflexivity|lia]|].
  split; [left; exists ls; split; [reflexivity|lia]|]. split; [lia|]. split; [apply der_int_lax, D1|]. split; [apply der_int_lax, D2|]. split; assumption.
Qed.
Lemma der_roundtrip r s : 0 <= r < 2 ^ 256 -> 0 <= s < 2 ^ 256 -> sigdecode_der (sigencode_der r s) = SOk (r, s).
Proof. intros R S. apply sigdecode_ok, der_lax. apply sigencode_ok; assumption. Qed.
Lemma der_decode_lax : ~ (forall b r s, sigdecode_der b = SOk (r, s) -> der_sig r s b).
Proof.
  intros H. specialize (H [x30; x07; x02; x02; x00; x01; x02; x01; x01] 1 1). assert (E : sigdecode_der [x30; x07; x02; x02; x00; x01; x02; x01; x01] = SOk (1, 1)) by reflexivity.
  specialize (H E). assert (D : der_sig 1 1 (sigencode_der 1 1)) by (apply sigencode_ok; split; vm_compute; congruence).
  pose proof (der_sig_unique _ _ _ _ H D) as Q. vm_compute in Q. discriminate Q.
Qed.
Lemma der_decode_truncated : sigdecode_der [x30; x7f; x02; x01; x01; x02; x20; x01] = SOk (1, 1).
Proof. reflexivity. Qed.

(** ** keys *)
Lemma pp_pair d x y : public_point d x y -> public_pair_for_secret secp256k1 secp_G d = Ok (Some (x, y)) /\ on_curve secp_p 0 7 (EA x y).
Proof.
  intros (B & M). destruct (dg_mul secp256k1 secp_gx secp_gy key_max secp_group d) as (R & A & VR & RR & M' & I).
  rewrite key_max_order in M', I. rewrite (Z.mod_small d) in M', I by (clear -B; lia).
  assert (E : EA x y = stands secp_p R).
  { pose proof (dg_stands secp256k1 secp_gx secp_gy key_max secp_group) as SG. change (c_p secp256k1) with secp_p in *.
    apply (multiple_fun secp256k1 (proj1 secp_curve) (proj1 (proj2 secp_curve)) (PAff secp_gx secp_gy (Some key_max)) d); [apply (dg_valid secp256k1 secp_gx secp_gy key_max secp_group)| |];
    change (c_p secp256k1) with secp_p; rewrite SG; [exact M|exact M']. }
  destruct R as [|px py o]; [discriminate|]. destruct RR as (R1 & R2). change (c_p secp256k1) with secp_p in R1, R2.
  cbn [stands] in E. rewrite !Z.mod_small in E by assumption. injection E as -> ->.
  split; [unfold public_pair_for_secret, secp_G; rewrite A; reflexivity|]. split; [exact R1|]. split; [exact R2|]. exact (proj2 VR).
Qed.
Lemma pp_exists d : 0 < d < curve_order -> exists x y, public_point d x y.
Proof.
  intros B. destruct (dg_mul secp256k1 secp_gx secp_gy key_max secp_group d) as (R & A & VR & RR & M' & I).
  rewrite key_max_order in M', I. rewrite (Z.mod_small d) in M', I by (clear -B; lia).
  destruct R as [|px py o]; [exfalso; pose proof (proj1 I eq_refl); clear -B H; lia|]. destruct RR as (R1 & R2).
  cbn [stands] in M'. rewrite !Z.mod_small in M' by assumption. exists px, py. split; [exact B|exact M'].
Qed.
Lemma pp_fun d x y x' y' : public_point d x y -> public_point d x' y' -> x = x' /\ y = y'.
Proof. intros A B. destruct (pp_pair _ _ _ A) as (E & _), (pp_pair _ _ _ B) as (E' & _). rewrite E in E'. injection E' as -> ->. split; reflexivity. Qed.
Lemma pp_mult d x y : public_point d x y -> multiple (c_p secp256k1) (c_a secp256k1) (EA secp_gx secp_gy) (d mod key_max) (EA x y).
Proof. intros (B & M). rewrite key_max_order, Z.mod_small by (clear -B; lia). exact M. Qed.
Lemma order_gt1 : 1 < key_max. Proof. reflexivity. Qed.
Lemma order_lt_p : key_max < secp_p. Proof. reflexivity. Qed.
Lemma p_lt : secp_p < 2 ^ 256. Proof. reflexivity. Qed.

Lemma signing_key_spec d : signing_key d =
  if (1 <=? d) && (d <? key_max) then
    match public_pair_for_secret secp256k1 secp_G d with
    | Ok (Some (x, y)) => if (key_max <=? x) || (key_max <=? y) then SErr (SX E_RuntimeError) else SOk (x, y)
    | _ => SErr (SX E_AssertionError)
    end
  else SErr (SX E_AssertionError).
Proof.
  unfold signing_key. destruct ((1 <=? d) && (d <? key_max)) eqn:B; [|reflexivity]. cbn [negb].
  apply andb_true_iff in B. destruct B as (B1 & B2). apply Z.leb_le in B1. apply Z.ltb_lt in B2. rewrite key_max_order in B2.
  destruct (pp_exists d ltac:(clear -B1 B2; lia)) as (x & y & P). destruct (pp_pair d x y P) as (-> & X & Y & _). cbn [lift sbind].
  destruct (Z.ltb_spec x 0); [exfalso; clear -X H; lia|]. destruct (Z.ltb_spec y 0); [exfalso; clear -Y H0; lia|]. cbn [orb].
  rewrite orb_false_r. reflexivity.
Qed.
Lemma signing_key_ok d x y : public_point d x y -> x < curve_order -> y < curve_order -> signing_key d = SOk (x, y).
Proof.
  intros P X Y. rewrite signing_key_spec, key_max_order. destruct (pp_pair d x y P) as (-> & _). destruct P as (B & _).
  destruct (Z.leb_spec 1 d); [|exfalso; clear -B H; lia]. destruct (Z.ltb_spec d curve_order); [|exfalso; clear -B H0; lia]. cbn [andb].
  destruct (Z.leb_spec curve_order x); [exfalso; clear -X H1; lia|]. destruct (Z.leb_spec curve_order y); [exfalso; clear -Y H2; lia|]. reflexivity.
Qed.
Lemma signing_key_range d x y : public_point d x y -> ~ (x < curve_order /\ y < curve_order) -> signing_key d = SErr (SX E_RuntimeError).
Proof.
  intros P N. rewrite signing_key_spec, key_max_order. destruct (pp_pair d x y P) as (-> & _). destruct P as (B & _).
  destruct (Z.leb_spec 1 d); [|exfalso; clear -B H; lia]. destruct (Z.ltb_spec d curve_order); [|exfalso; clear -B H0; lia]. cbn [andb].
  destruct (Z.leb_spec curve_order x); [reflexivity|]. destruct (Z.leb_spec curve_order y); [reflexivity|]. exfalso. apply N. split; assumption.
Qed.
Lemma signing_key_bad d : ~ 0 < d < curve_order -> signing_key d = SErr (SX E_AssertionError).
Proof.
  intros N. rewrite signing_key_spec, key_max_order. destruct (Z.leb_spec 1 d); [|reflexivity]. destruct (Z.ltb_spec d curve_order); [|reflexivity].
  exfalso. clear -N H H0. lia.
Qed.

(** ** signing *)
Lemma sign_secret_range k nonce m : ~ 0 < k_secret k < curve_order -> priv_sign k nonce m = SErr (SX E_AssertionError).
Proof. intros N. unfold priv_sign. rewrite (signing_key_bad _ N). reflexivity. Qed.
Lemma sign_point_range k x y nonce m : public_point (k_secret k) x y -> ~ (x < curve_order /\ y < curve_order) ->
  priv_sign k nonce m = SErr (SX E_RuntimeError).
Proof. intros P N. unfold priv_sign. rewrite (signing_key_range _ _ _ P N). reflexivity. Qed.
Lemma sign_long k x y nonce m : public_point (k_secret k) x y -> x < curve_order -> y < curve_order -> 32 < blen m ->
  priv_sign k nonce m = SErr BadDigestError.
Proof. intros P X Y L. unfold priv_sign. rewrite (signing_key_ok _ _ _ P X Y). cbn [sbind]. rewrite Z.gtb_ltb. destruct (Z.ltb_spec 32 (blen m)); [reflexivity|lia]. Qed.
Lemma sign_empty k x y nonce : public_point (k_secret k) x y -> x < curve_order -> y < curve_order ->
  priv_sign k nonce [] = SErr (SX E_ValueError).
Proof. intros P X Y. unfold priv_sign. rewrite (signing_key_ok _ _ _ P X Y). reflexivity. Qed.

Lemma canon_mod s t v n : 0 < n -> (s * t) mod n = v mod n -> ((n - s) * t) mod n = (- v) mod n.
Proof.
  intros N E. replace ((n - s) * t) with (0 - s * t + t * n) by ring. rewrite Z_mod_plus_full, Zminus_mod, E, <- Zminus_mod. f_equal. 
Qed.
Lemma half_order : curve_order = 2 * ((curve_order - 1) / 2) + 1. Proof. vm_compute. reflexivity. Qed.
Lemma half_order' : curve_order / 2 = (curve_order - 1) / 2. Proof. vm_compute. reflexivity. Qed.
Lemma sign_outcome k x y nonce m : public_point (k_secret k) x y -> x < curve_order -> y < curve_order -> 0 < nonce < curve_order ->
  1 <= blen m <= 32 ->
  exists r yr, public_point nonce r yr /\ 1 <= r < secp_p /\
    (((be_val m + k_secret k * r) mod curve_order <> 0 /\ exists s b, priv_sign k nonce m = SOk b /\ der_sig r s b /\ blen b <= 72 /\
        1 <= s <= (curve_order - 1) / 2 /\ ((s * nonce) mod curve_order = (be_val m + k_secret k * r) mod curve_order \/
                                            (s * nonce) mod curve_order = (- (be_val m + k_secret k * r)) mod curve_order) /\
        (r < curve_order -> secp_valid x y (be_val m) r s)) \/
     ((be_val m + k_secret k * r) mod curve_order = 0 /\ priv_sign k nonce m = SErr (SX E_RuntimeError))).
Proof.
  intros P X Y N L. rewrite <- key_max_order in N. set (d := k_secret k) in *. destruct (secp_sign d (be_val m) nonce ltac:(clear -N; lia)) as (r & yr & M & R & C).
  exists r, yr. split; [split; [rewrite <- key_max_order; exact N|exact M]|]. split; [exact R|].
  assert (S0 : string_to_number m = SOk (be_val m)) by (apply string_to_number_ok; split; [intros ->; unfold blen in L; cbn in L; clear -L; lia|reflexivity]).
  assert (GT : blen m >? 32 = false) by (rewrite Z.gtb_ltb; apply Z.ltb_ge; exact (proj2 L)).
  assert (SK : signing_key (k_secret k) = SOk (x, y)) by (exact (signing_key_ok _ _ _ P X Y)).
  assert (U : priv_sign k nonce m = sbind (lift (ecdsa_sign_k secp256k1 secp_G d (be_val m) nonce)) (fun '(r, s) => SOk (sigencode_der_canonize r s key_max))).
  { unfold priv_sign. rewrite SK. cbn [sbind]. rewrite GT, S0. reflexivity. }
  rewrite U. clear U S0 GT SK. pose proof order_gt1 as N1. pose proof order_lt_p as NP. pose proof p_lt as PL.
  rewrite key_max_order in *. destruct C as [(NZ & s & E & S & K)|(Z0 & E)]; rewrite E; cbn [lift sbind]; [left|right; split; [exact Z0|reflexivity]].
  split; [exact NZ|]. unfold sigencode_der_canonize. rewrite Z.gtb_ltb. rewrite half_order'. pose proof half_order as HO.
  set (h := (curve_order - 1) / 2) in *. set (s' := if h <? s then curve_order - s else s).
  assert (S' : 1 <= s' <= h /\ (s' = s \/ s' = curve_order - s)).
  { unfold s'. clearbody h. clear -S HO. destruct (Z.ltb_spec h s); split; lia || auto. }
  destruct S' as (S1 & S2). clearbody s' h. destruct (sigencode_ok r s') as (DS & DL); [clear -R PL; lia|clear -S1 HO NP PL; lia|].
  exists s', (sigencode_der r s'). split; [reflexivity|]. split; [exact DS|]. split; [exact (proj2 DL)|]. split; [exact S1|]. split.
  - destruct S2 as [->| ->]; [left; exact K|right]. apply canon_mod; [clear -N1; lia|exact K].
  - intros RN. pose proof (pp_mult d x y P) as PM. unfold secp_valid.
    assert (V : sig_valid (c_p secp256k1) (c_a secp256k1) key_max (EA secp_gx secp_gy) (EA x y) (be_val m) r s).
    { apply (sig_valid_made secp256k1 secp_gx secp_gy key_max secp_group d x y nonce r yr (be_val m) s PM).
      - rewrite key_max_order. clear -N; lia.
      - exact M.
      - rewrite key_max_order. clear -R RN; lia.
      - rewrite key_max_order. exact S.
      - rewrite key_max_order. exact K. }
    pose proof (sig_valid_mirror secp256k1 secp_gx secp_gy key_max secp_group d x y (be_val m) r s PM V) as V'. rewrite key_max_order in V, V'.
    destruct S2 as [->| ->]; [exact V|exact V'].
Qed.
Lemma sign_bip66 k nonce m b h : 0 < nonce < curve_order -> priv_sign k nonce m = SOk b -> bip66 (b ++ [h]).
Proof.
  intros N E. assert (B : 0 < k_secret k < curve_order).
  { destruct (Z.ltb_spec 0 (k_secret k)) as [A|A]; [destruct (Z.ltb_spec (k_secret k) curve_order) as [A'|A']; [split; assumption|]|];
    rewrite sign_secret_range in E by (clear -A A' || clear -A; lia); discriminate. }
  destruct (pp_exists _ B) as (x & y & P). destruct (Z.ltb_spec x curve_order) as [X|X]; [|rewrite (sign_point_range k x y nonce m P) in E by (clear -X; lia); discriminate].
  destruct (Z.ltb_spec y curve_order) as [Y|Y]; [|rewrite (sign_point_range k x y nonce m P) in E by (clear -Y; lia); discriminate].
  destruct (Z.ltb_spec 32 (blen m)) as [L|L]; [rewrite (sign_long k x y nonce m P X Y L) in E; discriminate|].
  destruct m as [|c m]; [rewrite (sign_empty k x y nonce P X Y) in E; discriminate|].
  destruct (sign_outcome k x y nonce (c :: m) P X Y N) as (r & yr & _ & R & [(_ & s & b' & E' & DS & _ & S & _)|(_ & E')]);
    [split; [rewrite blen_cons; pose proof (blen_nonneg m) as BN; clear -BN; lia|exact L]| |congruence].
  rewrite E in E'. injection E' as <-. pose proof p_lt as PL. pose proof half_order as HO. pose proof order_lt_p as NP. rewrite key_max_order in NP.
  apply (der_sig_bip66 r s b h DS); [clear -R PL; lia|]. revert S HO. generalize ((curve_order - 1) / 2). intros q S HO. clear -S HO NP PL. lia.
Qed.

(** ** verifying *)
Lemma verify_unfold k x y sg m : public_point (k_secret k) x y -> x < curve_order -> y < curve_order ->
  priv_verify k sg m = sbind (sigdecode_der sg) (fun sig => sbind (lift (ecdsa_verify secp256k1 secp_G (x, y) (be_val (sha1 m)) sig)) (fun b => if b then SOk true else SErr BadSignatureError)).
Proof.
  intros P X Y. unfold priv_verify. rewrite (signing_key_ok _ _ _ P X Y). cbn [sbind].
  assert (S0 : string_to_number (sha1 m) = SOk (be_val (sha1 m))) by (apply string_to_number_ok; split; [intros E; pose proof (sha1_length m) as L; rewrite E in L; discriminate L|reflexivity]).
  rewrite S0. reflexivity.
Qed.
Lemma secp_verify_spec d x y e r s : public_point d x y -> (ecdsa_verify secp256k1 secp_G (x, y) e (r, s) = Ok true <-> secp_valid x y e r s).
Proof.
  intros P. destruct (pp_pair d x y P) as (_ & ON). unfold secp_valid. rewrite <- key_max_order.
  exact (dg_verify_spec secp256k1 secp_gx secp_gy key_max secp_group x y e r s ON).
Qed.
Lemma verify_spec k x y sg m : public_point (k_secret k) x y -> x < curve_order -> y < curve_order ->
  (priv_verify k sg m = SOk true <-> exists r s, lax_sig r s sg /\ secp_valid x y (be_val (sha1 m)) r s).
Proof.
  intros P X Y. rewrite (verify_unfold k x y sg m P X Y). split.
  - destruct (sigdecode_der sg) as [(r, s)|e] eqn:D; cbn [sbind]; [|discriminate]. destruct (ecdsa_verify secp256k1 secp_G (x, y) (be_val (sha1 m)) (r, s)) as [[]|e] eqn:V; cbn [lift sbind]; [|discriminate|discriminate].
    intros _. exists r, s. split; [apply sigdecode_ok, D|]. apply (secp_verify_spec _ _ _ _ _ _ P), V.
  - intros (r & s & L & V). apply sigdecode_ok in L. rewrite L. cbn [sbind]. apply (secp_verify_spec _ _ _ _ _ _ P) in V. rewrite V. reflexivity.
Qed.
Lemma verify_true_or_raises k sg m : priv_verify k sg m = SOk true \/ exists e, priv_verify k sg m = SErr e.
Proof.
  unfold priv_verify. destruct (signing_key (k_secret k)) as [pr|e]; cbn [sbind]; [|right; eauto]. destruct (string_to_number (sha1 m)) as [z|e]; cbn [sbind]; [|right; eauto].
  destruct (sigdecode_der sg) as [q|e]; cbn [sbind]; [|right; eauto]. destruct (ecdsa_verify _ _ _ _ _) as [[]|e]; cbn [lift sbind]; [left; reflexivity|right; eauto|right; eauto].
Qed.
Lemma verify_bad_signature k x y sg m r s : public_point (k_secret k) x y -> x < curve_order -> y < curve_order -> lax_sig r s sg ->
  ~ secp_valid x y (be_val (sha1 m)) r s ->
  ~ (1 <= r < curve_order /\ 1 <= s < curve_order /\ (be_val (sha1 m) + r * k_secret k) mod curve_order = 0) -> priv_verify k sg m = SErr BadSignatureError.
Proof.
  intros P X Y L NV NI. rewrite (verify_unfold k x y sg m P X Y). apply sigdecode_ok in L. rewrite L. cbn [sbind].
  destruct (pp_pair _ x y P) as (PP & ON). unfold secp_G.
  destruct (dg_verify_total secp256k1 secp_gx secp_gy key_max secp_group x y (be_val (sha1 m)) r s ON) as [(b & E)|E]; rewrite E; cbn [lift sbind].
  - destruct b; [|reflexivity]. exfalso. apply NV. apply (secp_verify_spec _ _ _ _ _ _ P). exact E.
  - exfalso. apply NI. apply (dg_verify_raises secp256k1 secp_gx secp_gy key_max secp_group x y (be_val (sha1 m)) r s ON) in E.
    rewrite <- key_max_order. split; [exact (proj1 E)|]. split; [exact (proj1 (proj2 E))|].
    exact (sig_infinite_secret secp256k1 secp_gx secp_gy key_max secp_group (k_secret k) x y (be_val (sha1 m)) r s (pp_mult _ _ _ P) E).
Qed.
Lemma verify_type_error k x y sg m r s : public_point (k_secret k) x y -> x < curve_order -> y < curve_order -> lax_sig r s sg ->
  1 <= r < curve_order -> 1 <= s < curve_order -> (be_val (sha1 m) + r * k_secret k) mod curve_order = 0 -> priv_verify k sg m = SErr (SX E_TypeError).
Proof.
  intros P X Y L R S Z0. rewrite (verify_unfold k x y sg m P X Y). apply sigdecode_ok in L. rewrite L. cbn [sbind].
  destruct (pp_pair _ x y P) as (PP & ON). unfold secp_G in *. rewrite <- key_max_order in R, S, Z0.
  rewrite (dg_verify_infinity secp256k1 secp_gx secp_gy key_max secp_group (k_secret k) x y (be_val (sha1 m)) r s PP R S Z0). reflexivity.
Qed.
Lemma verify_key k sg m : ~ (exists x y, public_point (k_secret k) x y /\ x < curve_order /\ y < curve_order) ->
  priv_verify k sg m = SErr (SX E_AssertionError) \/ priv_verify k sg m = SErr (SX E_RuntimeError).
Proof.
  intros N. unfold priv_verify. destruct (Z.ltb_spec 0 (k_secret k)) as [A|A]; [destruct (Z.ltb_spec (k_secret k) curve_order) as [A'|A']|];
    [|left; rewrite signing_key_bad by (clear -A A'; lia); reflexivity|left; rewrite signing_key_bad by (clear -A; lia); reflexivity].
  destruct (pp_exists _ (conj A A')) as (x & y & P). right. rewrite (signing_key_range _ _ _ P); [reflexivity|].
  intros (X & Y). apply N. exists x, y. auto.
Qed.
Lemma secp_mirror d x y e r s : public_point d x y -> (secp_valid x y e r s <-> secp_valid x y e r (curve_order - s)).
Proof.
  intros P. unfold secp_valid. rewrite <- key_max_order. exact (sig_valid_mirror_iff secp256k1 secp_gx secp_gy key_max secp_group d x y e r s (pp_mult _ _ _ P)).
Qed.
Lemma lax_fun b r s r' s' : lax_sig r s b -> lax_sig r' s' b -> r = r' /\ s = s'.
Proof. intros A B. apply sigdecode_ok in A, B. rewrite A in B. injection B as -> ->. split; reflexivity. Qed.
Lemma verify_mirror k x y m r s b b' : public_point (k_secret k) x y -> x < curve_order -> y < curve_order -> lax_sig r s b -> lax_sig r (curve_order - s) b' ->
  (priv_verify k b m = SOk true <-> priv_verify k b' m = SOk true).
Proof.
  intros P X Y L L'. rewrite !(verify_spec k x y _ m P X Y). split; intros (r1 & s1 & L1 & V).
  - destruct (lax_fun _ _ _ _ _ L L1) as (<- & <-). exists r, (curve_order - s). split; [exact L'|exact (proj1 (secp_mirror _ _ _ _ _ _ P) V)].
  - destruct (lax_fun _ _ _ _ _ L' L1) as (<- & <-). exists r, s. split; [exact L|exact (proj2 (secp_mirror _ _ _ _ _ _ P) V)].
Qed.
(** the signature [sign] returned, and the verification of any message *)
Lemma sign_made k x y nonce m b : public_point (k_secret k) x y -> x < curve_order -> y < curve_order -> 0 < nonce < curve_order -> priv_sign k nonce m = SOk b ->
  exists r yr s, public_point nonce r yr /\ 1 <= r < secp_p /\ der_sig r s b /\ 1 <= s < curve_order /\
    (exists s0, (s0 = s \/ s0 = curve_order - s) /\ 1 <= s0 < curve_order /\ (s0 * nonce) mod curve_order = (be_val m + k_secret k * r) mod curve_order).
Proof.
  intros P X Y N E. destruct (Z.ltb_spec 32 (blen m)) as [L|L]; [rewrite (sign_long k x y nonce m P X Y L) in E; discriminate|].
  destruct m as [|c m]; [rewrite (sign_empty k x y nonce P X Y) in E; discriminate|].
  destruct (sign_outcome k x y nonce (c :: m) P X Y N) as (r & yr & Q & R & [(_ & s & b' & E' & DS & _ & S & K & _)|(_ & E')]);
    [split; [rewrite blen_cons; pose proof (blen_nonneg m) as BN; clear -BN; lia|exact L]| |congruence].
  rewrite E in E'. injection E' as <-. exists r, yr, s. split; [exact Q|]. split; [exact R|]. split; [exact DS|].
  pose proof half_order as HO. revert S HO. generalize ((curve_order - 1) / 2). intros q S HO.
  split; [clear -S HO; lia|]. destruct K as [K|K].
  - exists s. split; [left; reflexivity|]. split; [clear -S HO; lia|exact K].
  - exists (curve_order - s). split; [right; reflexivity|]. split; [clear -S HO; lia|]. rewrite (canon_mod s nonce _ curve_order ltac:(clear -N; lia) K). f_equal. clear. lia.
Qed.
Lemma made_valid d x y nonce r yr z s s0 : public_point d x y -> public_point nonce r yr -> 1 <= r < curve_order -> (s0 = s \/ s0 = curve_order - s) ->
  1 <= s0 < curve_order -> (s0 * nonce) mod curve_order = (z + d * r) mod curve_order -> secp_valid x y z r s.
Proof.
  intros P (NB & M) R S2 S0 K. pose proof (pp_mult d x y P) as PM.
  assert (V : secp_valid x y z r s0).
  { unfold secp_valid. rewrite <- key_max_order in *. apply (sig_valid_made secp256k1 secp_gx secp_gy key_max secp_group d x y nonce r yr z s0 PM).
    - clear -NB. lia.
    - exact M.
    - exact R.
    - exact S0.
    - exact K. }
  destruct S2 as [->| ->]; [exact V|]. apply (secp_mirror d x y z r s P). exact V.
Qed.
Lemma verify_sign_digest k x y nonce m b : public_point (k_secret k) x y -> x < curve_order -> y < curve_order -> 0 < nonce < curve_order ->
  priv_sign k nonce (sha1 m) = SOk b ->
  exists r yr, public_point nonce r yr /\ (r < curve_order -> priv_verify k b m = SOk true) /\
               (curve_order <= r -> priv_verify k b m = SErr BadSignatureError).
Proof.
  intros P X Y N E. destruct (sign_made k x y nonce (sha1 m) b P X Y N E) as (r & yr & s & Q & R & DS & S & s0 & S2 & S0 & K).
  exists r, yr. split; [exact Q|]. split; intros RN.
  - apply (verify_spec k x y b m P X Y). exists r, s. split; [apply der_lax, DS|].
    apply (made_valid (k_secret k) x y nonce r yr (be_val (sha1 m)) s s0 P Q); [clear -R RN; lia|exact S2|exact S0|exact K].
  - apply (verify_bad_signature k x y b m r s P X Y); [apply der_lax, DS| |]; [intros (V & _); clear -V RN; lia|intros (V & _); clear -V RN; lia].
Qed.
Lemma verify_sign_exact k x y nonce m m' b : public_point (k_secret k) x y -> x < curve_order -> y < curve_order -> 0 < nonce < curve_order ->
  priv_sign k nonce m = SOk b -> exists r yr, public_point nonce r yr /\ (secp_p - curve_order <= r < curve_order ->
    (priv_verify k b m' = SOk true <-> be_val (sha1 m') mod curve_order = be_val m mod curve_order \/
       (be_val (sha1 m') + be_val m + 2 * k_secret k * r) mod curve_order = 0)).
Proof.
  intros P X Y N E. destruct (sign_made k x y nonce m b P X Y N E) as (r & yr & s & Q & R & DS & S & s0 & S2 & S0 & K).
  exists r, yr. split; [exact Q|]. intros RN. rewrite (verify_spec k x y b m' P X Y). destruct Q as (_ & M). pose proof (pp_mult _ x y P) as PM.
  rewrite <- key_max_order in *. set (d := k_secret k) in *.
  assert (W : secp_p <= key_max + r) by (clear -RN; lia). assert (R' : 1 <= r < key_max) by (clear -R RN; lia). assert (N' : 0 <= nonce < key_max) by (clear -N; lia).
  rewrite <- (sig_valid_numbers secp256k1 secp_gx secp_gy key_max secp_group d x y nonce r yr (be_val m) s0 (be_val (sha1 m')) PM N' M R' S0 K W).
  assert (I : secp_valid x y (be_val (sha1 m')) r s <-> secp_valid x y (be_val (sha1 m')) r s0).
  { destruct S2 as [->| ->]; [reflexivity|]. rewrite key_max_order. exact (secp_mirror d x y _ r s P). }
  unfold secp_valid in I. rewrite <- key_max_order in I. unfold secp_valid. rewrite <- key_max_order. rewrite <- I. split.
  - intros (r1 & s1 & L1 & V). apply der_lax, sigdecode_ok in DS. apply sigdecode_ok in L1. rewrite DS in L1. injection L1 as <- <-. exact V.
  - intros V. exists r, s. split; [apply der_lax, DS|exact V].
Qed.
Lemma sha1_small m : 0 <= be_val (sha1 m) < 2 ^ 160.
Proof. pose proof (be_val_bound (sha1 m)) as B. rewrite sha1_length in B. exact B. Qed.
Lemma verify_sign_long k x y nonce m b : public_point (k_secret k) x y -> x < curve_order -> y < curve_order -> 0 < nonce < curve_order ->
  priv_sign k nonce m = SOk b -> 2 ^ 160 <= be_val m < curve_order -> exists r yr, public_point nonce r yr /\ (secp_p - curve_order <= r < curve_order ->
    (priv_verify k b m = SOk true <-> (be_val (sha1 m) + be_val m + 2 * k_secret k * r) mod curve_order = 0)).
Proof.
  intros P X Y N E B. destruct (verify_sign_exact k x y nonce m m b P X Y N E) as (r & yr & Q & H). exists r, yr. split; [exact Q|]. intros RN. rewrite (H RN).
  split; [|intros Z0; right; exact Z0]. intros [Z0|Z0]; [exfalso|exact Z0]. pose proof (sha1_small m) as S. assert (LT : 2 ^ 160 < curve_order) by reflexivity.
  rewrite !Z.mod_small in Z0 by (clear -S B LT; lia). clear -Z0 S B. lia.
Qed.
