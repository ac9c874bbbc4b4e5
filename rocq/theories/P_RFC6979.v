(** [deterministic_generate_k] against RFC 6979. *)
From Coq Require Import ZArith Lia Bool List.
From Verif Require Import Base M_Hash M_Codec M_Keys M_EC S_Codec S_EC S_RFC6979 P_Codec P_ECDSA P_SecpOrder P_DSA.
Import ListNotations.
Open Scope Z_scope.

Lemma bit_length_q n : 0 < n -> bit_length n = qlen n.
Proof. intros H. unfold bit_length, qlen. destruct (Z.eqb_spec n 0); [lia|]. rewrite Z.abs_eq by lia. reflexivity. Qed.
Lemma qlen_pos q : 0 < q -> 1 <= qlen q.
Proof. unfold qlen. pose proof (Z.log2_nonneg q). lia. Qed.
Lemma qlen_bound q : 0 < q -> 2 ^ (qlen q - 1) <= q < 2 ^ qlen q.
Proof. intros H. unfold qlen. replace (Z.log2 q + 1 - 1) with (Z.log2 q) by lia. pose proof (Z.log2_spec q H). rewrite Z.add_1_r. exact H0. Qed.
Lemma size_lt (j q : Z) : (32 * j < (qlen q + 7) / 8) <-> 8 * (32 * j) < qlen q.
Proof. pose proof (Z.div_mod (qlen q + 7) 8 ltac:(lia)). pose proof (Z.mod_pos_bound (qlen q + 7) 8 ltac:(lia)). lia. Qed.
Lemma hmac_len K V : blen (hmac_sha256 K V) = 32.
Proof. unfold blen, hmac_sha256, hmac. rewrite sha256_length. reflexivity. Qed.

Section Q.
Variable n : Z.
Hypothesis N0 : 0 < n.
Let size := Z.to_nat ((qlen n + 7) / 8).

Lemma size_Z : Z.of_nat (Z.to_nat ((qlen n + 7) / 8)) = (qlen n + 7) / 8.
Proof. apply Z2Nat.id. apply Z.div_pos; pose proof (qlen_pos n N0); lia. Qed.
Lemma short_iff (t : bytes) j : blen t = 32 * j -> (length t <? Z.to_nat ((qlen n + 7) / 8))%nat = true <-> 8 * blen t < qlen n.
Proof.
  intros L. rewrite Nat.ltb_lt. rewrite L, <- size_lt, <- L. unfold blen. pose proof size_Z as S0. split; intros K.
  - rewrite <- S0. lia.
  - rewrite <- S0 in K. lia.
Qed.

Lemma grow_stretch K : forall fuel V T j, blen T = 32 * j -> 0 <= j -> (qlen n + 7) / 8 - blen T <= Z.of_nat fuel ->
  exists V' T' j', grow_t fuel K V T (Z.to_nat ((qlen n + 7) / 8)) = (T', V') /\ stretch n K V T V' T' /\ blen T' = 32 * j' /\ 0 <= j' /\ qlen n <= 8 * blen T'.
Proof.
  induction fuel as [|f IH]; intros V T j L J F.
  - exists V, T, j. pose proof (short_iff T j L) as S0. cbn [grow_t]. destruct (length T <? Z.to_nat ((qlen n + 7) / 8))%nat eqn:E in *.
    + assert (E' := proj1 S0 eq_refl). exfalso. pose proof (size_lt j n). lia.
    + assert (~ 8 * blen T < qlen n) by (intros K0; apply S0 in K0; discriminate). repeat split; try assumption; try lia. constructor. lia.
  - pose proof (short_iff T j L) as S0. cbn [grow_t]. destruct (length T <? Z.to_nat ((qlen n + 7) / 8))%nat eqn:E in *.
    + assert (E' := proj1 S0 eq_refl). assert (LT : blen (T ++ hmac_sha256 K V) = 32 * (j + 1)) by (rewrite blen_app, hmac_len; lia).
      destruct (IH (hmac_sha256 K V) (T ++ hmac_sha256 K V) (j + 1) LT) as (V' & T' & j' & A & B & C & D & G); [lia|lia|].
      exists V', T', j'. split; [exact A|]. split; [apply stretch_more; assumption|]. auto.
    + assert (~ 8 * blen T < qlen n) by (intros K0; apply S0 in K0; discriminate). exists V, T, j. repeat split; try assumption; try lia. constructor. lia.
Qed.
Lemma stretch_fun K V T V1 T1 : stretch n K V T V1 T1 -> forall V2 T2, stretch n K V T V2 T2 -> V1 = V2 /\ T1 = T2.
Proof.
  induction 1 as [V T H|V T V' T' H S0 IH]; intros V2 T2 S2; inversion S2; subst; try lia; auto.
Qed.
Lemma shift_bits T : qlen n <= 8 * blen T -> Z.shiftr (decode_int T true) (blen T * 8 - bit_length n) = bits2int n T.
Proof.
  intros H. rewrite decode_int_be, bit_length_q by exact N0. rewrite Z.shiftr_div_pow2 by lia. unfold bits2int. rewrite (Z.mul_comm (blen T) 8).
  destruct (Z.ltb_spec (qlen n) (8 * blen T)); [reflexivity|]. replace (8 * blen T - qlen n) with 0 by lia. apply Z.div_1_r.
Qed.
Lemma loop_sound : forall fuel K V k, det_k_loop fuel n K V = Some k -> attempts n K V k.
Proof.
  induction fuel as [|f IH]; intros K V k H; [discriminate|]. cbn [det_k_loop] in H. rewrite bit_length_q in H by exact N0.
  destruct (grow_stretch K (Z.to_nat ((qlen n + 7) / 8)) V [] 0) as (V' & T' & j & G & S0 & L & J & Q); [reflexivity|lia|rewrite size_Z; change (blen []) with 0; lia|].
  cbv zeta in H. rewrite G in H. rewrite <- bit_length_q in H by exact N0. rewrite shift_bits in H by exact Q.
  destruct (Z.leb_spec 1 (bits2int n T')); destruct (Z.ltb_spec (bits2int n T') n); cbn [andb] in H;
    try (injection H as <-; eapply attempt_good; [exact S0|lia]); (eapply attempt_bad; [exact S0|lia|reflexivity|apply IH, H]).
Qed.
Lemma loop_complete K V k : attempts n K V k -> exists fuel, forall f, (fuel <= f)%nat -> det_k_loop f n K V = Some k.
Proof.
  induction 1 as [K V V' T S0 B|K V V' T K' k S0 B E A IH].
  - exists 1%nat. intros [|f] LE; [lia|]. cbn [det_k_loop]. cbv zeta. rewrite bit_length_q by exact N0.
    destruct (grow_stretch K (Z.to_nat ((qlen n + 7) / 8)) V [] 0) as (V1 & T1 & j & G & S1 & L & J & Q); [reflexivity|lia|rewrite size_Z; change (blen []) with 0; lia|].
    rewrite G. destruct (stretch_fun _ _ _ _ _ S0 _ _ S1) as (<- & <-). rewrite <- bit_length_q by exact N0. rewrite shift_bits by exact Q.
    destruct (Z.leb_spec 1 (bits2int n T)); [|lia]. destruct (Z.ltb_spec (bits2int n T) n); [|lia]. reflexivity.
  - destruct IH as (fuel & IH). exists (S fuel). intros [|f] LE; [lia|]. cbn [det_k_loop]. cbv zeta. rewrite bit_length_q by exact N0.
    destruct (grow_stretch K (Z.to_nat ((qlen n + 7) / 8)) V [] 0) as (V1 & T1 & j & G & S1 & L & J & Q); [reflexivity|lia|rewrite size_Z; change (blen []) with 0; lia|].
    rewrite G. destruct (stretch_fun _ _ _ _ _ S0 _ _ S1) as (<- & <-). rewrite <- bit_length_q by exact N0. rewrite shift_bits by exact Q. subst K'.
    destruct (Z.leb_spec 1 (bits2int n T)); destruct (Z.ltb_spec (bits2int n T) n); cbn [andb]; try lia; apply IH; lia.
Qed.
Lemma octets_be x : 0 <= x <= n -> octets n x (be_bytes (Z.to_nat ((qlen n + 7) / 8)) x).
Proof.
  intros X. split.
  - unfold blen. rewrite be_bytes_length. apply size_Z.
  - rewrite be_val_be_bytes, size_Z. apply Z.mod_small. split; [lia|]. apply (Z.lt_le_trans _ (2 ^ qlen n)); [pose proof (qlen_bound n N0); lia|].
    change 256 with (2 ^ 8). rewrite <- Z.pow_mul_r by (try lia; apply Z.div_pos; pose proof (qlen_pos n N0); lia). apply Z.pow_le_mono_r; [lia|].
    pose proof (Z.div_mod (qlen n + 7) 8 ltac:(lia)). pose proof (Z.mod_pos_bound (qlen n + 7) 8 ltac:(lia)). lia.
Qed.
Lemma octets_fun x s s' : octets n x s -> octets n x s' -> s = s'.
Proof. intros (L & E) (L' & E'). apply be_val_inj; [unfold blen in *; lia|congruence]. Qed.
Lemma bits2int_32 h : length h = 32%nat -> bits2int n h = if 256 - qlen n >? 0 then Z.shiftr (be_val h) (256 - qlen n) else be_val h.
Proof.
  intros L. unfold bits2int. assert (B : blen h = 32) by (unfold blen; rewrite L; reflexivity). rewrite B. change (8 * 32) with 256.
  rewrite Z.gtb_ltb. destruct (Z.ltb_spec (qlen n) 256), (Z.ltb_spec 0 (256 - qlen n)); try lia. rewrite Z.shiftr_div_pow2 by lia. reflexivity.
Qed.
Lemma bits2int_bound h : length h = 32%nat -> 0 <= bits2int n h < 2 ^ qlen n.
Proof.
  intros L. assert (B : blen h = 32) by (unfold blen; rewrite L; reflexivity). pose proof (be_val_bound h) as V. rewrite L in V. change (256 ^ Z.of_nat 32) with (2 ^ 256) in V.
  pose proof (qlen_pos n N0). unfold bits2int. rewrite B. change (8 * 32) with 256. destruct (Z.ltb_spec (qlen n) 256).
  - split; [apply Z.div_pos; lia|]. apply Z.div_lt_upper_bound; [lia|]. rewrite <- Z.pow_add_r by lia. replace (256 - qlen n + qlen n) with 256 by lia. lia.
  - split; [lia|]. apply (Z.lt_le_trans _ (2 ^ 256)); [lia|]. apply Z.pow_le_mono_r; lia.
Qed.
(** the code subtracts [n] once, and only when the value exceeds it *)
Lemma reduce_once z : 0 <= z < 2 ^ qlen n -> z <> n -> (if z >? n then z - n else z) = z mod n.
Proof.
  intros Z0 NE. pose proof (qlen_bound n N0) as (B & _). assert (2 ^ qlen n = 2 * 2 ^ (qlen n - 1)) as P.
  { rewrite <- Z.pow_succ_r by (pose proof (qlen_pos n N0); lia). f_equal. lia. }
  rewrite Z.gtb_ltb. destruct (Z.ltb_spec n z).
  - apply (Z.mod_unique z n 1); lia.
  - symmetry. apply Z.mod_small. lia.
Qed.

Lemma nonce_fun xs hs k : nonce_from n xs hs k -> forall k', nonce_from n xs hs k' -> k = k'.
Proof.
  intros (K1 & V1 & K2 & V2 & -> & -> & -> & -> & A) k' (K1' & V1' & K2' & V2' & -> & -> & -> & -> & A').
  apply loop_complete in A, A'. destruct A as (f & A), A' as (f' & A'). specialize (A (f + f')%nat ltac:(lia)). specialize (A' (f + f')%nat ltac:(lia)). congruence.
Qed.
Lemma nonce_code secret h k : 0 <= secret < n -> length h = 32%nat ->
  ((exists fuel, deterministic_generate_k fuel n secret (be_val h) = Some k) <->
   exists xs hs, octets n secret xs /\ octets n (if bits2int n h =? n then n else bits2int n h mod n) hs /\ nonce_from n xs hs k).
Proof.
  intros X L. unfold deterministic_generate_k. cbv zeta. rewrite bit_length_q by exact N0. change (8 * 32) with 256. rewrite <- bits2int_32 by exact L.
  assert (R : (if bits2int n h >? n then bits2int n h - n else bits2int n h) = (if bits2int n h =? n then n else bits2int n h mod n)).
  { destruct (Z.eqb_spec (bits2int n h) n) as [E|NE]; [rewrite E, Z.gtb_ltb, Z.ltb_irrefl; reflexivity|]. apply reduce_once; [apply bits2int_bound|]; assumption. }
  rewrite R. clear R.
  assert (B : 0 <= (if bits2int n h =? n then n else bits2int n h mod n) <= n) by (pose proof (Z.mod_pos_bound (bits2int n h) n N0); destruct (_ =? n); lia).
  pose proof (octets_be secret ltac:(lia)) as OX. pose proof (octets_be _ B) as OH.
  set (v := if _ =? n then _ else _) in *. clearbody v.
  set (xs := be_bytes _ secret) in *. set (hs := be_bytes _ v) in *. split.
  - intros (fuel & E). apply loop_sound in E. exists xs, hs. split; [exact OX|]. split; [exact OH|]. do 4 eexists. do 4 (split; [reflexivity|]). exact E.
  - intros (xs' & hs' & OX' & OH' & K1 & V1 & K2 & V2 & E1 & E2 & E3 & E4 & A). rewrite (octets_fun _ _ _ OX' OX), (octets_fun _ _ _ OH' OH) in *.
    apply loop_complete in A. destruct A as (fuel & A). exists fuel. rewrite <- E1, <- E2, <- E3, <- E4. apply A. lia.
Qed.
Lemma rfc_nonce secret h k : 0 <= secret < n -> length h = 32%nat -> bits2int n h <> n ->
  ((exists fuel, deterministic_generate_k fuel n secret (be_val h) = Some k) <-> rfc6979 n secret h k).
Proof.
  intros X L NE. pose proof (nonce_code secret h k X L) as H. destruct (Z.eqb_spec (bits2int n h) n); [contradiction|]. exact H.
Qed.
Lemma rfc_fun x h k k' : rfc6979 n x h k -> rfc6979 n x h k' -> k = k'.
Proof.
  intros (xs & hs & OX & OH & A) (xs' & hs' & OX' & OH' & A').
  rewrite (octets_fun _ _ _ OX' OX), (octets_fun _ _ _ OH' OH) in A'. exact (nonce_fun _ _ _ A _ A').
Qed.
Lemma rfc_range x h k : rfc6979 n x h k -> 1 <= k < n.
Proof. intros (xs & hs & _ & _ & K1 & V1 & K2 & V2 & _ & _ & _ & _ & A). clear -A. induction A; assumption. Qed.
End Q.

Lemma nonce_fuel_irrelevant n secret val f f' k k' : deterministic_generate_k f n secret val = Some k -> deterministic_generate_k f' n secret val = Some k' -> k = k'.
Proof.
  unfold deterministic_generate_k. cbv zeta. generalize (hmac_sha256 (hmac_sha256 (repeat x00 32) (repeat x01 32 ++ [x00] ++ be_bytes (Z.to_nat ((bit_length n + 7) / 8)) secret ++
    be_bytes (Z.to_nat ((bit_length n + 7) / 8)) (if (if 8 * 32 - bit_length n >? 0 then Z.shiftr val (8 * 32 - bit_length n) else val) >? n
      then (if 8 * 32 - bit_length n >? 0 then Z.shiftr val (8 * 32 - bit_length n) else val) - n else (if 8 * 32 - bit_length n >? 0 then Z.shiftr val (8 * 32 - bit_length n) else val))))
    (repeat x01 32)). intros V.
  match goal with |- det_k_loop _ _ ?K ?W = _ -> _ => generalize K; intros K0; generalize (hmac_sha256 K0 V); intros W0 end.
  revert f' K0 W0. induction f as [|f IH]; intros [|f'] K W; try discriminate. cbn [det_k_loop]. destruct (grow_t _ _ _ _ _) as (t & w). cbv zeta.
  destruct (_ && _); [congruence|apply IH].
Qed.

(** *** secp256k1 *)
Lemma key_max_pos : 0 < key_max.
Proof. vm_compute. reflexivity. Qed.
Lemma secp_bits2int h : length h = 32%nat -> bits2int key_max h = be_val h.
Proof. intros L. unfold bits2int, blen. rewrite L. reflexivity. Qed.
Lemma secp_nonce secret h k : 0 <= secret < key_max -> length h = 32%nat -> be_val h <> key_max ->
  ((exists fuel, deterministic_generate_k fuel key_max secret (be_val h) = Some k) <-> rfc6979 key_max secret h k).
Proof. intros X L NE. apply (rfc_nonce key_max key_max_pos); [exact X|exact L|]. rewrite secp_bits2int by exact L. exact NE. Qed.
Lemma secp_sign_rfc fuel secret h r s : 0 <= secret < key_max -> length h = 32%nat -> be_val h <> key_max ->
  ecdsa_sign fuel secp256k1 secp_G secret (be_val h) = Ok (r, s) ->
  exists k y, rfc6979 key_max secret h k /\ multiple secp_p 0 (EA secp_gx secp_gy) k (EA r y) /\ (s * k) mod key_max = (be_val h + secret * r) mod key_max.
Proof.
  intros X L NE E. destruct (sign_uses_k secp256k1 secp_gx secp_gy key_max fuel secret (be_val h) (r, s) E) as (k & EK & B & ES).
  destruct (dg_sign_values secp256k1 secp_gx secp_gy key_max secp_group secret (be_val h) k r s B ES) as (y & M & Q). exists k, y. split; [|split; assumption].
  apply secp_nonce; try assumption. exists fuel. exact EK.
Qed.
(** a hash equal to the order is not reduced to 0 *)
Lemma nonce_at_order : ~ (forall secret h k, 0 <= secret < key_max -> length h = 32%nat ->
  (exists fuel, deterministic_generate_k fuel key_max secret (be_val h) = Some k) -> rfc6979 key_max secret h k).
Proof.
  intros H. set (h := be_bytes 32 key_max). assert (LH : length h = 32%nat) by reflexivity. assert (VH : be_val h = key_max) by (vm_compute; reflexivity).
  assert (exists a, deterministic_generate_k 1 key_max 1 key_max = Some a /\ exists b, deterministic_generate_k 1 key_max 1 0 = Some b /\ a <> b) as (a & A & b & B & AB).
  { eexists. split; [vm_compute; reflexivity|]. eexists. split; [vm_compute; reflexivity|]. discriminate. }
  assert (RA : rfc6979 key_max 1 h a) by (apply H; [split; vm_compute; congruence|exact LH|exists 1%nat; rewrite VH; exact A]).
  assert (RB : rfc6979 key_max 1 (zeros 32) b) by (apply secp_nonce; [split; vm_compute; congruence|reflexivity|vm_compute; congruence|exists 1%nat; exact B]).
  apply AB, (rfc_fun key_max key_max_pos 1 (zeros 32) a b); [|exact RB].
  destruct RA as (xs & hs & OX & OH & N). exists xs, hs. split; [exact OX|]. split; [|exact N].
  unfold bits2octets in *. rewrite secp_bits2int in * by (reflexivity || exact LH). rewrite VH in OH. rewrite Z.mod_same in OH by (vm_compute; congruence). exact OH.
Qed.
