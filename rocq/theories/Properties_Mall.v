(** Property theorems C101-C102: changes that [verify] does not see; signatures that reveal the key. *)
From Coq Require Import ZArith Lia List.
From Verif Require Import Base M_Hash M_Codec S_Codec M_Keys M_EC S_EC P_DSA P_Mall P_Vector.
Import ListNotations.
Open Scope Z_scope.

(** *** C101 *)
Theorem C101_other_s : forall c gx gy n, dsa_group c gx gy n -> forall secret x y val r s,
  public_pair_for_secret c (PAff gx gy (Some n)) secret = Ok (Some (x, y)) ->
  ecdsa_verify c (PAff gx gy (Some n)) (x, y) val (r, n - s) = ecdsa_verify c (PAff gx gy (Some n)) (x, y) val (r, s).
Proof. exact verify_other_s. Qed.
Print Assumptions C101_other_s.

Theorem C101_only_two : forall c gx gy n, dsa_group c gx gy n -> forall secret x y val r s s',
  public_pair_for_secret c (PAff gx gy (Some n)) secret = Ok (Some (x, y)) -> (c_p c) <= r + n ->
  ecdsa_verify c (PAff gx gy (Some n)) (x, y) val (r, s) = Ok true -> ecdsa_verify c (PAff gx gy (Some n)) (x, y) val (r, s') = Ok true -> s' = s \/ s' = n - s.
Proof. exact verify_only_two. Qed.
Print Assumptions C101_only_two.

Theorem C101_value_mod_order : forall c gx gy n pair val r s,
  ecdsa_verify c (PAff gx gy (Some n)) pair val (r, s) = ecdsa_verify c (PAff gx gy (Some n)) pair (val mod n) (r, s).
Proof. exact verify_mod. Qed.
Print Assumptions C101_value_mod_order.

Theorem C101_other_key : forall c gx gy n, dsa_group c gx gy n -> forall x y val r s,
  on_curve (c_p c) (c_a c) (c_b c) (EA x y) ->
  ecdsa_verify c (PAff gx gy (Some n)) (x, (c_p c) - y) (- val) (r, s) = ecdsa_verify c (PAff gx gy (Some n)) (x, y) val (r, s).
Proof. exact verify_other_key. Qed.
Print Assumptions C101_other_key.

Theorem C101_forgery : forall c gx gy n, dsa_group c gx gy n -> forall x y a b bi A B X Y,
  on_curve (c_p c) (c_a c) (c_b c) (EA x y) ->
  multiple (c_p c) (c_a c) (EA gx gy) (a mod n) A -> multiple (c_p c) (c_a c) (EA x y) (b mod n) B -> is_sum (c_p c) (c_a c) A B (EA X Y) ->
  (b * bi) mod n = 1 -> X mod n <> 0 ->
  ecdsa_verify c (PAff gx gy (Some n)) (x, y) ((X mod n) * a * bi) (X mod n, ((X mod n) * bi) mod n) = Ok true.
Proof. exact forgery. Qed.
Print Assumptions C101_forgery.

Theorem C101_secp_every_s : forall secret k s, 1 <= k < key_max -> 1 <= s < key_max -> exists val r, ecdsa_sign_k secp256k1 secp_G secret val k = Ok (r, s).
Proof. exact secp_every_s. Qed.
Print Assumptions C101_secp_every_s.

Theorem C101_secp_low_s_refuted : ~ (forall fuel secret val r s, 1 <= secret < key_max -> 0 <= val < key_max ->
  ecdsa_sign fuel secp256k1 secp_G secret val = Ok (r, s) -> 2 * s < key_max).
Proof. exact secp_low_s. Qed.
Print Assumptions C101_secp_low_s_refuted.

Example C101_ex : let T := PAff 2 12 (Some 31) in dsa_group toy 2 12 31 /\ public_pair_for_secret toy T 5 = Ok (Some (12, 12)) /\
  ecdsa_verify toy T (12, 12) 3 (25, 5) = Ok true /\ ecdsa_verify toy T (12, 12) 3 (25, 26) = Ok true /\
  ecdsa_verify toy T (12, 12) (3 + 31) (25, 5) = Ok true /\ ecdsa_verify toy T (12, 43 - 12) (-3) (25, 5) = Ok true /\
  ecdsa_verify toy T (12, 12) 4 (25, 5) = Ok false /\ 43 <= 25 + 31.
Proof. intros T. split; [exact toy_group|]. repeat match goal with |- _ /\ _ => split end; first [vm_compute; reflexivity|lia]. Qed.
Example C101_forgery_ex : on_curve 43 0 7 (EA 12 12) /\ (2 * 16) mod 31 = 1 /\ 
  (exists A B Y, multiple 43 0 (EA 2 12) (1 mod 31) A /\ multiple 43 0 (EA 12 12) (2 mod 31) B /\ is_sum 43 0 A B (EA 40 Y)) /\ 40 mod 31 <> 0 /\
  ecdsa_verify toy (PAff 2 12 (Some 31)) (12, 12) (40 mod 31 * 1 * 16) (40 mod 31, (40 mod 31 * 16) mod 31) = Ok true.
Proof.
  split; [cbn; repeat split; try lia; reflexivity|]. split; [reflexivity|]. split; [|split; [vm_compute; discriminate|vm_compute; reflexivity]].
  exists (EA 2 12), (EA 42 7), 25. split; [|split].
  - change (1 mod 31) with (0 + 1). eapply mult_S; [lia|apply mult_0|apply sum_left].
  - change (2 mod 31) with (0 + 1 + 1). eapply mult_S; [lia|eapply mult_S; [lia|apply mult_0|apply sum_left]|]. apply (sum_tangent _ _ _ _ 18); vm_compute; congruence.
  - apply (sum_chord _ _ _ _ _ _ 16); vm_compute; congruence.
Qed.

(** *** C102 *)
Theorem C102_known_nonce : forall c gx gy n, dsa_group c gx gy n -> forall secret val k r s i,
  ecdsa_sign_k c (PAff gx gy (Some n)) secret val k = Ok (r, s) -> (r * i) mod n = 1 ->
  secret mod n = ((s * k - val) * i) mod n.
Proof. exact known_nonce. Qed.
Print Assumptions C102_known_nonce.

Theorem C102_repeated_nonce : forall c gx gy n, dsa_group c gx gy n -> forall secret val val' k r s r' s',
  ecdsa_sign_k c (PAff gx gy (Some n)) secret val k = Ok (r, s) -> ecdsa_sign_k c (PAff gx gy (Some n)) secret val' k = Ok (r', s') ->
  r mod n <> 0 -> val mod n <> val' mod n ->
  r' = r /\ (exists i, (r * (s' - s) * i) mod n = 1) /\
  forall i, (r * (s' - s) * i) mod n = 1 -> secret mod n = ((s * val' - s' * val) * i) mod n.
Proof. exact repeated_nonce. Qed.
Print Assumptions C102_repeated_nonce.

Theorem C102_long_values : forall fuel m secret val val', 2 ^ 255 <= m < 2 ^ 256 -> m < val -> m < val' -> val mod 2 ^ 256 = val' mod 2 ^ 256 ->
  deterministic_generate_k fuel m secret val = deterministic_generate_k fuel m secret val'.
Proof. exact nonce_long. Qed.
Print Assumptions C102_long_values.

Theorem C102_reduced_values : forall fuel m secret val, 2 ^ 255 <= m < 2 ^ 256 -> m < val <= 2 * m ->
  deterministic_generate_k fuel m secret val = deterministic_generate_k fuel m secret (val - m).
Proof. exact nonce_reduced. Qed.
Print Assumptions C102_reduced_values.

Theorem C102_secp_reduced : forall fuel secret val, key_max < val <= 2 * key_max ->
  ecdsa_sign fuel secp256k1 secp_G secret val = ecdsa_sign fuel secp256k1 secp_G secret (val - key_max).
Proof. exact secp_sign_reduced. Qed.
Print Assumptions C102_secp_reduced.

Theorem C102_secp_long_leaks : forall fuel fuel' secret val r s r' s', 1 <= secret < key_max -> key_max < val ->
  ecdsa_sign fuel secp256k1 secp_G secret val = Ok (r, s) -> ecdsa_sign fuel' secp256k1 secp_G secret (val + 2 ^ 256) = Ok (r', s') -> r < key_max ->
  r' = r /\ (exists i, (r * (s' - s) * i) mod key_max = 1) /\
  forall i, (r * (s' - s) * i) mod key_max = 1 -> secret = ((s * (val + 2 ^ 256) - s' * val) * i) mod key_max.
Proof. exact secp_long_leaks. Qed.
Print Assumptions C102_secp_long_leaks.

Example C102_ex : let T := PAff 2 12 (Some 31) in ecdsa_sign_k toy T 5 3 7 = Ok (25, 5) /\ ecdsa_sign_k toy T 5 4 7 = Ok (25, 14) /\
  25 mod 31 <> 0 /\ 3 mod 31 <> 4 mod 31 /\ (25 * (14 - 5) * 4) mod 31 = 1 /\ ((5 * 4 - 14 * 3) * 4) mod 31 = 5 /\
  (25 * 5) mod 31 = 1 /\ ((5 * 7 - 3) * 5) mod 31 = 5.
Proof. intros T. repeat match goal with |- _ /\ _ => split end; vm_compute; (reflexivity || discriminate). Qed.
(** the secret key 1 and the SHA-256 of "Satoshi Nakamoto": the published signature, up to the sign of [s] *)
Example C102_secp_ex : ecdsa_sign 1 secp256k1 secp_G 1 0xa0dc65ffca799873cbea0ac274015b9526505daaaed385155425f7337704883e =
    Ok (0x934b1ea10a4b3c1757e2b0c017d0b6143ce3c9a7e6a4a49860d7a6ab210ee3d8, key_max - 0x2442ce9d2b916064108014783e923ec36b49743e2ffa1c4496f01a512aafd9e5) /\
  key_max < vec_hash + key_max <= 2 * key_max /\
  ecdsa_sign 1 secp256k1 secp_G 1 (vec_hash + key_max) = Ok (vec_r, vec_s) /\
  ecdsa_sign 1 secp256k1 secp_G 1 (vec_hash + key_max + 2 ^ 256) = Ok (vec_r, vec_s2) /\ vec_r < key_max /\
  (vec_r * (vec_s2 - vec_s) * vec_i) mod key_max = 1 /\ 1 = ((vec_s * (vec_hash + key_max + 2 ^ 256) - vec_s2 * (vec_hash + key_max)) * vec_i) mod key_max.
Proof.
  split; [exact vec_sign|]. split; [split; vm_compute; congruence|]. split; [exact (proj1 vec_sign_long)|]. split; [exact (proj2 vec_sign_long)|].
  split; [vm_compute; reflexivity|]. split; vm_compute; reflexivity.
Qed.
