(** Property theorem C125: keys with the same ordinate. *)
From Coq Require Import ZArith List.
From Verif Require Import Base M_Keys S_Keys M_EC S_EC M_Sign S_Sign S_Turn P_Turn P_TurnKeys.
Import ListNotations.
Open Scope Z_scope.

Theorem C125_point : forall d x y, public_point d x y -> public_point ((lambda * d) mod curve_order) ((beta * x) mod secp_p) y.
Proof. exact turn_point. Qed.
Print Assumptions C125_point.

Theorem C125_roots : (lambda * lambda + lambda + 1) mod curve_order = 0 /\ (beta * beta + beta + 1) mod secp_p = 0.
Proof. exact roots. Qed.
Print Assumptions C125_roots.

Theorem C125_same_ordinate : forall d d' x y x' y', public_point d x y -> public_point d' x' y' -> (y' = y <-> In d' (three d)).
Proof. exact ordinate_iff. Qed.
Print Assumptions C125_same_ordinate.

Theorem C125_same_cube : forall d d' x y x' y', public_point d x y -> public_point d' x' y' ->
  ((x' * x' * x') mod secp_p = (x * x * x) mod secp_p <-> In d' (six d)).
Proof. exact six_iff. Qed.
Print Assumptions C125_same_cube.

Theorem C125_six_apart : forall d, 0 < d < curve_order -> NoDup (six d) /\ forall e, In e (six d) -> 0 < e < curve_order.
Proof. exact (fun d D => conj (six_nodup d D) (fun e => six_range d e D)). Qed.
Print Assumptions C125_six_apart.

Theorem C125_sum_of_two : forall d x y, public_point d x y ->
  public_point ((d + lambda * d) mod curve_order) ((beta * beta * x) mod secp_p) (secp_p - y).
Proof. exact sum_two. Qed.
Print Assumptions C125_sum_of_two.

Theorem C125_sum_of_three : forall d, (d + (lambda * d) mod curve_order + (lambda * lambda * d) mod curve_order) mod curve_order = 0.
Proof. exact three_sum. Qed.
Print Assumptions C125_sum_of_three.

Theorem C125_keys : forall k K net compressed, valid_key k -> pk_from_private_key k = Ok K ->
  pk_from_private_key (PrivateKey ((lambda * k_secret k) mod curve_order) net compressed) =
    Ok (PublicKey ((beta * fst (pk_pair K)) mod secp_p, snd (pk_pair K)) net compressed).
Proof. exact keys_turn. Qed.
Print Assumptions C125_keys.

Theorem C125_keys_same_ordinate : forall k k' K K', valid_key k -> valid_key k' -> pk_from_private_key k = Ok K -> pk_from_private_key k' = Ok K' ->
  (snd (pk_pair K') = snd (pk_pair K) <-> In (k_secret k') (three (k_secret k))).
Proof. exact keys_ordinate. Qed.
Print Assumptions C125_keys_same_ordinate.

Example C125_ex : public_point 1 secp_gx secp_gy /\ public_point lambda ((beta * secp_gx) mod secp_p) secp_gy /\ In lambda (three 1) /\
  valid_key (PrivateKey 1 testnet true) /\ pk_from_private_key (PrivateKey 1 testnet true) = Ok (PublicKey (secp_gx, secp_gy) testnet true).
Proof.
  split; [exact G_point|]. split; [exact lambda_point|]. split; [right; left; vm_compute; reflexivity|]. split; [split; [split; reflexivity|]|vm_compute; reflexivity].
  cbn [k_network]. unfold known, networks. cbn [In]. auto.
Qed.

Theorem C125_related_nonces : forall secret val val' k k' r s r' s', 0 < k < curve_order -> 0 < k' < curve_order ->
  ecdsa_sign_k secp256k1 secp_G secret val k = Ok (r, s) -> ecdsa_sign_k secp256k1 secp_G secret val' k' = Ok (r', s') ->
  (r' * r' * r') mod secp_p = (r * r * r) mod secp_p ->
  exists c, In c multipliers /\ k' = (c * k) mod curve_order /\
    (secret * (s * r' - c * s' * r)) mod curve_order = (c * s' * val - s * val') mod curve_order.
Proof. exact related_nonces. Qed.
Print Assumptions C125_related_nonces.

Theorem C125_related_nonces_leak : forall secret val val' k k' r s r' s', 0 < k < curve_order -> 0 < k' < curve_order ->
  ecdsa_sign_k secp256k1 secp_G secret val k = Ok (r, s) -> ecdsa_sign_k secp256k1 secp_G secret val' k' = Ok (r', s') ->
  (r' * r' * r') mod secp_p = (r * r * r) mod secp_p ->
  exists c, In c multipliers /\ forall i, ((s * r' - c * s' * r) * i) mod curve_order = 1 ->
    secret mod curve_order = ((c * s' * val - s * val') * i) mod curve_order.
Proof. exact related_leak. Qed.
Print Assumptions C125_related_nonces_leak.

(** secret 5, values 3 and 11, nonces 1 and [lambda] *)
Example C125_nonces_ex : ecdsa_sign_k secp256k1 secp_G 5 3 1 = Ok (secp_gx, rel_s) /\
  ecdsa_sign_k secp256k1 secp_G 5 11 lambda = Ok ((beta * secp_gx) mod secp_p, rel_s2) /\
  (let r' := (beta * secp_gx) mod secp_p in (r' * r' * r') mod secp_p = (secp_gx * secp_gx * secp_gx) mod secp_p /\
  In lambda multipliers /\ ((rel_s * r' - lambda * rel_s2 * secp_gx) * rel_i) mod curve_order = 1 /\
  ((lambda * rel_s2 * 3 - rel_s * 11) * rel_i) mod curve_order = 5).
Proof.
  split; [exact (proj1 related_ex)|]. split; [exact (proj2 related_ex)|]. cbv zeta. split; [vm_compute; reflexivity|]. split; [right; left; reflexivity|].
  split; vm_compute; reflexivity.
Qed.
