(** C117: what a signature determines. *)
From Coq Require Import ZArith Lia.
From Verif Require Import Base M_Keys S_Keys M_EC S_EC P_DSA P_SigTheory S_SigTheory.
Open Scope Z_scope.

Theorem C117_equation : forall c gx gy n, dsa_group c gx gy n -> forall d x y k r y' val s,
  public_pair_for_secret c (PAff gx gy (Some n)) d = Ok (Some (x, y)) -> public_pair_for_secret c (PAff gx gy (Some n)) k = Ok (Some (r, y')) ->
  0 < k < n -> r mod n <> 0 -> 1 <= s < n -> one_abscissa (c_p c) (c_a c) (c_b c) n (r mod n) ->
  (ecdsa_verify c (PAff gx gy (Some n)) (x, y) val (r mod n, s) = Ok true <->
   (s * k) mod n = (val + d * r) mod n \/ (s * k) mod n = (- (val + d * r)) mod n).
Proof. exact accept_iff. Qed.
Print Assumptions C117_equation.

Theorem C117_two_values : forall c gx gy n, dsa_group c gx gy n -> forall d x y val val' r s,
  public_pair_for_secret c (PAff gx gy (Some n)) d = Ok (Some (x, y)) -> one_abscissa (c_p c) (c_a c) (c_b c) n r ->
  ecdsa_verify c (PAff gx gy (Some n)) (x, y) val (r, s) = Ok true ->
  (ecdsa_verify c (PAff gx gy (Some n)) (x, y) val' (r, s) = Ok true <-> val' mod n = val mod n \/ val' mod n = (- val - 2 * d * r) mod n).
Proof. exact two_values. Qed.
Print Assumptions C117_two_values.

Theorem C117_two_keys : forall c gx gy n, dsa_group c gx gy n -> forall d d' x y x' y' val r s,
  public_pair_for_secret c (PAff gx gy (Some n)) d = Ok (Some (x, y)) -> public_pair_for_secret c (PAff gx gy (Some n)) d' = Ok (Some (x', y')) ->
  one_abscissa (c_p c) (c_a c) (c_b c) n r -> ecdsa_verify c (PAff gx gy (Some n)) (x, y) val (r, s) = Ok true ->
  (ecdsa_verify c (PAff gx gy (Some n)) (x', y') val (r, s) = Ok true <-> d' mod n = d mod n \/ (r * (d + d')) mod n = (- 2 * val) mod n).
Proof. exact two_keys. Qed.
Print Assumptions C117_two_keys.

Theorem C117_second_key : forall c gx gy n, dsa_group c gx gy n -> forall d x y val r s,
  public_pair_for_secret c (PAff gx gy (Some n)) d = Ok (Some (x, y)) -> 0 < d < n -> ecdsa_verify c (PAff gx gy (Some n)) (x, y) val (r, s) = Ok true ->
  (2 * val + d * r) mod n <> 0 ->
  exists d' x' y', 0 < d' < n /\ d' <> d /\ public_pair_for_secret c (PAff gx gy (Some n)) d' = Ok (Some (x', y')) /\
    ecdsa_verify c (PAff gx gy (Some n)) (x', y') val (r, s) = Ok true.
Proof. exact second_key. Qed.
Print Assumptions C117_second_key.

Theorem C117_some_key : forall c gx gy n, dsa_group c gx gy n -> forall k r y' val s,
  public_pair_for_secret c (PAff gx gy (Some n)) k = Ok (Some (r, y')) -> 0 < k < n -> r mod n <> 0 -> 1 <= s < n ->
  exists d x y, 0 < d < n /\ public_pair_for_secret c (PAff gx gy (Some n)) d = Ok (Some (x, y)) /\
    ecdsa_verify c (PAff gx gy (Some n)) (x, y) val (r mod n, s) = Ok true.
Proof. exact some_key. Qed.
Print Assumptions C117_some_key.

Theorem C117_one_signature_for_both : forall c gx gy n, dsa_group c gx gy n -> forall k r y' val val',
  public_pair_for_secret c (PAff gx gy (Some n)) k = Ok (Some (r, y')) -> 0 < k < n -> r mod n <> 0 ->
  (val - val') mod n <> 0 -> (val + val') mod n <> 0 ->
  exists d x y s, 0 < d < n /\ public_pair_for_secret c (PAff gx gy (Some n)) d = Ok (Some (x, y)) /\ 1 <= s < n /\
    ecdsa_verify c (PAff gx gy (Some n)) (x, y) val (r mod n, s) = Ok true /\ ecdsa_verify c (PAff gx gy (Some n)) (x, y) val' (r mod n, s) = Ok true.
Proof. exact double_signature. Qed.
Print Assumptions C117_one_signature_for_both.

Theorem C117_large_r : forall c gx gy n, dsa_group c gx gy n -> forall r, c_p c <= r + n -> one_abscissa (c_p c) (c_a c) (c_b c) n r.
Proof. exact one_large. Qed.
Print Assumptions C117_large_r.

Theorem C117_small_r_refuted : ~ (forall c gx gy n, dsa_group c gx gy n -> forall d x y val val' r s,
  public_pair_for_secret c (PAff gx gy (Some n)) d = Ok (Some (x, y)) ->
  ecdsa_verify c (PAff gx gy (Some n)) (x, y) val (r, s) = Ok true -> ecdsa_verify c (PAff gx gy (Some n)) (x, y) val' (r, s) = Ok true ->
  val' mod n = val mod n \/ val' mod n = (- val - 2 * d * r) mod n).
Proof. exact toy_values. Qed.
Print Assumptions C117_small_r_refuted.

(** on the small curve (25, 5) is accepted for the value 3 and the secrets 5 and 27; for the secret 5 also for the value
    - 3 - 2 * 5 * 25, which is 26 modulo 31 *)
Example C117_ex : let T := PAff 2 12 (Some 31) in dsa_group toy 2 12 31 /\ public_pair_for_secret toy T 5 = Ok (Some (12, 12)) /\
  one_abscissa 43 0 7 31 25 /\ ecdsa_verify toy T (12, 12) 3 (25, 5) = Ok true /\
  (- 3 - 2 * 5 * 25) mod 31 = 26 /\ ecdsa_verify toy T (12, 12) 26 (25, 5) = Ok true /\ ecdsa_verify toy T (12, 12) 25 (25, 5) = Ok false /\
  (2 * 3 + 5 * 25) mod 31 <> 0 /\ (25 * (5 + 27)) mod 31 = (- 2 * 3) mod 31 /\
  (exists x y, public_pair_for_secret toy T 27 = Ok (Some (x, y)) /\ ecdsa_verify toy T (x, y) 3 (25, 5) = Ok true) /\
  (exists k y, 0 < k < 31 /\ public_pair_for_secret toy T k = Ok (Some (25, y)) /\ 25 mod 31 <> 0) /\ (3 - 26) mod 31 <> 0 /\ (3 + 26) mod 31 <> 0.
Proof.
  split; [exact toy_group|]. split; [vm_compute; reflexivity|]. split; [apply (C117_large_r toy 2 12 31 toy_group); vm_compute; discriminate|].
  split; [vm_compute; reflexivity|]. split; [reflexivity|]. do 2 (split; [vm_compute; reflexivity|]). split; [discriminate|]. split; [reflexivity|].
  split; [do 2 eexists; split; [vm_compute; reflexivity|vm_compute; reflexivity]|].
  split; [exists 7; eexists; split; [lia|]; split; [vm_compute; reflexivity|discriminate]|]. split; discriminate.
Qed.

Theorem C117_secp_large_r : forall r, secp_p - curve_order <= r -> one_abscissa secp_p 0 7 curve_order r.
Proof. exact secp_one. Qed.
Print Assumptions C117_secp_large_r.

Theorem C117_keys_signing_both : forall v v' net compressed, known net -> (v - v') mod curve_order <> 0 -> (v + v') mod curve_order <> 0 ->
  exists k K r s, valid_key k /\ k_network k = net /\ k_compressed k = compressed /\ pk_from_private_key k = Ok K /\
    ecdsa_verify secp256k1 secp_G (pk_pair K) v (r, s) = Ok true /\ ecdsa_verify secp256k1 secp_G (pk_pair K) v' (r, s) = Ok true.
Proof. exact key_two_values. Qed.
Print Assumptions C117_keys_signing_both.

Example C117_keys_ex : known livenet /\ (1 - 2) mod curve_order <> 0 /\ (1 + 2) mod curve_order <> 0.
Proof. split; [left; reflexivity|]. split; vm_compute; discriminate. Qed.
