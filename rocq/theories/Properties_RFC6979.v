(** Property theorems C80: the deterministic nonce. *)
From Coq Require Import ZArith Lia List.
From Verif Require Import Base M_Hash M_Codec S_Codec M_Keys M_EC S_EC S_RFC6979 P_RFC6979.
Import ListNotations.
Open Scope Z_scope.

(** *** C80 *)
Theorem C80_nonce : forall n, 0 < n -> forall secret h k, 0 <= secret < n -> length h = 32%nat -> bits2int n h <> n ->
  ((exists fuel, deterministic_generate_k fuel n secret (be_val h) = Some k) <-> rfc6979 n secret h k).
Proof. exact rfc_nonce. Qed.
Print Assumptions C80_nonce.

Theorem C80_nonce_any_hash : forall n, 0 < n -> forall secret h k, 0 <= secret < n -> length h = 32%nat ->
  ((exists fuel, deterministic_generate_k fuel n secret (be_val h) = Some k) <->
   exists xs hs, octets n secret xs /\ octets n (if bits2int n h =? n then n else bits2int n h mod n) hs /\ nonce_from n xs hs k).
Proof. exact nonce_code. Qed.
Print Assumptions C80_nonce_any_hash.

Theorem C80_unique : forall n, 0 < n -> forall x h k k', rfc6979 n x h k -> rfc6979 n x h k' -> k = k'.
Proof. exact rfc_fun. Qed.
Print Assumptions C80_unique.

Theorem C80_range : forall n x h k, rfc6979 n x h k -> 1 <= k < n.
Proof. exact rfc_range. Qed.
Print Assumptions C80_range.

Theorem C80_bound_irrelevant : forall n secret val f f' k k', deterministic_generate_k f n secret val = Some k -> deterministic_generate_k f' n secret val = Some k' -> k = k'.
Proof. exact nonce_fuel_irrelevant. Qed.
Print Assumptions C80_bound_irrelevant.

Theorem C80_secp : forall secret h k, 0 <= secret < key_max -> length h = 32%nat -> be_val h <> key_max ->
  ((exists fuel, deterministic_generate_k fuel key_max secret (be_val h) = Some k) <-> rfc6979 key_max secret h k).
Proof. exact secp_nonce. Qed.
Print Assumptions C80_secp.

Theorem C80_secp_sign : forall fuel secret h r s, 0 <= secret < key_max -> length h = 32%nat -> be_val h <> key_max ->
  ecdsa_sign fuel secp256k1 secp_G secret (be_val h) = Ok (r, s) ->
  exists k y, rfc6979 key_max secret h k /\ multiple secp_p 0 (EA secp_gx secp_gy) k (EA r y) /\ (s * k) mod key_max = (be_val h + secret * r) mod key_max.
Proof. exact secp_sign_rfc. Qed.
Print Assumptions C80_secp_sign.

Theorem C80_reduced_hash_refuted : ~ (forall secret h k, 0 <= secret < key_max -> length h = 32%nat ->
  (exists fuel, deterministic_generate_k fuel key_max secret (be_val h) = Some k) -> rfc6979 key_max secret h k).
Proof. exact nonce_at_order. Qed.
Print Assumptions C80_reduced_hash_refuted.

(** SHA-256 of "Satoshi Nakamoto" with the private key 1: a published test vector *)
Example C80_ex : let h := be_bytes 32 0xa0dc65ffca799873cbea0ac274015b9526505daaaed385155425f7337704883e in
  length h = 32%nat /\ be_val h <> key_max /\ rfc6979 key_max 1 h 0x8F8A276C19F4149656B280621E358CCE24F5F52542772691EE69063B74F15D15.
Proof.
  intros h. assert (L : length h = 32%nat) by (vm_compute; reflexivity).
  assert (V : be_val h = 0xa0dc65ffca799873cbea0ac274015b9526505daaaed385155425f7337704883e) by (vm_compute; reflexivity).
  assert (N : be_val h <> key_max) by (rewrite V; vm_compute; discriminate). clearbody h. split; [exact L|]. split; [exact N|].
  apply C80_secp; [split; vm_compute; congruence|exact L|exact N|]. exists 1%nat. rewrite V. vm_compute. reflexivity.
Qed.

(** an order of 17 bits: the hash is truncated, and two attempts are needed *)
Example C80_short_ex : let h := be_bytes 32 (3 * 2 ^ 251) in length h = 32%nat /\ bits2int 65537 h = 12288 /\
  deterministic_generate_k 1 65537 3 (3 * 2 ^ 251) = None /\ rfc6979 65537 3 h 2473.
Proof.
  intros h. assert (L : length h = 32%nat) by (vm_compute; reflexivity). assert (V : be_val h = 3 * 2 ^ 251) by (vm_compute; reflexivity).
  assert (B : bits2int 65537 h = 12288) by (vm_compute; reflexivity). clearbody h. split; [exact L|]. split; [exact B|]. split; [vm_compute; reflexivity|].
  apply C80_nonce; [lia|lia|exact L|rewrite B; discriminate|]. exists 2%nat. rewrite V. vm_compute. reflexivity.
Qed.
