(** C120: how many keys, addresses and signatures there are, and what they must share. *)
From Coq Require Import String.
From Coq Require Import ZArith List.
From Verif Require Import Base M_Keys S_Keys M_Script M_Tx S_Tx M_EC S_EC P_DSA S_Sign P_TxSign S_Bind P_Bind S_Count P_Count.
Import ListNotations.
Open Scope Z_scope.

Theorem C120_secret_bytes : forall n c, known n -> counted (fun b => exists k, priv_from_bytes b (VNet n) c = Ok k) (curve_order - 1).
Proof. exact counted_secret_bytes. Qed.
Print Assumptions C120_secret_bytes.

Theorem C120_wif_texts : counted (fun s => exists k, priv_from_wif s = Ok k) (4 * (curve_order - 1)).
Proof. exact counted_wif. Qed.
Print Assumptions C120_wif_texts.

Theorem C120_address_texts : counted (fun s => exists a, addr_from_string s = Ok a) (4 * 2 ^ 160).
Proof. exact counted_address_texts. Qed.
Print Assumptions C120_address_texts.

Theorem C120_public_keys : counted (fun K => exists k, valid_key k /\ pk_from_private_key k = Ok K) (4 * (curve_order - 1)).
Proof. exact counted_public_keys. Qed.
Print Assumptions C120_public_keys.

Theorem C120_public_bytes : counted (fun b => exists k p, valid_key k /\ pk_from_private_key k = Ok p /\ pk_to_bytes p = Ok b) (2 * (curve_order - 1)).
Proof. exact counted_public_bytes. Qed.
Print Assumptions C120_public_bytes.

Theorem C120_signatures : forall c gx gy n, dsa_group c gx gy n -> 2 * c_p c + 1 < 3 * n -> forall d x y val,
  public_pair_for_secret c (PAff gx gy (Some n)) d = Ok (Some (x, y)) -> 0 < d < n ->
  exists m, n - 9 <= m <= n - 1 /\ counted (fun z => ecdsa_verify c (PAff gx gy (Some n)) (x, y) val z = Ok true) m.
Proof. exact signature_count. Qed.
Print Assumptions C120_signatures.

Theorem C120_secp_signatures : forall x y e, on_curve secp_p 0 7 (EA x y) ->
  exists m, curve_order - 9 <= m <= curve_order - 1 /\ counted (fun z => secp_valid x y e (fst z) (snd z)) m.
Proof. exact secp_signature_count. Qed.
Print Assumptions C120_secp_signatures.

Theorem C120_shared_address : forall n c, known n -> exists a, at_least (fun d => 0 < d < curve_order /\ priv_to_address (PrivateKey d n c) = Ok a) (2 ^ 96).
Proof. exact crowded_address. Qed.
Print Assumptions C120_shared_address.

Theorem C120_shared_script_address : forall n, known n ->
  exists a, at_least (fun d => length d = 75%nat /\ addr_from_script (push_script d) (VNet n) = Ok a) (2 ^ 440).
Proof. exact crowded_script_address. Qed.
Print Assumptions C120_shared_script_address.

Theorem C120_shared_id : forall t, tx_fits t -> exists h, at_least (fun t' => variant t t' /\ tx_get_id t' = Ok h) (2 ^ 64).
Proof. exact crowded_id. Qed.
Print Assumptions C120_shared_id.

Theorem C120_variants_differ : forall t t1 t2, variant t t1 -> variant t t2 -> agree t1 t2 -> t1 = t2.
Proof. exact variants_agree. Qed.
Print Assumptions C120_variants_differ.

Theorem C120_address_determines_key_refuted : ~ (forall k k' a, valid_key k -> valid_key k' -> priv_to_address k = Ok a -> priv_to_address k' = Ok a -> k = k').
Proof. exact colliding_addresses. Qed.
Print Assumptions C120_address_determines_key_refuted.

Theorem C120_id_determines_transaction_refuted : ~ (forall t t' h, tx_fits t -> tx_fits t' -> tx_get_id t = Ok h -> tx_get_id t' = Ok h -> agree t t').
Proof. exact colliding_ids. Qed.
Print Assumptions C120_id_determines_transaction_refuted.

Example C120_ex : known testnet /\ dsa_group toy 2 12 31 /\ 2 * c_p toy + 1 < 3 * 31 /\ public_pair_for_secret toy (PAff 2 12 (Some 31)) 5 = Ok (Some (12, 12)) /\
  ecdsa_verify toy (PAff 2 12 (Some 31)) (12, 12) (3 * 2 ^ 251) (21, 11) = Ok true /\ ecdsa_verify toy (PAff 2 12 (Some 31)) (12, 12) (3 * 2 ^ 251) (21, 12) = Ok false /\
  on_curve secp_p 0 7 (EA secp_gx secp_gy).
Proof.
  split; [right; reflexivity|]. split; [exact toy_group|]. split; [reflexivity|]. do 3 (split; [vm_compute; reflexivity|]).
  split; [split; vm_compute; congruence|split; [split; vm_compute; congruence|vm_compute; reflexivity]].
Qed.
Example C120_ex_transactions : let t := ex_parent Str in let z := (repeat xab 32, (5, 6)) in tx_fits t /\ variant t (vary t z) /\ vary t z <> t.
Proof.
  cbv zeta. assert (F : tx_fits (ex_parent Str)) by (apply tx_fitsb_ok; vm_compute; reflexivity). split; [exact F|]. split.
  - apply vary_variant; [exact F|reflexivity|split; vm_compute; congruence|split; vm_compute; congruence].
  - intros E. apply (f_equal tx_lock_time) in E. vm_compute in E. discriminate E.
Qed.
