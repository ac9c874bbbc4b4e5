(** C119: what a hash determines. *)
From Coq Require Import ZArith Lia List String.
From Coq.Init Require Import Byte.
From Verif Require Import Base M_Hash M_Codec S_Codec M_Keys S_Keys M_Script S_Script M_Tx S_Tx P_Tx P_TxSign M_EC S_EC M_Sign S_Sign S_Bind P_Bind.
Import ListNotations.
Open Scope Z_scope.

Theorem C119_same_id : forall t t' h, tx_fits t -> tx_fits t' -> tx_get_id t = Ok h -> tx_get_id t' = Ok h ->
  agree t t' \/ exists w w', tx_to_bytes t = Ok w /\ tx_to_bytes t' = Ok w' /\ collide_twice w w'.
Proof. exact same_id. Qed.
Print Assumptions C119_same_id.

Theorem C119_history : forall t t' ks ps ps', agree t t' -> ancestry refers t ks ps -> ancestry refers t' ks ps' -> Forall2 agree ps ps' \/ collision_among ps ps'.
Proof. exact history. Qed.
Print Assumptions C119_history.

Theorem C119_history_ids : forall t t' ks ps ps', agree t t' -> ancestry refers_id t ks ps -> ancestry refers_id t' ks ps' -> Forall2 agree ps ps' \/ collision_among ps ps'.
Proof. exact history_ids. Qed.
Print Assumptions C119_history_ids.

Theorem C119_same_digest : forall t t' k k' st st' m m' i i', tx_fits t -> tx_fits t' -> u32 st -> u32 st' ->
  nth_error (tx_inputs t) k = Some i -> nth_error (tx_inputs t') k' = Some i' -> signing_message t k st m -> signing_message t' k' st' m' ->
  sha256 (sha256 m) = sha256 (sha256 m') -> same_spending t t' k k' st st' i i' \/ collide_twice m m'.
Proof. exact same_digest. Qed.
Print Assumptions C119_same_digest.

Theorem C119_signed_history : forall t t' k k' st st' i i' ks ps ps', same_spending t t' k k' st st' i i' -> ancestry refers t ks ps -> ancestry refers t' ks ps' ->
  Forall2 agree ps ps' \/ collision_among ps ps'.
Proof. exact signed_history. Qed.
Print Assumptions C119_signed_history.

Theorem C119_replay : forall d x y t t' k k' st st' m m' i i' r s, public_point d x y -> secp_p - curve_order <= r -> tx_fits t -> tx_fits t' -> u32 st -> u32 st' ->
  nth_error (tx_inputs t) k = Some i -> nth_error (tx_inputs t') k' = Some i' -> signing_message t k st m -> signing_message t' k' st' m' ->
  secp_valid x y (be_val (sha256 (sha256 m))) r s -> secp_valid x y (be_val (sha256 (sha256 m'))) r s ->
  let e := be_val (sha256 (sha256 m)) in let e' := be_val (sha256 (sha256 m')) in
  same_spending t t' k k' st st' i i' \/ collide_twice m m' \/ (e' = e + curve_order \/ e = e' + curve_order) \/ (e + e' + 2 * d * r) mod curve_order = 0.
Proof. exact replay. Qed.
Print Assumptions C119_replay.

Theorem C119_key_address : forall k k' a a' s, valid_key k -> valid_key k' -> priv_to_address k = Ok a -> priv_to_address k' = Ok a' -> addr_to_string a = Ok s -> addr_to_string a' = Ok s ->
  k = k' \/ exists p p' b b', pk_from_private_key k = Ok p /\ pk_from_private_key k' = Ok p' /\
    sec_of (fst (pk_pair p)) (snd (pk_pair p)) (pk_compressed p) b /\ sec_of (fst (pk_pair p')) (snd (pk_pair p')) (pk_compressed p') b' /\ collide_160 b b'.
Proof. exact same_key_text. Qed.
Print Assumptions C119_key_address.

Theorem C119_script_address : forall s s' n n' a a' t, known n -> known n' -> Forall well_formed (s_ins s) -> Forall well_formed (s_ins s') ->
  addr_from_script s (VNet n) = Ok a -> addr_from_script s' (VNet n') = Ok a' -> addr_to_string a = Ok t -> addr_to_string a' = Ok t ->
  n = n' /\ (same_script s s' \/ exists b b', script_to_bytes s = Ok b /\ script_to_bytes s' = Ok b' /\ collide_160 b b').
Proof. exact same_script_text. Qed.
Print Assumptions C119_script_address.

Theorem C119_key_is_no_script : forall k a s n a' t, valid_key k -> known n -> priv_to_address k = Ok a -> addr_from_script s (VNet n) = Ok a' ->
  addr_to_string a = Ok t -> addr_to_string a' <> Ok t.
Proof. exact key_is_no_script. Qed.
Print Assumptions C119_key_is_no_script.

Example C119_ex : let t := ex_child (fun b => b) (Script None []) in let t' := ex_child upper (Script None []) in
  t <> t' /\ tx_fits t /\ tx_fits t' /\ agree t t' /\ ex_parent Str <> ex_parent BA /\ ancestry refers t [0%nat] [ex_parent Str] /\ ancestry refers t' [0%nat] [ex_parent BA].
Proof. exact ex_history. Qed.
Example C119_ex_ids : tx_fits ex_child_lib /\ ancestry refers_id ex_child_lib [0%nat] [ex_parent Str] /\ ancestry refers_id ex_child_lib [0%nat] [ex_parent BA].
Proof. exact ex_history_ids. Qed.
Example C119_ex_id : exists h, tx_get_id (ex_parent Str) = Ok h /\ tx_get_id (ex_parent BA) = Ok h /\ tx_fits (ex_parent Str) /\ tx_fits (ex_parent BA) /\ ex_parent Str <> ex_parent BA.
Proof. eexists. split; [vm_compute; reflexivity|]. split; [vm_compute; reflexivity|]. split; [apply tx_fitsb_ok; vm_compute; reflexivity|]. split; [apply tx_fitsb_ok; vm_compute; reflexivity|intros E; discriminate E]. Qed.
Example C119_ex_replay : exists m r s, signing_message (ex_child (fun b => b) (Script None [])) 0 1 m /\ signing_message (ex_child upper (Script None [])) 0 1 m /\
  secp_p - curve_order <= r /\ public_point 1 secp_gx secp_gy /\ secp_valid secp_gx secp_gy (be_val (sha256 (sha256 m))) r s.
Proof. exact ex_replay. Qed.
Example C119_ex_addresses : let k := PrivateKey 1 testnet true in let s := Script None [Instr x01 (Some (Str [x05]))] in let s' := Script None [Instr x01 (Some (BA [x05]))] in
  valid_key k /\ known testnet /\ Forall well_formed (s_ins s) /\ Forall well_formed (s_ins s') /\ s <> s' /\
  exists a t a' t', priv_to_address k = Ok a /\ addr_to_string a = Ok t /\ addr_from_script s (VNet testnet) = Ok a' /\ addr_from_script s' (VNet testnet) = Ok a' /\ addr_to_string a' = Ok t'.
Proof.
  cbv zeta. split; [split; [split; vm_compute; congruence|vm_compute; tauto]|]. split; [vm_compute; tauto|].
  split; [constructor; [left; vm_compute; intuition discriminate|constructor]|]. split; [constructor; [left; vm_compute; intuition discriminate|constructor]|]. split; [intros E; discriminate E|].
  eexists. eexists. eexists. eexists. split; [vm_compute; reflexivity|]. split; [vm_compute; reflexivity|]. split; [vm_compute; reflexivity|]. split; [vm_compute; reflexivity|vm_compute; reflexivity].
Qed.
