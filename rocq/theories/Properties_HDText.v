(** Property theorems C63, C64, continued: the joining of a unicode text and its check bytes, and the first
    hardened index. *)
From Coq Require Import ZArith List String.
From Coq.Init Require Import Byte.
From Verif Require Import Base M_Hash M_Codec S_Codec M_Keys S_Keys M_EC S_EC M_HD S_HD S_HDText P_HDText.
Import ListNotations.
Open Scope Z_scope.

(** *** C63 *)
Theorem C63_unicode_checked : forall u, Forall (fun b => bZ b < 128) (firstn 4 (sha256 (sha256 u))) ->
  exists t, b2a_hashed_unicode u = Ok t /\ check_text u t.
Proof. exact unicode_checked. Qed.
Print Assumptions C63_unicode_checked.

Theorem C63_unicode_unchecked : forall u, ~ Forall (fun b => bZ b < 128) (firstn 4 (sha256 (sha256 u))) ->
  b2a_hashed_unicode u = Err E_UnicodeDecodeError.
Proof. exact unicode_unchecked. Qed.
Print Assumptions C63_unicode_unchecked.

(** The check bytes of "b" are 39 36 11 60 (hexadecimal), those of "a" start with bf. *)
Example C63_unicode_ex :
  Forall (fun b => bZ b < 128) (firstn 4 (sha256 (sha256 (txt "b")))) /\ (exists t, b2a_hashed_unicode (txt "b") = Ok t) /\
  b2a_hashed_unicode (txt "a") = Err E_UnicodeDecodeError.
Proof.
  assert (F : Forall (fun b => bZ b < 128) (firstn 4 (sha256 (sha256 (txt "b"))))) by (vm_compute; repeat constructor).
  split; [exact F|]. split; [destruct (C63_unicode_checked _ F) as (t & A & _); exists t; exact A|vm_compute; reflexivity].
Qed.

Theorem C63_private_text : forall h secret b, 0 < k_secret (hv_privkey h) < curve_order -> List.length secret = 32%nat -> be_val secret = k_secret (hv_privkey h) ->
  hd_fields (n_hd_private_key (hv_network h)) (hv_depth h) (hv_parent h) (hv_index h) (hv_chain h) (x00 :: secret) b ->
  (ascii (b ++ firstn 4 (sha256 (sha256 b))) -> exists t, hdpriv_to_string h = Ok t /\ check_text b t) /\
  (~ ascii (b ++ firstn 4 (sha256 (sha256 b))) -> hdpriv_to_string h = Err E_UnicodeDecodeError).
Proof. exact private_text. Qed.
Print Assumptions C63_private_text.

Theorem C63_public_text : forall h key b, usable_pub (hp_pubkey h) -> sec_of (fst (pk_pair (hp_pubkey h))) (snd (pk_pair (hp_pubkey h))) (pk_compressed (hp_pubkey h)) key ->
  hd_fields (n_hd_public_key (hp_network h)) (hp_depth h) (hp_parent h) (hp_index h) (hp_chain h) key b ->
  (ascii (b ++ firstn 4 (sha256 (sha256 b))) -> exists t, hdpub_to_string h = Ok t /\ check_text b t) /\
  (~ ascii (b ++ firstn 4 (sha256 (sha256 b))) -> hdpub_to_string h = Err E_UnicodeDecodeError).
Proof. exact public_text. Qed.
Print Assumptions C63_public_text.

(** a network that is not the library's, with a version number of ASCII bytes *)
Definition ex_net : network := Network (txt "own") 0 0 0 0x01020304 0x01020304 0 0 [].
Definition ex_fields (index : byte) (key : bytes) : bytes := [x01; x02; x03; x04; x00] ++ zeros 4 ++ [x00; x00; x00; index] ++ zeros 32 ++ key.
Example C63_private_text_ex : let h := HDPriv (PrivateKey 1 livenet true) (zeros 32) 256 5 0 ex_net 0 in let secret := zeros 31 ++ [x01] in
  0 < k_secret (hv_privkey h) < curve_order /\ List.length secret = 32%nat /\ be_val secret = k_secret (hv_privkey h) /\
  hd_fields (n_hd_private_key (hv_network h)) (hv_depth h) (hv_parent h) (hv_index h) (hv_chain h) (x00 :: secret) (ex_fields x05 (x00 :: secret)) /\
  ascii (ex_fields x05 (x00 :: secret) ++ firstn 4 (sha256 (sha256 (ex_fields x05 (x00 :: secret))))).
Proof.
  cbv zeta. split; [split; reflexivity|]. split; [reflexivity|]. split; [reflexivity|]. split; [|vm_compute; repeat constructor].
  exists [x01; x02; x03; x04], [x00], (zeros 4), [x00; x00; x00; x05]. split; [reflexivity|]. split; [split; reflexivity|]. split; [split; reflexivity|]. split; split; reflexivity.
Qed.
Example C63_public_text_ex : let h := HDPub (PublicKey (1, 0x4218f20ae6c646b363db68605822fb14264ca8d2587fdd6fbc750d587e76a7ee) livenet true) (zeros 32) 0 21 0 ex_net 0 in
  let key := x02 :: zeros 31 ++ [x01] in usable_pub (hp_pubkey h) /\
  sec_of (fst (pk_pair (hp_pubkey h))) (snd (pk_pair (hp_pubkey h))) (pk_compressed (hp_pubkey h)) key /\
  hd_fields (n_hd_public_key (hp_network h)) (hp_depth h) (hp_parent h) (hp_index h) (hp_chain h) key (ex_fields x15 key) /\
  ascii (ex_fields x15 key ++ firstn 4 (sha256 (sha256 (ex_fields x15 key)))).
Proof.
  cbv zeta. split; [split; [vm_compute; reflexivity|split; vm_compute; split; congruence]|].
  split; [apply sec_even; [reflexivity|reflexivity|exists (0x4218f20ae6c646b363db68605822fb14264ca8d2587fdd6fbc750d587e76a7ee / 2); vm_compute; reflexivity]|]. split; [|vm_compute; repeat constructor].
  exists [x01; x02; x03; x04], [x00], (zeros 4), [x00; x00; x00; x15]. split; [reflexivity|]. split; [split; reflexivity|]. split; [split; reflexivity|]. split; split; reflexivity.
Qed.

(** *** C64 *)
Theorem C64_first_hardened : forall i, 0 <= i -> (i < hardened_start <-> i < 2 ^ 31).
Proof. exact first_hardened. Qed.
Print Assumptions C64_first_hardened.

Example C64_first_hardened_ex : 2147483647 < hardened_start /\ ~ 2147483648 < hardened_start.
Proof. split; [|intros H; discriminate H]. vm_compute. reflexivity. Qed.
