(** C107: what keys and addresses look like as text. *)
From Coq Require Import ZArith List String.
From Verif Require Import Base M_Hash M_Keys M_EC M_HD S_Codec S_Keys S_HD S_Form P_HD P_Form.
Import ListNotations.
Open Scope Z_scope.

(** *** C107 *)
Theorem C107_address : forall a s, valid_addr a -> addr_to_string a = Ok s -> address_look (a_network a) (a_type a) s.
Proof. exact address_looks. Qed.
Print Assumptions C107_address.

Theorem C107_address_read : forall s a, addr_from_string s = Ok a -> address_look (a_network a) (a_type a) s.
Proof. exact address_read. Qed.
Print Assumptions C107_address_read.

Theorem C107_address_first : forall c s s' a a', addr_from_string (c :: s) = Ok a -> addr_from_string (c :: s') = Ok a' ->
  a_network a = a_network a' /\ a_type a = a_type a'.
Proof. exact address_first. Qed.
Print Assumptions C107_address_first.

Theorem C107_wif : forall k s, valid_key k -> priv_to_wif k = Ok s -> wif_look (k_network k) (k_compressed k) s.
Proof. exact wif_looks. Qed.
Print Assumptions C107_wif.

Theorem C107_wif_read : forall s k, priv_from_wif s = Ok k -> wif_look (k_network k) (k_compressed k) s.
Proof. exact wif_read_look. Qed.
Print Assumptions C107_wif_read.

Theorem C107_wif_first : forall c s s' k k', priv_from_wif (c :: s) = Ok k -> priv_from_wif (c :: s') = Ok k' ->
  k_network k = k_network k' /\ k_compressed k = k_compressed k'.
Proof. exact wif_first. Qed.
Print Assumptions C107_wif_first.

Theorem C107_hd_public : forall s h data, hdpub_from_string s = Ok h -> check_text data s -> List.length data = 78%nat -> hd_look (hp_network h) true s.
Proof. exact hdpub_shape. Qed.
Print Assumptions C107_hd_public.

Theorem C107_hd_private : forall s h data, hdpriv_from_string s = Ok h -> check_text data s -> List.length data = 78%nat -> hd_look (hv_network h) false s.
Proof. exact hdpriv_shape. Qed.
Print Assumptions C107_hd_private.

Theorem C107_hd_prefix_refuted : ~ (forall s h, hdpriv_from_string s = Ok h -> begins "xprv" s \/ begins "tprv" s).
Proof. exact hd_prefix_unchecked. Qed.
Print Assumptions C107_hd_prefix_refuted.

Theorem C107_one_reader : forall r r' s, accepts r s -> accepts r' s -> r = r'.
Proof. exact one_reader. Qed.
Print Assumptions C107_one_reader.

Example C107_ex : accepts R_address (txt "1111111111111111111114oLvT2") /\ accepts R_wif (txt "KwDiBf89QgGbjEhKnhXJuH7LrciVrZi3qYjgd9M7rFU73sVHnoWn") /\
  (exists s, accepts R_hd_private s /\ check_text (hd_raw x00 []) s /\ List.length (hd_raw x00 []) = 78%nat) /\
  accepts R_address_hex (txt "6f0000000000000000000000000000000000000000") /\
  accepts R_secret_hex (txt "0000000000000000000000000000000000000000000000000000000000000001") /\
  accepts R_public_hex (txt "0479BE667EF9DCBBAC55A06295CE870B07029BFCDB2DCE28D959F2815B16F81798483ADA7726A3C4655DA4FBFC0E1108A8FD17B448A68554199C47D08FFB10D4B8") /\
  addr_to_string (Address (Str (zeros 20)) testnet T_PublicKey) = Ok (txt "mfWxJ45yp2SFn7UciZyNpvDKrzbhyfKrY8") /\
  addr_to_string (Address (Str (zeros 20)) testnet T_Script) = Ok (txt "2MsFDzHRUAMpjHxKyoEHU3aMCMsVtMqs1PV") /\
  addr_to_string (Address (Str (zeros 20)) livenet T_Script) = Ok (txt "31h1vYVSYuKP6AhS86fbRdMw9XHieotbST").
Proof.
  split; [eexists; vm_compute; reflexivity|]. split; [eexists; vm_compute; reflexivity|].
  split; [destruct (check_text_total (hd_raw x00 [])) as (t & T); exists t; split; [destruct (hd_raw_accepted x00 [] t T) as (f & _ & A); exists (HDPriv (PrivateKey 1 livenet true) (zeros 32) 0 0 0 livenet f); exact A|split; [exact T|reflexivity]]|].
  split; [eexists; vm_compute; reflexivity|]. split; [exists (VNet livenet), true; eexists; vm_compute; reflexivity|].
  split; [exists (VNet livenet); eexists; vm_compute; reflexivity|]. repeat split; vm_compute; reflexivity.
Qed.
