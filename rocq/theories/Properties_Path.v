(** C129: repeated derivation of public keys. *)
From Coq Require Import ZArith List Lia.
From Verif Require Import Base M_Keys S_Keys M_EC S_EC M_HD S_HD M_Sign S_Sign S_Path P_HD P_SignTx P_Path.
Import ListNotations.
Open Scope Z_scope.

Theorem C129_path : forall h p i x' y' chain', on_curve secp_p 0 7 (EA (pub_x h) (pub_y h)) ->
  (exists a, derive_path h (p ++ [i]) = Ok a /\ pub_x a = x' /\ pub_y a = y' /\ hp_chain a = chain') <->
  exists t, descends (pub_x h) (pub_y h) (pk_compressed (hp_pubkey h)) (hp_chain h) (hp_index h :: p) x' y' chain' t.
Proof. exact path_iff. Qed.
Print Assumptions C129_path.

Theorem C129_fields : forall p h a, derive_path h p = Ok a -> hp_depth a = hp_depth h + Z.of_nat (length p) /\ hp_network a = hp_network h /\ hp_index a = last p (hp_index h).
Proof. exact path_fields. Qed.
Print Assumptions C129_fields.

Theorem C129_last_ignored : forall h p i j a, derive_path h (p ++ [i]) = Ok a ->
  exists b, derive_path h (p ++ [j]) = Ok b /\ hp_pubkey b = hp_pubkey a /\ hp_chain b = hp_chain a /\ hp_fingerprint b = hp_fingerprint a /\ hp_index a = i /\ hp_index b = j.
Proof. exact path_last. Qed.
Print Assumptions C129_last_ignored.

Theorem C129_secrets : forall h p i a, on_curve secp_p 0 7 (EA (pub_x h) (pub_y h)) -> derive_path h (p ++ [i]) = Ok a ->
  exists t, bip32_descendant h (hp_index h :: p) a t /\
    (forall d s, public_point d (pub_x h) (pub_y h) -> (public_point s (pub_x a) (pub_y a) <-> s = (d + t) mod curve_order)) /\
    (forall s, public_point s (pub_x a) (pub_y a) -> public_point ((s - t) mod curve_order) (pub_x h) (pub_y h)).
Proof. exact path_secrets. Qed.
Print Assumptions C129_secrets.

(** public data determine what is derived, and the difference of the secrets *)
Theorem C129_determined : forall x y cp chain p x' y' chain' t, descends x y cp chain p x' y' chain' t -> on_curve secp_p 0 7 (EA x y) ->
  forall x2 y2 chain2 t2, descends x y cp chain p x2 y2 chain2 t2 -> x2 = x' /\ y2 = y' /\ chain2 = chain' /\ t2 = t.
Proof. exact descends_fun. Qed.
Print Assumptions C129_determined.

(** the owner of an HD private key has the secrets of what is derived from its public half *)
Theorem C129_wallet : forall h q p i a, valid_key (hv_privkey h) -> known (hv_network h) -> hdpub_from_hdpriv h = Ok q -> derive_path q (p ++ [i]) = Ok a ->
  exists t, bip32_descendant q (hv_index h :: p) a t /\
    let k := PrivateKey ((k_secret (hv_privkey h) + t) mod curve_order) (hv_network h) true in valid_key k /\ pk_from_private_key k = Ok (hp_pubkey a).
Proof. exact path_wallet. Qed.
Print Assumptions C129_wallet.

Theorem C129_parsed : forall s h, hdpub_from_string s = Ok h -> pub_x h < secp_p -> on_curve secp_p 0 7 (EA (pub_x h) (pub_y h)).
Proof. exact parsed_on. Qed.
Print Assumptions C129_parsed.

Example C129_ex : on_curve secp_p 0 7 (EA (pub_x hd_G) (pub_y hd_G)) /\ (exists a, derive_path hd_G ([] ++ [5]) = Ok a /\ hp_index a = 5 /\ hp_depth a = 1) /\
  (exists x' y' chain' t, descends (pub_x hd_G) (pub_y hd_G) (pk_compressed (hp_pubkey hd_G)) (hp_chain hd_G) [hp_index hd_G] x' y' chain' t).
Proof.
  split; [exact G_on|]. destruct (hd_G_derives 5) as (a & E & _). assert (P : derive_path hd_G ([] ++ [5]) = Ok a) by (cbn [app derive_path]; rewrite E; reflexivity). split.
  - exists a. split; [exact P|]. destruct (C129_fields _ _ _ P) as (D & _ & L). split; [exact L|exact D].
  - exists (pub_x a), (pub_y a), (hp_chain a). apply (C129_path hd_G [] 5 (pub_x a) (pub_y a) (hp_chain a) G_on). exists a. auto.
Qed.

Example C129_wallet_ex : let h := HDPriv (PrivateKey 1 livenet true) (zeros 32) 0 0 0 livenet 0 in valid_key (hv_privkey h) /\ known (hv_network h) /\
  exists q a, hdpub_from_hdpriv h = Ok q /\ derive_path q ([] ++ [5]) = Ok a.
Proof.
  intros h. assert (V : valid_key (hv_privkey h)) by (split; [split; reflexivity|left; reflexivity]). split; [exact V|]. split; [left; reflexivity|].
  destruct (to_hdpub_ok h V) as (x & y & f & PO & _ & E). assert (P : EA x y = EA secp_gx secp_gy) by exact (mult_same 1 _ _ PO (proj2 pp_one)). assert (x = secp_gx) as -> by congruence. assert (y = secp_gy) as -> by congruence. clear PO P.
  destruct C129_ex as (_ & _ & x' & y' & chain' & t & D). set (q := HDPub (PublicKey (secp_gx, secp_gy) livenet true) (zeros 32) 0 0 0 livenet f). exists q.
  destruct (proj2 (C129_path q [] 5 x' y' chain' G_on) (ex_intro _ t D)) as (a & A & _). exists a. split; [exact E|exact A].
Qed.
