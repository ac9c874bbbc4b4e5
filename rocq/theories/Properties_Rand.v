(** Property theorems C103: random keys and seeds. *)
From Coq Require Import String ZArith Lia List.
From Verif Require Import Base M_Hash M_Codec S_Codec M_Keys S_Keys M_EC S_EC M_HD S_HD P_HD M_Rand S_Rand P_Rand.
Import ListNotations.
Open Scope Z_scope.

(** *** C103 *)
Theorem C103_in_range : forall k bs s, random_secret k bs = Some s -> 0 < s < curve_order.
Proof. exact secret_range. Qed.
Print Assumptions C103_in_range.

Theorem C103_first_accepted : forall k bs s, random_secret k bs = Some s <->
  exists pre b post, bs = pre ++ b :: post /\ Forall (fun x => curve_order <= rng_getrandbits k x + 1) pre /\ s = rng_getrandbits k b + 1 /\ s < curve_order.
Proof. exact secret_iff. Qed.
Print Assumptions C103_first_accepted.

Theorem C103_one_draw : forall k m, k <= 8 * Z.of_nat m -> curve_order - 1 <= 2 ^ k -> 0 <= k -> forall s, 0 < s < curve_order ->
  how_many m 1 (fun bs => random_secret k bs = Some s) (Z.to_nat (2 ^ (8 * Z.of_nat m - k))).
Proof. exact one_draw. Qed.
Print Assumptions C103_one_draw.

Theorem C103_uniform : forall k m, k <= 8 * Z.of_nat m -> curve_order - 1 <= 2 ^ k -> 0 <= k -> forall t,
  exists c, forall s, 0 < s < curve_order -> how_many m t (fun bs => random_secret k bs = Some s) c.
Proof. exact uniform. Qed.
Print Assumptions C103_uniform.

Theorem C103_key : forall k net c bs r, new_privkey_opt k None net c bs = Some r ->
  (exists n s, find net (txt "name") = Ok n /\ random_secret k bs = Some s /\ r = Ok (PrivateKey s n c) /\ 0 < s < curve_order) \/
  (r = Err E_Priv_UnknownNetwork /\ find net (txt "name") = Err E_UnknownNetwork).
Proof. exact random_key. Qed.
Print Assumptions C103_key.

Theorem C103_given_secret : forall k s net c bs, new_privkey_opt k (Some s) net c bs = Some (new_privkey s net c).
Proof. exact given_key. Qed.
Print Assumptions C103_given_secret.

Theorem C103_seed : forall os, (forall n, blen (os n) = n) ->
  (exists secret chain f, master (os 32) secret chain /\ hdpriv_from_seed_opt None os = Ok (HDPriv (PrivateKey secret livenet true) chain 0 0 0 livenet f)) \/
  (hdpriv_from_seed_opt None os = Err E_Priv_InvalidSecret /\ forall secret chain, ~ master (os 32) secret chain).
Proof. exact random_seed. Qed.
Print Assumptions C103_seed.

Theorem C103_given_seed : forall s os, hdpriv_from_seed_opt (Some s) os = hdpriv_from_seed s.
Proof. exact given_seed. Qed.
Print Assumptions C103_given_seed.

Example C103_ex : 257 <= 8 * Z.of_nat 33 /\ curve_order - 1 <= 2 ^ 257 /\
  random_secret 257 [repeat xff 33; x80 :: repeat x00 32; repeat x00 32 ++ [x80]] = Some 2 /\
  random_secret 257 [x7f :: repeat xff 32] = None /\
  new_privkey_opt 257 None (VText (txt "testnet")) false [repeat x00 33] = Some (Ok (PrivateKey 1 testnet false)) /\
  new_privkey_opt 257 None (VText (txt "nonet")) false [] = Some (Err E_Priv_UnknownNetwork).
Proof. repeat match goal with |- _ /\ _ => split end; first [vm_compute; reflexivity | vm_compute; discriminate]. Qed.
