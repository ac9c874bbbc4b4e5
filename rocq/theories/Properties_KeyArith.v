(** C115: arithmetic of keys.  C116: every point is a public key. *)
From Coq Require Import ZArith Znumtheory List.
From Verif Require Import Base M_Keys S_Keys M_EC S_EC M_HD S_HD M_Sign S_Sign S_KeyArith P_NumTheory P_DSA P_PubKey P_Sign P_SignTx P_HD P_KeyArith P_KeyTheory.
Import ListNotations.
Open Scope Z_scope.

Theorem C115_sum : forall c gx gy n, dsa_group c gx gy n -> forall a b x y x' y',
  public_pair_for_secret c (PAff gx gy (Some n)) a = Ok (Some (x, y)) -> public_pair_for_secret c (PAff gx gy (Some n)) b = Ok (Some (x', y')) ->
  exists S, p_add c (PAff x y None) (PAff x' y' None) = Ok S /\ public_pair_for_secret c (PAff gx gy (Some n)) (a + b) = Ok (xy S).
Proof. exact pairs_sum. Qed.
Print Assumptions C115_sum.

Theorem C115_negative : forall c gx gy n, dsa_group c gx gy n -> forall a x y,
  public_pair_for_secret c (PAff gx gy (Some n)) a = Ok (Some (x, y)) ->
  public_pair_for_secret c (PAff gx gy (Some n)) (- a) = Ok (Some (x, c_p c - y)) /\
  public_pair_for_secret c (PAff gx gy (Some n)) (n - a) = Ok (Some (x, c_p c - y)).
Proof. exact pairs_neg. Qed.
Print Assumptions C115_negative.

Theorem C115_same_abscissa : forall c gx gy n, dsa_group c gx gy n -> forall a b x y y',
  public_pair_for_secret c (PAff gx gy (Some n)) a = Ok (Some (x, y)) -> public_pair_for_secret c (PAff gx gy (Some n)) b = Ok (Some (x, y')) ->
  b mod n = a mod n \/ b mod n = (- a) mod n.
Proof. exact pairs_same_x. Qed.
Print Assumptions C115_same_abscissa.

Theorem C115_product : forall c gx gy n, dsa_group c gx gy n -> forall a e x y,
  public_pair_for_secret c (PAff gx gy (Some n)) a = Ok (Some (x, y)) -> 0 <= e < n ->
  exists R, p_mul c (PAff x y None) e = Ok R /\ public_pair_for_secret c (PAff gx gy (Some n)) (a * e) = Ok (xy R).
Proof. exact pairs_mul. Qed.
Print Assumptions C115_product.

Theorem C115_no_pair : forall c gx gy n, dsa_group c gx gy n -> forall e, public_pair_for_secret c (PAff gx gy (Some n)) e = Ok None <-> e mod n = 0.
Proof. exact pps_none. Qed.
Print Assumptions C115_no_pair.

Theorem C115_shared : forall c gx gy n, dsa_group c gx gy n -> forall a b xa ya xb yb, 0 < a < n -> 0 < b < n ->
  public_pair_for_secret c (PAff gx gy (Some n)) a = Ok (Some (xa, ya)) -> public_pair_for_secret c (PAff gx gy (Some n)) b = Ok (Some (xb, yb)) ->
  exists x y o o', p_mul c (PAff xb yb None) a = Ok (PAff x y o) /\ p_mul c (PAff xa ya None) b = Ok (PAff x y o') /\
    public_pair_for_secret c (PAff gx gy (Some n)) (a * b) = Ok (Some (x, y)).
Proof. exact shared. Qed.
Print Assumptions C115_shared.

(** on the small curve: 5 G + 3 G = 8 G, 26 G mirrors 5 G, 3 (5 G) = 5 (3 G), and 62 is a multiple of the order *)
Example C115_ex : let G := PAff 2 12 (Some 31) in dsa_group toy 2 12 31 /\
  exists x y x' y' S, public_pair_for_secret toy G 5 = Ok (Some (x, y)) /\ public_pair_for_secret toy G 3 = Ok (Some (x', y')) /\ x <> x' /\
    p_add toy (PAff x y None) (PAff x' y' None) = Ok S /\ S <> PInf /\ public_pair_for_secret toy G 8 = Ok (xy S) /\
    public_pair_for_secret toy G 26 = Ok (Some (x, 43 - y)) /\ p_mul toy (PAff x y None) 3 = p_mul toy (PAff x' y' None) 5 /\
    public_pair_for_secret toy G 62 = Ok None.
Proof.
  split; [exact toy_group|]. do 5 eexists. split; [vm_compute; reflexivity|]. split; [vm_compute; reflexivity|]. split; [discriminate|].
  split; [vm_compute; reflexivity|]. split; [discriminate|]. repeat split; vm_compute; reflexivity.
Qed.

Theorem C115_keys_sum : forall k k' K K' net compressed, valid_key k -> valid_key k' -> pk_from_private_key k = Ok K -> pk_from_private_key k' = Ok K' ->
  exists S, p_add secp256k1 (PAff (fst (pk_pair K)) (snd (pk_pair K)) None) (PAff (fst (pk_pair K')) (snd (pk_pair K')) None) = Ok S /\
    (k_secret k + k_secret k' = curve_order -> S = PInf) /\
    (k_secret k + k_secret k' <> curve_order -> exists x y o, S = PAff x y o /\
       pk_from_private_key (PrivateKey ((k_secret k + k_secret k') mod curve_order) net compressed) = Ok (PublicKey (x, y) net compressed)).
Proof. exact keys_sum. Qed.
Print Assumptions C115_keys_sum.

Theorem C115_keys_mirror : forall k K, valid_key k -> pk_from_private_key k = Ok K ->
  pk_from_private_key (PrivateKey (curve_order - k_secret k) (k_network k) (k_compressed k)) =
    Ok (PublicKey (fst (pk_pair K), secp_p - snd (pk_pair K)) (k_network k) (k_compressed k)).
Proof. exact keys_mirror. Qed.
Print Assumptions C115_keys_mirror.

Theorem C115_keys_mirror_bytes : forall k K K', valid_key k -> k_compressed k = true -> pk_from_private_key k = Ok K ->
  pk_from_private_key (PrivateKey (curve_order - k_secret k) (k_network k) (k_compressed k)) = Ok K' ->
  exists t, (pk_to_bytes K = Ok (x02 :: t) /\ pk_to_bytes K' = Ok (x03 :: t)) \/ (pk_to_bytes K = Ok (x03 :: t) /\ pk_to_bytes K' = Ok (x02 :: t)).
Proof. exact keys_mirror_bytes. Qed.
Print Assumptions C115_keys_mirror_bytes.

Theorem C115_keys_same_abscissa : forall k k' K K', valid_key k -> valid_key k' -> pk_from_private_key k = Ok K -> pk_from_private_key k' = Ok K' ->
  fst (pk_pair K) = fst (pk_pair K') -> k_secret k' = k_secret k \/ k_secret k' = curve_order - k_secret k.
Proof. exact keys_same_x. Qed.
Print Assumptions C115_keys_same_abscissa.

Theorem C115_keys_shared : forall k k' K K', valid_key k -> valid_key k' -> pk_from_private_key k = Ok K -> pk_from_private_key k' = Ok K' ->
  exists x y o o', p_mul secp256k1 (PAff (fst (pk_pair K')) (snd (pk_pair K')) None) (k_secret k) = Ok (PAff x y o) /\
    p_mul secp256k1 (PAff (fst (pk_pair K)) (snd (pk_pair K)) None) (k_secret k') = Ok (PAff x y o') /\
    public_point ((k_secret k * k_secret k') mod curve_order) x y.
Proof. exact keys_shared. Qed.
Print Assumptions C115_keys_shared.

(** the keys 1 and 2 *)
Example C115_keys_ex : let k := PrivateKey 1 livenet true in let k' := PrivateKey 2 testnet true in valid_key k /\ valid_key k' /\
  pk_from_private_key k = Ok (PublicKey (secp_gx, secp_gy) livenet true) /\ (exists K', pk_from_private_key k' = Ok K' /\ fst (pk_pair K') <> secp_gx) /\
  k_secret k + k_secret k' <> curve_order /\ k_compressed k = true.
Proof.
  split; [split; [split; reflexivity|left; reflexivity]|]. split; [split; [split; reflexivity|right; reflexivity]|]. split; [vm_compute; reflexivity|].
  split; [eexists; split; [vm_compute; reflexivity|discriminate]|]. split; [discriminate|reflexivity].
Qed.

Theorem C115_bip32_compatible : forall d x y compressed chain i child chain', public_point d x y -> ckd_pub x y compressed chain i child chain' ->
  exists s, ckd_priv d x y compressed chain i s chain' /\ 0 <= s < curve_order /\ multiple secp_p 0 (EA secp_gx secp_gy) s child.
Proof. exact child_secret. Qed.
Print Assumptions C115_bip32_compatible.

Theorem C115_hd_child : forall h i a d, public_point d (fst (pk_pair (hp_pubkey h))) (snd (pk_pair (hp_pubkey h))) -> hdpub_derive h i false = Ok a ->
  exists s, ckd_priv d (fst (pk_pair (hp_pubkey h))) (snd (pk_pair (hp_pubkey h))) (pk_compressed (hp_pubkey h)) (hp_chain h) (hp_index h) s (hp_chain a) /\
    public_point s (fst (pk_pair (hp_pubkey a))) (snd (pk_pair (hp_pubkey a))).
Proof. exact hd_child. Qed.
Print Assumptions C115_hd_child.

Example C115_hd_ex : public_point 1 (fst (pk_pair (hp_pubkey hd_G))) (snd (pk_pair (hp_pubkey hd_G))) /\ exists a, hdpub_derive hd_G 5 false = Ok a.
Proof. split; [exact pp_one|]. destruct (hd_G_derives 5) as (a & E & _). exists a. exact E. Qed.

Theorem C116_generated : forall c gx gy n, dsa_group c gx gy n -> 2 * c_p c + 1 < 3 * n -> forall P, on_curve (c_p c) (c_a c) (c_b c) P ->
  exists k, 0 <= k < n /\ multiple (c_p c) (c_a c) (EA gx gy) k P /\ forall k', 0 <= k' < n -> multiple (c_p c) (c_a c) (EA gx gy) k' P -> k' = k.
Proof. exact whole_curve. Qed.
Print Assumptions C116_generated.

Theorem C116_count : forall c gx gy n, dsa_group c gx gy n -> 2 * c_p c + 1 < 3 * n ->
  exists l, NoDup l /\ Z.of_nat (length l) = n /\ forall P, In P l <-> on_curve (c_p c) (c_a c) (c_b c) P.
Proof. exact curve_count. Qed.
Print Assumptions C116_count.

Theorem C116_abscissas : forall c gx gy n, dsa_group c gx gy n -> 2 * c_p c + 1 < 3 * n ->
  exists l, NoDup l /\ 2 * Z.of_nat (length l) + 1 = n /\ forall x, In x l <-> exists y, on_curve (c_p c) (c_a c) (c_b c) (EA x y).
Proof. exact abscissas. Qed.
Print Assumptions C116_abscissas.

Theorem C116_order : forall c gx gy n, dsa_group c gx gy n -> 2 * c_p c + 1 < 3 * n -> forall P, valid c P ->
  (forall x y o, P = PAff x y o -> o = None) -> p_mul c P n = Ok PInf.
Proof. exact every_order. Qed.
Print Assumptions C116_order.

Theorem C116_signatures : forall c gx gy n, dsa_group c gx gy n -> forall x y d val r s,
  public_pair_for_secret c (PAff gx gy (Some n)) d = Ok (Some (x, y)) ->
  (ecdsa_verify c (PAff gx gy (Some n)) (x, y) val (r, s) = Ok true <->
   1 <= r < n /\ exists k r', 0 < k < n /\ ecdsa_sign_k c (PAff gx gy (Some n)) d val k = Ok (r', s) /\ r' mod n = r).
Proof. exact signatures_made. Qed.
Print Assumptions C116_signatures.

Theorem C116_recovers_all : forall c gx gy n, dsa_group c gx gy n -> 2 * c_p c + 1 < 3 * n -> forall x y val r s l,
  on_curve (c_p c) (c_a c) (c_b c) (EA x y) -> ecdsa_verify c (PAff gx gy (Some n)) (x, y) val (r, s) = Ok true ->
  (forall y', ~ on_curve (c_p c) (c_a c) (c_b c) (EA (r + n) y')) -> recover c (PAff gx gy (Some n)) val (r, s) = Ok l -> In (x, y) l.
Proof. exact recover_complete. Qed.
Print Assumptions C116_recovers_all.

(** the curve modulo 43 has 31 points; 21 + 31 is not an abscissa modulo 43 *)
Example C116_ex : dsa_group toy 2 12 31 /\ 2 * c_p toy + 1 < 3 * 31 /\ on_curve 43 0 7 (EA 12 12) /\
  public_pair_for_secret toy (PAff 2 12 (Some 31)) 5 = Ok (Some (12, 12)) /\ p_mul toy (PAff 12 12 None) 31 = Ok PInf /\
  ecdsa_verify toy (PAff 2 12 (Some 31)) (12, 12) (3 * 2 ^ 251) (21, 11) = Ok true /\
  (forall y', ~ on_curve 43 0 7 (EA (21 + 31) y')) /\ (exists l, recover toy (PAff 2 12 (Some 31)) (3 * 2 ^ 251) (21, 11) = Ok l).
Proof.
  split; [exact toy_group|]. split; [reflexivity|]. split; [split; [split; [discriminate|reflexivity]|split; [split; [discriminate|reflexivity]|reflexivity]]|].
  do 3 (split; [vm_compute; reflexivity|]). split; [|eexists; vm_compute; reflexivity]. intros y' ((_ & H) & _). revert H. vm_compute. discriminate.
Qed.

Theorem C116_secp : forall x y, on_curve secp_p 0 7 (EA x y) -> exists d, public_point d x y /\ forall d', public_point d' x y -> d' = d.
Proof. exact secp_whole. Qed.
Print Assumptions C116_secp.

Theorem C116_secp_count : exists l, NoDup l /\ Z.of_nat (length l) = curve_order /\ forall P, In P l <-> on_curve secp_p 0 7 P.
Proof. exact (curve_count secp256k1 secp_gx secp_gy curve_order secp_group secp_big). Qed.
Print Assumptions C116_secp_count.

Theorem C116_key_has_secret : forall x y v compressed K, new_pubkey (x, y) v compressed = Ok K -> 0 <= x < secp_p -> 0 <= y < secp_p ->
  exists d, 0 < d < curve_order /\ forall d', 0 < d' < curve_order -> (pk_from_private_key (PrivateKey d' (pk_network K) compressed) = Ok K <-> d' = d).
Proof. exact key_secret. Qed.
Print Assumptions C116_key_has_secret.

Theorem C116_parsed_key_has_secret : forall b v K x y, pk_from_bytes b v = Ok K -> pk_pair K = (x, y) -> 0 <= x < secp_p -> 0 <= y < secp_p ->
  exists d, 0 < d < curve_order /\ forall d', 0 < d' < curve_order -> (pk_from_private_key (PrivateKey d' (pk_network K) (pk_compressed K)) = Ok K <-> d' = d).
Proof. exact bytes_secret. Qed.
Print Assumptions C116_parsed_key_has_secret.

Theorem C116_every_key_refuted : ~ (forall x y v compressed K, new_pubkey (x, y) v compressed = Ok K ->
  exists d, 0 < d < curve_order /\ pk_from_private_key (PrivateKey d (pk_network K) compressed) = Ok K).
Proof. exact not_every_key. Qed.
Print Assumptions C116_every_key_refuted.

Example C116_keys_ex : on_curve secp_p 0 7 (EA secp_gx secp_gy) /\
  new_pubkey (secp_gx, secp_gy) (VNet testnet) false = Ok (PublicKey (secp_gx, secp_gy) testnet false) /\ 0 <= secp_gx < secp_p /\ 0 <= secp_gy < secp_p /\
  pk_from_bytes (Str sec_G) (VNet testnet) = Ok (PublicKey (secp_gx, secp_gy) testnet false).
Proof.
  split; [exact P_HD.G_on|]. split; [vm_compute; reflexivity|]. split; [split; [discriminate|reflexivity]|]. split; [split; [discriminate|reflexivity]|]. vm_compute. reflexivity.
Qed.
