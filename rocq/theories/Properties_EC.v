(** Property theorems C22-C26, C73, C74, C76, C77: number theory, curve arithmetic, ECDSA. *)
From Coq Require Import ZArith Znumtheory List.
From Verif Require Import Base M_Hash M_Keys M_EC S_EC P_NumTheory P_EC P_ECProps P_Prime P_SecpPrime P_SecpOrder P_ECDSA P_DSA.
Import ListNotations.
Open Scope Z_scope.

(** *** C22 *)
Theorem C22_inverse_mod : forall a m, 
  1 < m ->
  (Z.gcd a m = 1 -> exists r, inverse_mod a m = Ok r /\ 0 < r < m /\ (a * r) mod m = 1) /\
  (Z.gcd a m <> 1 -> inverse_mod a m = Err E_AssertionError).
Proof. exact inverse_mod_spec. Qed.
Print Assumptions C22_inverse_mod.

Example C22_ex : inverse_mod (-3) 43 = Ok 14 /\ Z.gcd (-3) 43 = 1 /\ inverse_mod 6 9 = Err E_AssertionError /\ Z.gcd 6 9 <> 1.
Proof. cbn [valid reduced on_curve]; repeat match goal with |- _ /\ _ => split end; vm_compute; (reflexivity || discriminate). Qed.

(** *** C23 *)
Theorem C23_root_is_root : forall p a r, 
  0 < p -> p mod 4 = 3 -> modular_sqrt a p = Ok r -> r <> 0 -> (r * r) mod p = a mod p.
Proof. exact sqrt_sound. Qed.
Print Assumptions C23_root_is_root.

Theorem C23_legendre : forall p a, 
  prime p -> p <> 2 ->
  (a mod p = 0 /\ legendre_symbol a p = 0) \/
  (a mod p <> 0 /\ is_square p a /\ legendre_symbol a p = 1) \/
  (a mod p <> 0 /\ ~ is_square p a /\ legendre_symbol a p = -1).
Proof. exact legendre_spec. Qed.
Print Assumptions C23_legendre.

Theorem C23_sound_and_complete : forall p a, 
  prime p -> p <> 2 -> exists r, modular_sqrt a p = Ok r /\ 0 <= r < p /\
  (r <> 0 <-> a mod p <> 0 /\ is_square p a) /\ (r <> 0 -> (r * r) mod p = a mod p).
Proof. exact sqrt_complete. Qed.
Print Assumptions C23_sound_and_complete.

Theorem C23_two_refuted : ~ (forall a, exists r, modular_sqrt a 2 = Ok r /\ (r <> 0 <-> a mod 2 <> 0 /\ is_square 2 a)).
Proof. exact sqrt_two_incomplete. Qed.
Print Assumptions C23_two_refuted.

Example C23_ex : prime 43 /\ 43 mod 4 = 3 /\ modular_sqrt 13 43 = Ok 23 /\ (23 * 23) mod 43 = 13 /\ modular_sqrt 2 43 = Ok 0
  /\ prime 41 /\ modular_sqrt 5 41 = Ok 28 /\ (28 * 28) mod 41 = 5 /\ legendre_symbol 3 41 = -1.
Proof.
  split; [apply (trial_prime 10); vm_compute; reflexivity|]. do 4 (split; [vm_compute; reflexivity|]).
  split; [apply (trial_prime 10); vm_compute; reflexivity|]. cbn [valid reduced on_curve]; repeat match goal with |- _ /\ _ => split end; vm_compute; reflexivity.
Qed.

(** *** C24 *)
Theorem C24_add : forall (c : curve) (PRIME : prime (c_p c)) (ODD : c_p c <> 2) P Q,
  valid c P -> valid c Q ->
  exists R, p_add c P Q = Ok R /\ valid c R /\ is_sum (c_p c) (c_a c) (stands (c_p c) P) (stands (c_p c) Q) (stands (c_p c) R) /\
            (P <> PInf -> Q <> PInf -> reduced c R).
Proof. exact add_spec. Qed.
Print Assumptions C24_add.

Theorem C24_double : forall (c : curve) (PRIME : prime (c_p c)) (ODD : c_p c <> 2) P,
  valid c P -> (forall x y o, P = PAff x y o -> y mod (c_p c) <> 0) ->
  exists R, p_double c P = Ok R /\ valid c R /\ is_sum (c_p c) (c_a c) (stands (c_p c) P) (stands (c_p c) P) (stands (c_p c) R) /\ reduced c R.
Proof. exact double_spec. Qed.
Print Assumptions C24_double.

Theorem C24_double_two_torsion : forall (c : curve) (PRIME : prime (c_p c)) (ODD : c_p c <> 2) x y o,
  y mod (c_p c) = 0 -> p_double c (PAff x y o) = Err E_AssertionError.
Proof. exact double_fail. Qed.
Print Assumptions C24_double_two_torsion.

Theorem C24_add_unreduced : forall (c : curve) (PRIME : prime (c_p c)) (ODD : c_p c <> 2) x1 y1 o1 x2 y2 o2,
  x1 <> x2 -> x1 mod (c_p c) = x2 mod (c_p c) ->
  p_add c (PAff x1 y1 o1) (PAff x2 y2 o2) = Err E_AssertionError.
Proof. exact add_unreduced. Qed.
Print Assumptions C24_add_unreduced.

Theorem C24_constructor : forall c x y o, new_point c x y o =
  (if (y * y) mod c_p c =? (x * x * x + c_a c * x + c_b c) mod c_p c then Ok (PAff x y o) else Err E_NoSuchPoint).
Proof. exact new_point_any. Qed.
Print Assumptions C24_constructor.

Theorem C24_order_assertion_vacuous : forall c x y o, 0 < o -> p_mul c (PAff x y (Some o)) o = Ok PInf.
Proof. exact order_assertion_vacuous. Qed.
Print Assumptions C24_order_assertion_vacuous.

Theorem C24_secp : prime (c_p secp256k1) /\ c_p secp256k1 <> 2 /\ no_two_torsion secp256k1 /\ nonsingular secp256k1.
Proof. exact secp_curve. Qed.
Print Assumptions C24_secp.

Example C24_ex : valid toy (PAff 2 12 None) /\ valid toy (PAff 12 (-12) None) /\
  p_add toy (PAff 2 12 None) (PAff 12 (-12) None) = Ok (PAff 21 25 None) /\ p_double toy (PAff 2 12 None) = Ok (PAff 7 7 None) /\
  p_double (Curve 43 0 8) (PAff (-2) 43 None) = Err E_AssertionError /\ p_add toy (PAff 2 12 None) (PAff 45 12 None) = Err E_AssertionError.
Proof. cbn [valid reduced on_curve]; repeat match goal with |- _ /\ _ => split end; try (vm_compute; (reflexivity || discriminate)). Qed.

(** *** C25 *)
Theorem C25_repeated_addition : forall (c : curve) (PRIME : prime (c_p c)) (ODD : c_p c <> 2) P e,
  no_two_torsion c -> valid c P -> 0 <= exponent P e ->
  exists R, p_mul c P e = Ok R /\ valid c R /\ multiple (c_p c) (c_a c) (stands (c_p c) P) (exponent P e) (stands (c_p c) R).
Proof. exact mul_spec. Qed.
Print Assumptions C25_repeated_addition.

Theorem C25_sum_is_unique : forall (c : curve) (PRIME : prime (c_p c)) (ODD : c_p c <> 2) P n R R', valid c P ->
  multiple (c_p c) (c_a c) (stands (c_p c) P) n R -> multiple (c_p c) (c_a c) (stands (c_p c) P) n R' -> R = R'.
Proof. exact multiple_fun. Qed.
Print Assumptions C25_sum_is_unique.

Theorem C25_negative_scalar : forall c x y e, e < 0 -> p_mul c (PAff x y None) e = Err E_AssertionError.
Proof. exact mul_negative. Qed.
Print Assumptions C25_negative_scalar.

Theorem C25_generator : forall c gx gy n, dsa_group c gx gy n -> forall e,
  exists R, p_mul c (PAff gx gy (Some n)) e = Ok R /\ valid c R /\ reduced c R /\
  multiple (c_p c) (c_a c) (EA gx gy) (e mod n) (stands (c_p c) R) /\ (R = PInf <-> e mod n = 0).
Proof. exact dg_mul. Qed.
Print Assumptions C25_generator.

Theorem C25_generator_injective : forall c gx gy n, dsa_group c gx gy n -> forall e f R S,
  p_mul c (PAff gx gy (Some n)) e = Ok R -> p_mul c (PAff gx gy (Some n)) f = Ok S -> xy R = xy S -> e mod n = f mod n.
Proof. exact dg_mul_inj. Qed.
Print Assumptions C25_generator_injective.

Example C25_ex : valid toy (PAff 2 12 None) /\ p_mul toy (PAff 2 12 None) 5 = Ok (PAff 12 12 None) /\
  p_mul toy (PAff 2 12 (Some 31)) (-26) = Ok (PAff 12 12 None) /\ p_mul toy (PAff 2 12 None) 31 = Ok PInf /\ dsa_group toy 2 12 31.
Proof. split; [split; [split; vm_compute; congruence|reflexivity]|]. do 3 (split; [vm_compute; reflexivity|]). exact toy_group. Qed.

(** *** C26 *)
Theorem C26_verify_accepts_sign : forall c gx gy n, dsa_group c gx gy n -> forall fuel secret val r s,
  ecdsa_sign fuel c (PAff gx gy (Some n)) secret val = Ok (r, s) -> secret mod n <> 0 -> r < n ->
  exists x y, public_pair_for_secret c (PAff gx gy (Some n)) secret = Ok (Some (x, y)) /\ ecdsa_verify c (PAff gx gy (Some n)) (x, y) val (r, s) = Ok true.
Proof. exact dg_verify_sign. Qed.
Print Assumptions C26_verify_accepts_sign.

Theorem C26_verify_accepts_any_nonce : forall c gx gy n, dsa_group c gx gy n -> forall secret val k r s,
  ecdsa_sign_k c (PAff gx gy (Some n)) secret val k = Ok (r, s) -> secret mod n <> 0 -> r < n ->
  exists x y, public_pair_for_secret c (PAff gx gy (Some n)) secret = Ok (Some (x, y)) /\ ecdsa_verify c (PAff gx gy (Some n)) (x, y) val (r, s) = Ok true.
Proof. exact dg_verify_sign_k. Qed.
Print Assumptions C26_verify_accepts_any_nonce.

Theorem C26_secp_verify_accepts_sign : forall fuel secret val r s,
  ecdsa_sign fuel secp256k1 secp_G secret val = Ok (r, s) -> secret mod key_max <> 0 -> r < key_max ->
  exists x y, public_pair_for_secret secp256k1 secp_G secret = Ok (Some (x, y)) /\ ecdsa_verify secp256k1 secp_G (x, y) val (r, s) = Ok true.
Proof. exact (dg_verify_sign secp256k1 secp_gx secp_gy key_max secp_group). Qed.
Print Assumptions C26_secp_verify_accepts_sign.

Theorem C26_secp_sign_outcome : forall secret val k, 
  1 <= k < key_max -> exists r y, multiple secp_p 0 (EA secp_gx secp_gy) k (EA r y) /\ 1 <= r < secp_p /\
  (((val + secret * r) mod key_max <> 0 /\ exists s, ecdsa_sign_k secp256k1 secp_G secret val k = Ok (r, s) /\ 1 <= s < key_max /\ (s * k) mod key_max = (val + secret * r) mod key_max) \/
   ((val + secret * r) mod key_max = 0 /\ ecdsa_sign_k secp256k1 secp_G secret val k = Err E_RuntimeError)).
Proof. exact secp_sign. Qed.
Print Assumptions C26_secp_sign_outcome.

Theorem C26_sign_total : forall c gx gy n, dsa_group c gx gy n -> forall secret val k,
  1 <= k < n ->
  (exists r s, ecdsa_sign_k c (PAff gx gy (Some n)) secret val k = Ok (r, s) /\ 1 <= r < (c_p c) /\ 1 <= s < n) \/ ecdsa_sign_k c (PAff gx gy (Some n)) secret val k = Err E_RuntimeError.
Proof. exact dg_sign_total. Qed.
Print Assumptions C26_sign_total.

Theorem C26_nonce_zero : forall c gx gy n, dsa_group c gx gy n -> forall secret val k, k mod n = 0 ->
  ecdsa_sign_k c (PAff gx gy (Some n)) secret val k = Err E_AssertionError.
Proof. exact dg_sign_zero. Qed.
Print Assumptions C26_nonce_zero.

Example C26_nonce_zero_ex : dsa_group toy 2 12 31 /\ 62 mod 31 = 0 /\ ecdsa_sign_k toy (PAff 2 12 (Some 31)) 5 9 62 = Err E_AssertionError.
Proof. split; [exact toy_group|]. split; vm_compute; reflexivity. Qed.

Theorem C26_sign_values : forall c gx gy n, dsa_group c gx gy n -> forall secret val k r s,
  1 <= k < n -> ecdsa_sign_k c (PAff gx gy (Some n)) secret val k = Ok (r, s) ->
  exists y, multiple (c_p c) (c_a c) (EA gx gy) k (EA r y) /\ (s * k) mod n = (val + secret * r) mod n.
Proof. exact dg_sign_values. Qed.
Print Assumptions C26_sign_values.

Theorem C26_nonce_range : forall fuel n secret val k, deterministic_generate_k fuel n secret val = Some k -> 1 <= k < n.
Proof. exact generate_k_range. Qed.
Print Assumptions C26_nonce_range.

Theorem C26_unreduced_r_refuted : ~ (forall c gx gy n, dsa_group c gx gy n -> forall fuel secret val r s x y,
  1 <= secret < n -> ecdsa_sign fuel c (PAff gx gy (Some n)) secret val = Ok (r, s) ->
  public_pair_for_secret c (PAff gx gy (Some n)) secret = Ok (Some (x, y)) ->
  ecdsa_verify c (PAff gx gy (Some n)) (x, y) val (r, s) = Ok true).
Proof. exact large_r_rejected. Qed.
Print Assumptions C26_unreduced_r_refuted.

Example C26_ex : dsa_group toy 2 12 31 /\ ecdsa_sign 2 toy (PAff 2 12 (Some 31)) 5 (3 * 2 ^ 251) = Ok (21, 11) /\ 5 mod 31 <> 0 /\ 21 < 31 /\
  public_pair_for_secret toy (PAff 2 12 (Some 31)) 5 = Ok (Some (12, 12)) /\
  ecdsa_verify toy (PAff 2 12 (Some 31)) (12, 12) (3 * 2 ^ 251) (21, 11) = Ok true.
Proof. split; [exact toy_group|]. cbn [valid reduced on_curve]; repeat match goal with |- _ /\ _ => split end; vm_compute; (reflexivity || discriminate). Qed.

(** *** C73 *)
Theorem C73_commutative : forall (c : curve) (PRIME : prime (c_p c)) (ODD : c_p c <> 2) P Q,
  valid c P -> valid c Q -> reduced c P -> reduced c Q ->
  exists R S, p_add c P Q = Ok R /\ p_add c Q P = Ok S /\ xy R = xy S.
Proof. exact add_comm. Qed.
Print Assumptions C73_commutative.

Theorem C73_associative : forall (c : curve) (PRIME : prime (c_p c)) (ODD : c_p c <> 2) P Q R,
  nonsingular c -> valid c P -> valid c Q -> valid c R -> reduced c P -> reduced c Q -> reduced c R ->
  exists PQ QR S T, p_add c P Q = Ok PQ /\ p_add c PQ R = Ok S /\ p_add c Q R = Ok QR /\ p_add c P QR = Ok T /\ xy S = xy T.
Proof. exact add_assoc. Qed.
Print Assumptions C73_associative.

Theorem C73_neutral : forall c P, p_add c P PInf = Ok P /\ p_add c PInf P = Ok P.
Proof. exact add_inf. Qed.
Print Assumptions C73_neutral.

Theorem C73_inverse : forall c x y o o', p_add c (PAff x y o) (PAff x (- y) o') = Ok PInf.
Proof. exact add_neg. Qed.
Print Assumptions C73_inverse.

Theorem C73_scalars_add : forall (c : curve) (PRIME : prime (c_p c)) (ODD : c_p c <> 2) x y e f,
  no_two_torsion c -> valid c (PAff x y None) -> reduced c (PAff x y None) -> 0 <= e -> 0 <= f ->
  exists A B C D, p_mul c (PAff x y None) e = Ok A /\ p_mul c (PAff x y None) f = Ok B /\ p_add c A B = Ok C /\
    p_mul c (PAff x y None) (e + f) = Ok D /\ stands (c_p c) C = stands (c_p c) D.
Proof. exact mul_plus. Qed.
Print Assumptions C73_scalars_add.

Example C73_ex : nonsingular toy /\ valid toy (PAff 2 12 None) /\ reduced toy (PAff 2 12 None) /\ valid toy (PAff 7 36 None) /\
  p_add toy (PAff 2 12 None) (PAff 7 36 None) = Ok (PAff 2 31 None) /\ p_add toy (PAff 7 36 None) (PAff 2 12 None) = Ok (PAff 2 31 None).
Proof.
  split; [exact (no_two_nonsing toy (proj1 (proj2 (proj2 toy_group))))|].
  cbn [valid reduced on_curve]; repeat match goal with |- _ /\ _ => split end; vm_compute; (reflexivity || discriminate || congruence).
Qed.

(** *** C74 *)
Theorem C74_field_prime : prime secp_p.
Proof. exact secp_p_prime. Qed.
Print Assumptions C74_field_prime.

Theorem C74_order_prime : prime key_max.
Proof. exact key_max_prime. Qed.
Print Assumptions C74_order_prime.

Theorem C74_secp_group : dsa_group secp256k1 secp_gx secp_gy key_max.
Proof. exact secp_group. Qed.
Print Assumptions C74_secp_group.

Theorem C74_order : forall k R, multiple secp_p 0 (EA secp_gx secp_gy) k R -> (R = EO <-> k mod key_max = 0).
Proof. exact (dg_order_spec secp256k1 secp_gx secp_gy key_max secp_group). Qed.
Print Assumptions C74_order.

Theorem C74_no_zero_abscissa : forall x y, secp_on x y -> x mod secp_p <> 0.
Proof. exact secp_x_nonzero. Qed.
Print Assumptions C74_no_zero_abscissa.

Theorem C74_no_zero_ordinate : forall x y, secp_on x y -> y mod secp_p <> 0.
Proof. exact secp_y_nonzero. Qed.
Print Assumptions C74_no_zero_ordinate.

Example C74_ex : secp_on secp_gx secp_gy /\ p_mul secp256k1 secp_G key_max = Ok PInf
  /\ p_mul secp256k1 secp_G 2 = Ok (PAff 0xc6047f9441ed7d6d3045406e95c07cd85c778e4b8cef3ca7abac09b95c709ee5
                                         0x1ae168fea63dc339a3c58419466ceaeef7f632653266d0e1236431a950cfe52a None).
Proof. cbn [valid reduced on_curve]; repeat match goal with |- _ /\ _ => split end; vm_compute; reflexivity. Qed.

(** *** C76 *)
Theorem C76_recovers_signer : forall c gx gy n, dsa_group c gx gy n -> forall fuel secret val r s x y,
  ecdsa_sign fuel c (PAff gx gy (Some n)) secret val = Ok (r, s) -> r < n ->
  public_pair_for_secret c (PAff gx gy (Some n)) secret = Ok (Some (x, y)) ->
  ((2 * val + secret * r) mod n <> 0 -> exists l, recover c (PAff gx gy (Some n)) val (r, s) = Ok l /\ In (x, y) l) /\
  ((2 * val + secret * r) mod n = 0 -> recover c (PAff gx gy (Some n)) val (r, s) = Err E_TypeError).
Proof. exact dg_recover_sign. Qed.
Print Assumptions C76_recovers_signer.

Theorem C76_recovered_keys_verify : forall c gx gy n val r s l x y, recover c (PAff gx gy (Some n)) val (r, s) = Ok l -> In (x, y) l ->
  ecdsa_verify c (PAff gx gy (Some n)) (x, y) val (r, s) = Ok true.
Proof. exact recover_sound. Qed.
Print Assumptions C76_recovered_keys_verify.

Theorem C76_not_an_abscissa : forall c gx gy n, dsa_group c gx gy n -> forall val r s,
  Z.gcd r n = 1 -> ~ is_square (c_p c) (r * r * r + c_a c * r + c_b c) -> recover c (PAff gx gy (Some n)) val (r, s) = Err E_NoSuchPoint.
Proof. exact dg_recover_off_curve. Qed.
Print Assumptions C76_not_an_abscissa.

Example C76_ex : dsa_group toy 2 12 31 /\ ecdsa_sign 2 toy (PAff 2 12 (Some 31)) 5 (3 * 2 ^ 251) = Ok (21, 11) /\
  (2 * (3 * 2 ^ 251) + 5 * 21) mod 31 <> 0 /\ recover toy (PAff 2 12 (Some 31)) (3 * 2 ^ 251) (21, 11) = Ok [(12, 12); (42, 36)] /\
  recover toy (PAff 2 12 (Some 31)) 3 (1, 11) = Err E_NoSuchPoint.
Proof. split; [exact toy_group|]. cbn [valid reduced on_curve]; repeat match goal with |- _ /\ _ => split end; vm_compute; (reflexivity || discriminate). Qed.

(** *** C77 *)
Theorem C77_verify_is_ecdsa : forall c gx gy n, dsa_group c gx gy n -> forall x y val r s,
  on_curve (c_p c) (c_a c) (c_b c) (EA x y) ->
  (ecdsa_verify c (PAff gx gy (Some n)) (x, y) val (r, s) = Ok true <-> sig_valid (c_p c) (c_a c) n (EA gx gy) (EA x y) val r s).
Proof. exact dg_verify_spec. Qed.
Print Assumptions C77_verify_is_ecdsa.

Theorem C77_out_of_range : forall c gx gy n pair val r s, ~ (1 <= r < n /\ 1 <= s < n) -> ecdsa_verify c (PAff gx gy (Some n)) pair val (r, s) = Ok false.
Proof. exact verify_range. Qed.
Print Assumptions C77_out_of_range.

Theorem C77_raises_exactly : forall c gx gy n, dsa_group c gx gy n -> forall x y val r s,
  on_curve (c_p c) (c_a c) (c_b c) (EA x y) ->
  (ecdsa_verify c (PAff gx gy (Some n)) (x, y) val (r, s) = Err E_TypeError <-> sig_infinite (c_p c) (c_a c) n (EA gx gy) (EA x y) val r s).
Proof. exact dg_verify_raises. Qed.
Print Assumptions C77_raises_exactly.

Theorem C77_outcomes : forall c gx gy n, dsa_group c gx gy n -> forall x y val r s,
  on_curve (c_p c) (c_a c) (c_b c) (EA x y) ->
  (exists b, ecdsa_verify c (PAff gx gy (Some n)) (x, y) val (r, s) = Ok b) \/ ecdsa_verify c (PAff gx gy (Some n)) (x, y) val (r, s) = Err E_TypeError.
Proof. exact dg_verify_total. Qed.
Print Assumptions C77_outcomes.

Theorem C77_infinity_raises : forall c gx gy n, dsa_group c gx gy n -> forall secret x y val r s,
  public_pair_for_secret c (PAff gx gy (Some n)) secret = Ok (Some (x, y)) ->
  1 <= r < n -> 1 <= s < n -> (val + r * secret) mod n = 0 -> ecdsa_verify c (PAff gx gy (Some n)) (x, y) val (r, s) = Err E_TypeError.
Proof. exact dg_verify_infinity. Qed.
Print Assumptions C77_infinity_raises.

Theorem C77_off_curve_raises : forall c gx gy n, dsa_group c gx gy n -> forall x y val r s,
  1 <= r < n -> 1 <= s < n -> (y * y) mod (c_p c) <> (x * x * x + c_a c * x + c_b c) mod (c_p c) ->
  ecdsa_verify c (PAff gx gy (Some n)) (x, y) val (r, s) = Err E_NoSuchPoint.
Proof. exact dg_verify_off_curve. Qed.
Print Assumptions C77_off_curve_raises.

Theorem C77_boolean_refuted : ~ (forall x y val r s, on_curve secp_p 0 7 (EA x y) -> exists b, ecdsa_verify secp256k1 secp_G (x, y) val (r, s) = Ok b).
Proof. exact verify_not_boolean. Qed.
Print Assumptions C77_boolean_refuted.

Example C77_ex : on_curve 43 0 7 (EA 12 12) /\ ecdsa_verify toy (PAff 2 12 (Some 31)) (12, 12) 3 (21, 11) = Ok false /\
  ecdsa_verify toy (PAff 2 12 (Some 31)) (12, 12) 3 (34, 11) = Ok false /\
  public_pair_for_secret toy (PAff 2 12 (Some 31)) 5 = Ok (Some (12, 12)) /\ (26 + 1 * 5) mod 31 = 0 /\
  ecdsa_verify toy (PAff 2 12 (Some 31)) (12, 12) 26 (1, 7) = Err E_TypeError /\
  ecdsa_verify toy (PAff 2 12 (Some 31)) (12, 13) 26 (1, 7) = Err E_NoSuchPoint.
Proof. cbn [valid reduced on_curve]; repeat match goal with |- _ /\ _ => split end; vm_compute; (reflexivity || discriminate || congruence). Qed.
