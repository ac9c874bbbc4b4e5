(** Property theorems C65, C81: amounts. *)
From Coq Require Import ZArith QArith Qabs Qpower SpecFloat.
From Verif Require Import Base M_Unit S_Unit P_Unit.
Open Scope Z_scope.

(** *** C65 *)
Theorem C65_roundtrip : forall s d, Z.abs s < 2 ^ 52 -> exists u u', unit_init (Some (NInt s)) None None None = Ok u /\ given d (NFloat (shown d u)) = Ok u' /\
  (u_satoshis u' = s \/ u_satoshis u' = s - Z.sgn s).
Proof. exact unit_roundtrip. Qed.
Print Assumptions C65_roundtrip.

Theorem C65_roundtrip_exact_refuted : ~ (forall s u u', Z.abs s <= 21 * 10 ^ 14 -> unit_init (Some (NInt s)) None None None = Ok u -> unit_init None None None (Some (NFloat (u_btc u))) = Ok u' -> u_satoshis u' = s).
Proof. exact unit_not_exact. Qed.
Print Assumptions C65_roundtrip_exact_refuted.

Theorem C65_roundtrip_exact_any_refuted : forall d, ~ (forall s u u', Z.abs s <= 21 * 10 ^ 14 -> unit_init (Some (NInt s)) None None None = Ok u -> given d (NFloat (shown d u)) = Ok u' -> u_satoshis u' = s).
Proof. exact unit_not_exact_any. Qed.
Print Assumptions C65_roundtrip_exact_any_refuted.

Theorem C65_whole_units_exact : forall z d, Z.abs (z * satoshis_per d) <= 2 ^ 53 ->
  exists u u', unit_init (Some (NInt (z * satoshis_per d))) None None None = Ok u /\ given d (NFloat (shown d u)) = Ok u' /\ u_satoshis u' = z * satoshis_per d.
Proof. exact whole_back. Qed.
Print Assumptions C65_whole_units_exact.

Theorem C65_whole_units_in : forall z d, Z.abs (z * satoshis_per d) <= 2 ^ 53 ->
  exists u, given d (NInt z) = Ok u /\ u_satoshis u = z * satoshis_per d.
Proof. exact whole_exact. Qed.
Print Assumptions C65_whole_units_in.

Theorem C65_fields : forall s u, unit_init (Some (NInt s)) None None None = Ok u -> u_satoshis u = s /\ 
  (Z.abs s <= 2 ^ 53 -> forall d, nearest (s # Z.to_pos (satoshis_per d)) (shown d u)).
Proof. exact unit_fields. Qed.
Print Assumptions C65_fields.

Theorem C65_injective : forall s t d u v, Z.abs s < 2 ^ 51 -> Z.abs t < 2 ^ 51 ->
  unit_init (Some (NInt s)) None None None = Ok u -> unit_init (Some (NInt t)) None None None = Ok v -> fvalue (shown d u) = fvalue (shown d v) -> s = t.
Proof. exact unit_injective. Qed.
Print Assumptions C65_injective.

Theorem C65_monotone : forall s t d u v q r, s <= t -> unit_init (Some (NInt s)) None None None = Ok u -> unit_init (Some (NInt t)) None None None = Ok v ->
  fvalue (shown d u) = Some q -> fvalue (shown d v) = Some r -> (q <= r)%Q.
Proof. exact unit_monotone. Qed.
Print Assumptions C65_monotone.

Theorem C65_shown : forall s d u, unit_init (Some (NInt s)) None None None = Ok u -> is_float (shown d u) /\ exists q, fvalue (shown d u) = Some q.
Proof. exact unit_always_shown. Qed.
Print Assumptions C65_shown.

Theorem C65_integer : forall s b m c, (~ too_large s -> exists u, unit_init (Some (NInt s)) b m c = Ok u /\ u_satoshis u = s) /\
  (too_large s -> unit_init (Some (NInt s)) b m c = Err E_OverflowError).
Proof. exact unit_init_int. Qed.
Print Assumptions C65_integer.

Theorem C65_float_satoshis : forall f u, unit_init (Some (NFloat f)) None None None = Ok u -> exists q, fvalue f = Some q /\ cut q (u_satoshis u).
Proof. exact unit_float. Qed.
Print Assumptions C65_float_satoshis.

Theorem C65_float : forall d f u, is_float f -> given d (NFloat f) = Ok u -> exists q g w, fvalue f = Some q /\
  nearest (q * inject_Z (satoshis_per d)) g /\ fvalue g = Some w /\ cut w (u_satoshis u).
Proof. exact given_float. Qed.
Print Assumptions C65_float.

Theorem C65_errors : forall d x e, match x with NFloat f => is_float f | NInt _ => True end -> given d x = Err e ->
  e = E_OverflowError \/ (e = E_ValueError /\ x = NFloat S754_nan).
Proof. exact given_err. Qed.
Print Assumptions C65_errors.

Theorem C65_satoshis_errors : forall x e, set_values x = Err e -> match x with
  | NFloat S754_nan => e = E_ValueError
  | NFloat (S754_infinity _) => e = E_OverflowError
  | NFloat f => is_float f -> False
  | NInt z => too_large z /\ e = E_OverflowError
  end.
Proof. exact set_values_err. Qed.
Print Assumptions C65_satoshis_errors.

Theorem C65_nothing : unit_init None None None None = Err E_ValueError.
Proof. exact unit_nothing. Qed.
Print Assumptions C65_nothing.

Theorem C65_first_argument_wins : forall x b m c, unit_init (Some x) b m c = unit_init (Some x) None None None /\ unit_init None (Some x) m c = given Bits x /\
  unit_init None None (Some x) c = given MilliBtc x.
Proof. exact unit_first_wins. Qed.
Print Assumptions C65_first_argument_wins.

(** one hundred million satoshis and three *)
Example C65_ex : (exists u, unit_init (Some (NInt 100000003)) None None None = Ok u /\ nearest (100000003 # 100000000) (u_btc u) /\
    given Btc (NFloat (u_btc u)) = Ok u) /\
  (exists u, given Btc (NInt 21000000) = Ok u /\ u_satoshis u = 2100000000000000) /\
  (exists u, unit_init (Some (NFloat (S754_finite true 5 (-1)))) None None None = Ok u /\ u_satoshis u = -2) /\
  given Btc (NFloat S754_nan) = Err E_ValueError /\ given Btc (NFloat (S754_infinity false)) = Err E_OverflowError /\
  given Btc (NInt (10 ^ 400)) = Err E_OverflowError.
Proof.
  split.
  - destruct (C65_integer 100000003 None None None) as (E & _). destruct E as (u & E & _); [intros K; vm_compute in K; congruence|]. exists u. split; [exact E|].
    split; [apply (proj2 (C65_fields _ _ E)) with (d := Btc); vm_compute; congruence|]. vm_compute in E. injection E as <-. vm_compute. reflexivity.
  - split; [eexists; split; vm_compute; reflexivity|]. split; [eexists; split; vm_compute; reflexivity|]. repeat split; vm_compute; reflexivity.
Qed.

(** *** C81 *)
Theorem C81_fiat_roundtrip : forall s r w, Z.abs s <= 21 * 10 ^ 14 -> is_float r -> fvalue r = Some w -> (Qpower 2 (-64) <= Qabs w)%Q -> (Qabs w <= Qpower 2 64)%Q ->
  exists u x u', unit_init (Some (NInt s)) None None None = Ok u /\ at_rate u (NFloat r) = Ok x /\ from_fiat (NFloat x) (NFloat r) = Ok u' /\
    (u_satoshis u' = s \/ u_satoshis u' = s - Z.sgn s).
Proof. exact fiat_back. Qed.
Print Assumptions C81_fiat_roundtrip.

Theorem C81_fiat_exact_refuted : ~ (forall s r u x u', 0 <= s <= 21 * 10 ^ 14 -> unit_init (Some (NInt s)) None None None = Ok u ->
  at_rate u (NInt r) = Ok x -> from_fiat (NFloat x) (NInt r) = Ok u' -> u_satoshis u' = s).
Proof. exact fiat_not_exact. Qed.
Print Assumptions C81_fiat_exact_refuted.

Theorem C81_zero_rate : forall v s, match v with NInt z => ~ too_large z | _ => True end -> from_fiat v (NFloat (S754_zero s)) = Err E_ZeroDivisionError /\ from_fiat v (NInt 0) = Err E_ZeroDivisionError.
Proof. exact fiat_zero_rate. Qed.
Print Assumptions C81_zero_rate.

(** 1.3 bitcoin at a rate of 350.5 *)
Example C81_ex : let r := S754_finite false 6167344115318784 (-44) in is_float r /\ fvalue r <> None /\
  exists u x u', unit_init (Some (NInt 130000000)) None None None = Ok u /\ at_rate u (NFloat r) = Ok x /\ from_fiat (NFloat x) (NFloat r) = Ok u' /\ u_satoshis u' = 130000000.
Proof. split; [vm_compute; reflexivity|]. split; [vm_compute; discriminate|]. do 3 eexists. split; [vm_compute; reflexivity|]. split; [vm_compute; reflexivity|]. split; vm_compute; reflexivity. Qed.
