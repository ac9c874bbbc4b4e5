(** Specifications for amounts: floats as rationals, the nearest float, truncation. *)
From Coq Require Import ZArith QArith Qabs Qpower SpecFloat.
From Verif Require Import Base M_Unit.
Open Scope Z_scope.

(** a binary64 datum *)
Definition is_float (f : float) : Prop := valid_binary 53 1024 f = true.
(** the number it stands for, if finite *)
Definition fvalue (f : float) : option Q :=
  match f with
  | S754_zero _ => Some 0%Q
  | S754_finite s m e => Some (inject_Z (if s then Zneg m else Zpos m) * Qpower (inject_Z 2) e)%Q
  | _ => None
  end.
(** [f] is a float nearest to [x] *)
Definition nearest (x : Q) (f : float) : Prop :=
  is_float f /\ exists v, fvalue f = Some v /\
    forall g w, is_float g -> fvalue g = Some w -> (Qabs (v - x) <= Qabs (w - x))%Q.
(** [z] is [x] with its fraction cut off *)
Definition cut (x : Q) (z : Z) : Prop :=
  ((0 <= x)%Q /\ (inject_Z z <= x)%Q /\ (x < inject_Z (z + 1))%Q) \/
  ((x <= 0)%Q /\ (x <= inject_Z z)%Q /\ (inject_Z (z - 1) < x)%Q).

(** the three denominations besides the satoshi *)
Inductive denom := Bits | MilliBtc | Btc.
Definition satoshis_per (d : denom) : Z := match d with Bits => 100 | MilliBtc => 100000 | Btc => 100000000 end.
(** [Unit(bits = x)], [Unit(mbtc = x)], [Unit(btc = x)] *)
Definition given (d : denom) (x : num) : res unit_t :=
  match d with
  | Bits => unit_init None (Some x) None None
  | MilliBtc => unit_init None None (Some x) None
  | Btc => unit_init None None None (Some x)
  end.
Definition shown (d : denom) (u : unit_t) : float :=
  match d with Bits => u_bits u | MilliBtc => u_mbtc u | Btc => u_btc u end.
(** integers from here on do not convert to a float *)
Definition too_large (z : Z) : Prop := 2 ^ 1024 - 2 ^ 970 <= Z.abs z.
