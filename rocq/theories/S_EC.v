(** Specifications for number theory, the elliptic curve, public keys and ECDSA. *)
From Coq Require Import ZArith Znumtheory List.
From Verif Require Import Base M_Hash S_Codec M_Keys M_EC.
Open Scope Z_scope.

(** [a] is a square modulo [p] *)
Definition is_square (p a : Z) : Prop := exists x, (x * x) mod p = a mod p.

(** ** points of [y^2 = x^3 + a x + b] over the integers modulo [p] *)
Inductive ecp := EO | EA (x y : Z).

Definition on_curve (p a b : Z) (P : ecp) : Prop :=
  match P with
  | EO => True
  | EA x y => 0 <= x < p /\ 0 <= y < p /\ (y * y) mod p = (x * x * x + a * x + b) mod p
  end.

(** the chord-and-tangent sum, as a relation *)
Inductive is_sum (p a : Z) : ecp -> ecp -> ecp -> Prop :=
| sum_left Q : is_sum p a EO Q Q
| sum_right P : is_sum p a P EO P
| sum_vertical x y y' : (y + y') mod p = 0 -> is_sum p a (EA x y) (EA x y') EO
| sum_tangent x y l x3 y3 : (2 * y) mod p <> 0 -> (l * (2 * y)) mod p = (3 * x * x + a) mod p ->
    x3 = (l * l - x - x) mod p -> y3 = (l * (x - x3) - y) mod p ->
    is_sum p a (EA x y) (EA x y) (EA x3 y3)
| sum_chord x1 y1 x2 y2 l x3 y3 : x1 <> x2 -> (l * (x2 - x1)) mod p = (y2 - y1) mod p ->
    x3 = (l * l - x1 - x2) mod p -> y3 = (l * (x1 - x3) - y1) mod p ->
    is_sum p a (EA x1 y1) (EA x2 y2) (EA x3 y3).

(** [R] is the sum of [n] copies of [P] *)
Inductive multiple (p a : Z) (P : ecp) : Z -> ecp -> Prop :=
| mult_0 : multiple p a P 0 EO
| mult_S n Q R : 0 <= n -> multiple p a P n Q -> is_sum p a Q P R -> multiple p a P (n + 1) R.

(** the point a [Point] object stands for, with its coordinates reduced *)
Definition stands (p : Z) (P : point) : ecp :=
  match P with PInf => EO | PAff x y _ => EA (x mod p) (y mod p) end.
(** the coordinates [Point.__eq__] compares *)
Definition xy (P : point) : option (Z * Z) :=
  match P with PInf => None | PAff x y _ => Some (x, y) end.
(** an object on the curve whose abscissa is reduced (the ordinate may be any integer) *)
Definition valid (c : curve) (P : point) : Prop :=
  match P with
  | PInf => True
  | PAff x y _ => 0 <= x < c_p c /\ (y * y) mod c_p c = (x * x * x + c_a c * x + c_b c) mod c_p c
  end.
(** both coordinates reduced *)
Definition reduced (c : curve) (P : point) : Prop :=
  match P with PInf => True | PAff x y _ => 0 <= x < c_p c /\ 0 <= y < c_p c end.
(** no point with ordinate 0 *)
Definition no_two_torsion (c : curve) : Prop :=
  forall x, (x * x * x + c_a c * x + c_b c) mod c_p c <> 0.
(** no singular point *)
Definition nonsingular (c : curve) : Prop :=
  forall x, (3 * x * x + c_a c) mod c_p c = 0 -> (x * x * x + c_a c * x + c_b c) mod c_p c <> 0.
(** the exponent after the reduction by the declared order, as [Point.__mul__] does *)
Definition exponent (P : point) (e : Z) : Z :=
  match P with PAff _ _ (Some o) => if o =? 0 then e else e mod o | _ => e end.

(** the ECDSA verification equation (SEC 1, 4.1.4): [w] is the inverse of [s], and the
    abscissa of [(e w) G + (r w) Q] is [r] modulo [n] *)
Definition sig_valid (p a n : Z) (G Q : ecp) (e r s : Z) : Prop :=
  1 <= r < n /\ 1 <= s < n /\
  exists w A B x y, (s * w) mod n = 1 /\ multiple p a G ((e * w) mod n) A /\ multiple p a Q ((r * w) mod n) B /\
                    is_sum p a A B (EA x y) /\ x mod n = r.

(** in range, but the sum is the point at infinity *)
Definition sig_infinite (p a n : Z) (G Q : ecp) (e r s : Z) : Prop :=
  1 <= r < n /\ 1 <= s < n /\
  exists w A B, (s * w) mod n = 1 /\ multiple p a G ((e * w) mod n) A /\ multiple p a Q ((r * w) mod n) B /\ is_sum p a A B EO.

(** ** public keys *)

(** a point of secp256k1, coordinates not necessarily reduced *)
Definition secp_on (x y : Z) : Prop := (y * y) mod secp_p = (x * x * x + 7) mod secp_p.

(** SEC 1 serialisation of a point *)
Inductive sec_of (x y : Z) : bool -> bytes -> Prop :=
| sec_uncompressed xs ys : length xs = 32%nat -> length ys = 32%nat -> be_val xs = x -> be_val ys = y ->
    sec_of x y false (x04 :: xs ++ ys)
| sec_even xs : length xs = 32%nat -> be_val xs = x -> Z.Even y -> sec_of x y true (x02 :: xs)
| sec_odd xs : length xs = 32%nat -> be_val xs = x -> Z.Odd y -> sec_of x y true (x03 :: xs).

(** what [from_bytes] makes of a string: a SEC serialisation, anything after it ignored, and
    the coordinates not compared with the field size except that a computed y is reduced *)
Definition sec_reads (b : bytes) (x y : Z) (compressed : bool) : Prop :=
  exists core rest, b = core ++ rest /\ sec_of x y compressed core /\ secp_on x y /\ (compressed = true -> 0 <= y < secp_p).

(** a public key whose serialisation is faithful: on the curve, coordinates that fit, and for
    a compressed key a reduced ordinate *)
Definition usable_pub (k : pubkey) : Prop :=
  let '(x, y) := pk_pair k in
  secp_on x y /\ 0 <= x < 2 ^ 256 /\ (if pk_compressed k then 0 <= y < secp_p else 0 <= y < 2 ^ 256).
(** the same key on livenet, the network every script getter assumes *)
Definition on_livenet (k : pubkey) : pubkey := PublicKey (pk_pair k) livenet (pk_compressed k).
(** HASH160 of the serialisation *)
Definition key_hash (k : pubkey) (h : bytes) : Prop :=
  exists b, sec_of (fst (pk_pair k)) (snd (pk_pair k)) (pk_compressed k) b /\ h = ripemd160 (sha256 b).

(** a prime field, a curve without points of order two over it, and a generator of prime
    order [n]: what the signature theorems need.  [P_DSA.secp_group]: secp256k1 is one. *)
Definition dsa_group (c : curve) (gx gy n : Z) : Prop :=
  prime (c_p c) /\ c_p c <> 2 /\ no_two_torsion c /\ prime n /\ 2 < n /\
  on_curve (c_p c) (c_a c) (c_b c) (EA gx gy) /\ multiple (c_p c) (c_a c) (EA gx gy) n EO.
