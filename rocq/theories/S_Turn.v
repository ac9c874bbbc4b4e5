(** Specification: the cube roots of one that relate keys with the same ordinate. *)
From Coq Require Import ZArith List.
From Verif Require Import Base M_Keys S_Keys M_EC S_EC.
Import ListNotations.
Open Scope Z_scope.

(** A cube root of 1 modulo the field size, and one modulo the group order. *)
Definition beta : Z := 0x7ae96a2b657c07106e64479eac3434e99cf0497512f58995c1396c28719501ee.
Definition lambda : Z := 0x5363ad4cc05c30e0a5261c028812645a122e22ea20816678df02967c1b23bd72.

(** The three secrets whose public points have one ordinate, and the six up to sign. *)
Definition three (d : Z) : list Z := [d; (lambda * d) mod curve_order; (lambda * lambda * d) mod curve_order].
Definition six (d : Z) : list Z := three d ++ map (fun e => curve_order - e) (three d).
(** One, [lambda] and its square, with both signs. *)
Definition multipliers : list Z := [1; lambda; lambda * lambda; - 1; - lambda; - (lambda * lambda)].
