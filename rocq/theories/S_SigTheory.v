(** Specification: which abscissas a number modulo the order stands for. *)
From Coq Require Import ZArith.
From Verif Require Import S_EC.
Open Scope Z_scope.

(** at most one x coordinate of a point on the curve is [r] modulo [n] *)
Definition one_abscissa (p a b n r : Z) : Prop :=
  forall x y x' y', on_curve p a b (EA x y) -> on_curve p a b (EA x' y') -> x mod n = r -> x' mod n = r -> x = x'.
