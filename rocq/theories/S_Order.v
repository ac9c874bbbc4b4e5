(** Amounts and rates as numbers: what a caller means by the int or float passed in. *)
From Coq Require Import ZArith QArith.
From Verif Require Import Base M_Unit S_Unit.
Open Scope Z_scope.

(** [x] is a Python number whose value is [q]. *)
Inductive amount : num -> Q -> Prop :=
  | Amount_int z q : (inject_Z z == q)%Q -> amount (NInt z) q
  | Amount_float f v q : is_float f -> fvalue f = Some v -> (v == q)%Q -> amount (NFloat f) q.
