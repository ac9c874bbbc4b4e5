(** Specifications for byte formats that show where they end. *)
From Coq Require Import ZArith List.
From Verif Require Import Base.
Import ListNotations.
Open Scope Z_scope.

(** Of two descriptions of the beginning of the same bytes, both take the same bytes and
    describe the same thing. *)
Definition self_delimiting {A} (R : A -> bytes -> Prop) (same : A -> A -> Prop) : Prop :=
  forall a a' w w' r r', R a w -> R a' w' -> w ++ r = w' ++ r' -> same a a' /\ w = w' /\ r = r'.
