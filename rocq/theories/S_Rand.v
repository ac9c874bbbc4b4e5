(** Specifications for random keys. *)
From Coq Require Import ZArith List.
From Verif Require Import Base.
Import ListNotations.
Open Scope Z_scope.

(** Exactly [c] lists of [t] blocks of [m] bytes satisfy [P]. *)
Definition how_many (m t : nat) (P : list bytes -> Prop) (c : nat) : Prop :=
  exists l, NoDup l /\ length l = c /\
    forall bs, In bs l <-> length bs = t /\ Forall (fun b => length b = m) bs /\ P bs.
