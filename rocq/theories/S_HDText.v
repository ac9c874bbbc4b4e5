(** Specification: the fields of BIP 32 one after the other, each number reduced to the bytes it has. *)
From Coq Require Import ZArith List.
From Verif Require Import Base S_Codec.
Open Scope Z_scope.

Definition number_in (k : nat) (v : Z) (b : bytes) : Prop := length b = k /\ be_val b = v mod 256 ^ Z.of_nat k.
Definition hd_fields (version depth parent index : Z) (chain key b : bytes) : Prop :=
  exists v d p i, b = v ++ d ++ p ++ i ++ chain ++ key /\ number_in 4 version v /\ number_in 1 depth d /\ number_in 4 parent p /\ number_in 4 index i.
Definition ascii (b : bytes) : Prop := Forall (fun c => bZ c < 128) b.
