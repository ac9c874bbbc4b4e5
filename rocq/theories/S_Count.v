(** Specification: how many things of a kind there are. *)
From Coq Require Import ZArith List.
From Verif Require Import Base S_Codec M_Codec M_Script M_Tx S_Tx.
Import ListNotations.
Open Scope Z_scope.

(** exactly [n] things satisfy [P] *)
Definition counted {A} (P : A -> Prop) (n : Z) : Prop :=
  exists l, NoDup l /\ Z.of_nat (length l) = n /\ forall x, In x l <-> P x.
(** at least [n] things satisfy [P] *)
Definition at_least {A} (P : A -> Prop) (n : Z) : Prop :=
  exists l, NoDup l /\ n <= Z.of_nat (length l) /\ Forall P l.

(** [t'] differs from [t] at most in the lock time and in what the first input spends; the id there is in lower case *)
Definition variant (t t' : tx) : Prop :=
  tx_fits t' /\ tx_outputs t' = tx_outputs t /\ tx_version t' = tx_version t /\
  exists i i' l, tx_inputs t = i :: l /\ tx_inputs t' = i' :: l /\ in_class_of i' = in_class_of i /\ in_script i' = in_script i /\ in_seq i' = in_seq i /\
    map lower (in_tx_id i') = in_tx_id i'.
(** the script that pushes [d], of 75 bytes at most *)
Definition push_script (d : bytes) : script := Script None [Instr (Zb (blen d)) (Some (Str d))].
