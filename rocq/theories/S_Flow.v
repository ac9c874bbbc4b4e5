(** Specifications for the example programs: the bytes of a transaction with one input and one
    output to a key hash. *)
From Coq Require Import ZArith List.
From Verif Require Import Base S_Codec S_Tx.
Import ListNotations.
Open Scope Z_scope.

(** DUP HASH160 <hash> EQUALVERIFY CHECKSIG *)
Definition pay_to_hash (h : bytes) : bytes := [x76; xa9; x14] ++ h ++ [x88; xac].

(** Version 1; one input: the id as 32 bytes (back to front), the index, a script of less than 253
    bytes, the last sequence number; one output: the amount, a payment to [h]; lock time 0. *)
Definition one_to_one (id : bytes) (index : Z) (script : bytes) (amount : Z) (h w : bytes) : Prop :=
  exists ib lb ab, field 4 index ib /\ bZ lb = blen script /\ blen script < 253 /\ field 8 amount ab /\
    w = [x01; x00; x00; x00] ++ [x01] ++ rev id ++ ib ++ [lb] ++ script ++ [xff; xff; xff; xff] ++
        [x01] ++ ab ++ [x19] ++ pay_to_hash h ++ [x00; x00; x00; x00].

(** A signature and a key, each pushed by its length. *)
Definition sig_and_key (sg kb w : bytes) : Prop :=
  exists a b, bZ a = blen sg /\ bZ b = blen kb /\ 1 <= blen sg <= 75 /\ 1 <= blen kb <= 75 /\ w = a :: sg ++ b :: kb.
