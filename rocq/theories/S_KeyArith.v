(** Specification: private child keys of BIP 32. *)
From Coq Require Import ZArith List.
From Verif Require Import Base S_Keys S_EC S_HD.
Open Scope Z_scope.

(** CKDpriv of BIP 32, not hardened, for the secret with the public point [(x, y)]: the child's
    secret is [parse256(IL) + secret] modulo the order, [chain'] is [IR].  As in [ckd_pub], the
    requirement IL < n is not part of this relation, and the child may be 0. *)
Definition ckd_priv (secret x y : Z) (compressed : bool) (chain : bytes) (i : Z) (child : Z) (chain' : bytes) : Prop :=
  exists sec is left, sec_of x y compressed sec /\ ser32 i is /\ hmac_halves chain (sec ++ is) left chain' /\
    child = (left + secret) mod curve_order.
