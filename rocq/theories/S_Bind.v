(** Specification: what a hash determines.  Since no hash function is injective, the theorems say that two things with
    the same hash are the same or are two named strings that collide. *)
From Coq Require Import ZArith List.
From Verif Require Import Base M_Hash M_Codec M_Script S_Script M_Tx S_Tx.
Open Scope Z_scope.

(** two different strings with the same image *)
Definition collide (f : bytes -> bytes) (x y : bytes) : Prop := x <> y /\ f x = f y.
(** two strings at which double SHA256, or RIPEMD160 of SHA256, shows a collision of one of its two parts *)
Definition collide_twice (x y : bytes) : Prop := collide sha256 x y \/ collide sha256 (sha256 x) (sha256 y).
Definition collide_160 (x y : bytes) : Prop := collide sha256 x y \/ collide ripemd160 (sha256 x) (sha256 y).

(** two transactions that agree in everything that is serialised; ids are hex text, in either case *)
Definition agree (t t' : tx) : Prop := same_tx (lower_ids t) (lower_ids t').
(** an input that refers to transaction [p] as the network does: by its double SHA256, written backwards *)
Definition refers (i : input) (p : tx) : Prop := exists w, tx_to_bytes p = Ok w /\ hex_text (in_tx_id i) (rev (sha256 (sha256 w))).
(** an input that refers to [p] by what [get_id] returns *)
Definition refers_id (i : input) (p : tx) : Prop := exists h, tx_get_id p = Ok h /\ in_tx_id i = h.
(** [ps] are the transactions that one finds from [t] going back through the inputs with the given numbers *)
Inductive ancestry (R : input -> tx -> Prop) : tx -> list nat -> list tx -> Prop :=
  | anc_nil t : ancestry R t nil nil
  | anc_cons t k ks i p ps : nth_error (tx_inputs t) k = Some i -> R i p -> tx_fits p -> ancestry R p ks ps -> ancestry R t (k :: ks) (p :: ps).
(** at some place the two lists have transactions whose serialisations collide *)
Definition collision_among (l l' : list tx) : Prop :=
  exists n p p' w w', nth_error l n = Some p /\ nth_error l' n = Some p' /\ tx_to_bytes p = Ok w /\ tx_to_bytes p' = Ok w' /\ collide_twice w w'.

(** what the message of a signature says about input [k] of [t] and the hash type *)
Definition same_spending (t t' : tx) (k k' : nat) (st st' : Z) (i i' : input) : Prop :=
  st = st' /\ tx_version t = tx_version t' /\ tx_lock_time t = tx_lock_time t' /\
  Forall2 same_output (tx_outputs t) (tx_outputs t') /\
  Forall2 (fun a b => same_but_script (lower_input a) (lower_input b)) (tx_inputs t) (tx_inputs t') /\
  ((k = k' /\ same_script (in_script i) (in_script i')) \/ (s_ins (in_script i) = nil /\ s_ins (in_script i') = nil)).
