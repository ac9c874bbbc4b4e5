(** Property theorems C123: amounts keep their order and sign. *)
From Coq Require Import ZArith QArith SpecFloat.
From Coq Require Import String.
From Verif Require Import Base M_Keys M_Unit M_URI S_Unit S_URI S_Order P_Order.
Open Scope Z_scope.

(** *** C123 *)
Theorem C123_order : forall d x y p q u v, amount x p -> amount y q -> (p <= q)%Q -> given d x = Ok u -> given d y = Ok v -> u_satoshis u <= u_satoshis v.
Proof. exact given_order. Qed.
Print Assumptions C123_order.

Theorem C123_satoshis : forall x y p q u v, amount x p -> amount y q -> (p <= q)%Q -> unit_init (Some x) None None None = Ok u -> unit_init (Some y) None None None = Ok v ->
  u_satoshis u <= u_satoshis v.
Proof. exact satoshis_order. Qed.
Print Assumptions C123_satoshis.

Theorem C123_opposite : forall d x y p q u, amount x p -> amount y q -> (q == - p)%Q -> given d x = Ok u -> exists v, given d y = Ok v /\ u_satoshis v = - u_satoshis u.
Proof. exact given_opp. Qed.
Print Assumptions C123_opposite.

Theorem C123_same_value : forall d x y p q u, amount x p -> amount y q -> (p == q)%Q -> given d x = Ok u -> given d y = Ok u.
Proof. exact given_same. Qed.
Print Assumptions C123_same_value.

Theorem C123_at_rate : forall s t u v r r' p p' f g a b, 0 <= s <= t -> unit_init (Some (NInt s)) None None None = Ok u -> unit_init (Some (NInt t)) None None None = Ok v ->
  amount r p -> amount r' p' -> (0 <= p)%Q -> (p <= p')%Q -> at_rate u r = Ok f -> at_rate v r' = Ok g -> fvalue f = Some a -> fvalue g = Some b -> (a <= b)%Q.
Proof. exact at_rate_order. Qed.
Print Assumptions C123_at_rate.

Theorem C123_from_fiat : forall x y r r' p q w w' u v, amount x p -> amount y q -> amount r w -> amount r' w' -> (0 <= p)%Q -> (p <= q)%Q -> (0 < w')%Q -> (w' <= w)%Q ->
  from_fiat x r = Ok u -> from_fiat y r' = Ok v -> u_satoshis u <= u_satoshis v.
Proof. exact fiat_order. Qed.
Print Assumptions C123_from_fiat.

Theorem C123_text : forall d t t' q q' f g u v, denotes t q -> denotes t' q' -> in_range q -> in_range q' -> (q <= q')%Q -> py_float t = Ok f -> py_float t' = Ok g ->
  given d (NFloat f) = Ok u -> given d (NFloat g) = Ok v -> u_satoshis u <= u_satoshis v.
Proof. exact text_order. Qed.
Print Assumptions C123_text.

Theorem C123_strict_refuted : exists x y p q u v, amount x p /\ amount y q /\ ((99 # 100) <= (q - p) * 100000000)%Q /\ given Btc x = Ok u /\ given Btc y = Ok v /\ u_satoshis u = u_satoshis v.
Proof. exact strict_refuted. Qed.
Print Assumptions C123_strict_refuted.

(** half a bitcoin as a float, one as an int; minus a half *)
Definition half : num := NFloat (S754_finite false 4503599627370496 (-53)).
Definition minus_half : num := NFloat (S754_finite true 4503599627370496 (-53)).
Example C123_ex : amount half (1 # 2) /\ amount minus_half (-1 # 2) /\ amount (NInt 1) 1.
Proof. split; [|split]; [eapply Amount_float; reflexivity .. | apply Amount_int; reflexivity]. Qed.

Example C123_order_ex : (exists u, given Btc half = Ok u /\ u_satoshis u = 50000000) /\ (exists u, given Btc (NInt 1) = Ok u /\ u_satoshis u = 100000000)
  /\ (exists u, given Btc minus_half = Ok u /\ u_satoshis u = -50000000) /\ (exists u, from_fiat (NInt 1) half = Ok u /\ u_satoshis u = 200000000)
  /\ (exists u f q, unit_init (Some (NInt 300)) None None None = Ok u /\ at_rate u half = Ok f /\ fvalue f = Some q).
Proof. repeat split; eexists; vm_compute; try (split; reflexivity). do 2 eexists. repeat split; reflexivity. Qed.

Example C123_text_ex : denotes (txt "0.25") (25 # 100) /\ in_range (25 # 100) /\ py_float (txt "0.25") = Ok (S754_finite false 4503599627370496 (-54)).
Proof.
  split; [|split; [reflexivity|vm_compute; reflexivity]].
  exists [], 1, (txt "0"), (txt ".25"), (txt "25"), [], 0. split; [reflexivity|]. split; [constructor|]. split; [apply a_frac|]. split; [constructor|]. split; [discriminate|].
  split; [|reflexivity]. repeat (constructor; [unfold digit; cbn; split; discriminate|]); constructor.
Qed.
