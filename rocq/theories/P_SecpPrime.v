(** Certificates: the field size and the group order of secp256k1 are prime. *)
From Coq Require Import ZArith Znumtheory Lia Bool List.
From Verif Require Import Base M_Keys M_EC P_Field P_NumTheory P_Prime.
Import ListNotations.
Open Scope Z_scope.

Definition plain (N x : Z) : Z := x mod N.
Lemma plain_ok N x : 0 < N -> plain N x mod N = x mod N.
Proof. intros H. apply Zmod_mod. Qed.
(** reduction for a modulus [2^256 - c]: [hi * 2^256 + lo] becomes [hi * c + lo] *)
Definition mask256 : Z := 0xffffffffffffffffffffffffffffffffffffffffffffffffffffffffffffffff.
Definition fold256 (c x : Z) : Z := Z.shiftr x 256 * c + Z.land x mask256.
Lemma fold256_ok c x : fold256 c x mod (2 ^ 256 - c) = x mod (2 ^ 256 - c).
Proof.
  unfold fold256. replace mask256 with (Z.ones 256) by reflexivity. rewrite Z.shiftr_div_pow2, Z.land_ones by lia.
  pose proof (Z.div_mod x (2 ^ 256) ltac:(lia)) as D. rewrite D at 3.
  set (h := x / 2 ^ 256). set (l := x mod 2 ^ 256).
  replace (2 ^ 256 * h + l) with (h * c + l + h * (2 ^ 256 - c)) by ring. symmetry. apply Z_mod_plus_full.
Qed.
Definition fold_p (x : Z) : Z := fold256 0x1000003d1 (fold256 0x1000003d1 x).
Definition fold_n (x : Z) : Z :=
  let c := 0x14551231950b75fc4402da1732fc9bebf in fold256 c (fold256 c (fold256 c x)).
Lemma fold_p_ok x : fold_p x mod secp_p = x mod secp_p.
Proof. change secp_p with (2 ^ 256 - 0x1000003d1). unfold fold_p. rewrite !fold256_ok. reflexivity. Qed.
Lemma fold_n_ok x : fold_n x mod key_max = x mod key_max.
Proof. change key_max with (2 ^ 256 - 0x14551231950b75fc4402da1732fc9bebf). unfold fold_n. rewrite !fold256_ok. reflexivity. Qed.

Lemma prime_53 : prime 53.
Proof. apply (trial_prime 10); [reflexivity|vm_compute; reflexivity]. Qed.
Lemma prime_29 : prime 29.
Proof. apply (trial_prime 8); [reflexivity|vm_compute; reflexivity]. Qed.
Lemma prime_7 : prime 7.
Proof. apply (trial_prime 5); [reflexivity|vm_compute; reflexivity]. Qed.
Lemma prime_107590001 : prime 107590001.
Proof.
  apply (pock_ok (plain 107590001) 107590001 2 53 75712971
    [(29, 100085220); (7, 4923006)]).
  - intros x; apply plain_ok; reflexivity.
  - apply Forall_cons; [exact prime_53|]. apply Forall_cons; [exact prime_29|]. apply Forall_cons; [exact prime_7|]. apply Forall_nil.
  - vm_compute. reflexivity.
Qed.
Lemma prime_419 : prime 419.
Proof. apply (trial_prime 23); [reflexivity|vm_compute; reflexivity]. Qed.
Lemma prime_20113 : prime 20113.
Proof.
  apply (pock_ok (plain 20113) 20113 2 419 17111
    []).
  - intros x; apply plain_ok; reflexivity.
  - apply Forall_cons; [exact prime_419|]. apply Forall_nil.
  - vm_compute. reflexivity.
Qed.
Lemma prime_1206781 : prime 1206781.
Proof.
  apply (pock_ok (plain 1206781) 1206781 2 20113 709359
    []).
  - intros x; apply plain_ok; reflexivity.
  - apply Forall_cons; [exact prime_20113|]. apply Forall_nil.
  - vm_compute. reflexivity.
Qed.
Lemma prime_7240687 : prime 7240687.
Proof.
  apply (pock_ok (plain 7240687) 7240687 2 1206781 5746577
    []).
  - intros x; apply plain_ok; reflexivity.
  - apply Forall_cons; [exact prime_1206781|]. apply Forall_nil.
  - vm_compute. reflexivity.
Qed.
Lemma prime_239 : prime 239.
Proof. apply (trial_prime 18); [reflexivity|vm_compute; reflexivity]. Qed.
Lemma prime_101 : prime 101.
Proof. apply (trial_prime 13); [reflexivity|vm_compute; reflexivity]. Qed.
Lemma prime_96557 : prime 96557.
Proof.
  apply (pock_ok (plain 96557) 96557 2 239 8329
    [(101, 50445)]).
  - intros x; apply plain_ok; reflexivity.
  - apply Forall_cons; [exact prime_239|]. apply Forall_cons; [exact prime_101|]. apply Forall_nil.
  - vm_compute. reflexivity.
Qed.
Lemma prime_255515944373312847190720520512484175977 : prime 255515944373312847190720520512484175977.
Proof.
  apply (pock_ok (plain 255515944373312847190720520512484175977) 255515944373312847190720520512484175977 2 107590001 235081362755335172132203715226758066727
    [(7240687, 175544394104025381149509263364095140941); (96557, 52333299885033245219942804006191421971)]).
  - intros x; apply plain_ok; reflexivity.
  - apply Forall_cons; [exact prime_107590001|]. apply Forall_cons; [exact prime_7240687|]. apply Forall_cons; [exact prime_96557|]. apply Forall_nil.
  - vm_compute. reflexivity.
Qed.
Lemma prime_205115282021455665897114700593932402728804164701536103180137503955397371 : prime 205115282021455665897114700593932402728804164701536103180137503955397371.
Proof.
  apply (pock_ok (plain 205115282021455665897114700593932402728804164701536103180137503955397371) 205115282021455665897114700593932402728804164701536103180137503955397371 2 255515944373312847190720520512484175977 81475874003799270243122483189086420723726815346591292526890606927317739
    []).
  - intros x; apply plain_ok; reflexivity.
  - apply Forall_cons; [exact prime_255515944373312847190720520512484175977|]. apply Forall_nil.
  - vm_compute. reflexivity.
Qed.
Lemma secp_p_prime : prime secp_p.
Proof.
  apply (pock_ok fold_p secp_p 2 205115282021455665897114700593932402728804164701536103180137503955397371 38738227534097492269493948901333532538630784921480042032654553727346127695815
    []).
  - exact fold_p_ok.
  - apply Forall_cons; [exact prime_205115282021455665897114700593932402728804164701536103180137503955397371|]. apply Forall_nil.
  - vm_compute. reflexivity.
Qed.
Lemma prime_2011 : prime 2011.
Proof. apply (trial_prime 47); [reflexivity|vm_compute; reflexivity]. Qed.
Lemma prime_97 : prime 97.
Proof. apply (trial_prime 12); [reflexivity|vm_compute; reflexivity]. Qed.
Lemma prime_4681609 : prime 4681609.
Proof.
  apply (pock_ok (plain 4681609) 4681609 2 2011 1506556
    [(97, 914856)]).
  - intros x; apply plain_ok; reflexivity.
  - apply Forall_cons; [exact prime_2011|]. apply Forall_cons; [exact prime_97|]. apply Forall_nil.
  - vm_compute. reflexivity.
Qed.
Lemma prime_2861 : prime 2861.
Proof. apply (trial_prime 56); [reflexivity|vm_compute; reflexivity]. Qed.
Lemma prime_85831 : prime 85831.
Proof.
  apply (pock_ok (plain 85831) 85831 2 2861 38061
    []).
  - intros x; apply plain_ok; reflexivity.
  - apply Forall_cons; [exact prime_2861|]. apply Forall_nil.
  - vm_compute. reflexivity.
Qed.
Lemma prime_107361793816595537 : prime 107361793816595537.
Proof.
  apply (pock_ok (plain 107361793816595537) 107361793816595537 2 4681609 44826003584452600
    [(85831, 89382073196192802)]).
  - intros x; apply plain_ok; reflexivity.
  - apply Forall_cons; [exact prime_4681609|]. apply Forall_cons; [exact prime_85831|]. apply Forall_nil.
  - vm_compute. reflexivity.
Qed.
Lemma prime_1871 : prime 1871.
Proof. apply (trial_prime 46); [reflexivity|vm_compute; reflexivity]. Qed.
Lemma prime_1627771 : prime 1627771.
Proof.
  apply (pock_ok (plain 1627771) 1627771 2 1871 589711
    []).
  - intros x; apply plain_ok; reflexivity.
  - apply Forall_cons; [exact prime_1871|]. apply Forall_nil.
  - vm_compute. reflexivity.
Qed.
Lemma prime_297159362677 : prime 297159362677.
Proof.
  apply (pock_ok (plain 297159362677) 297159362677 2 1627771 44169280672
    []).
  - intros x; apply plain_ok; reflexivity.
  - apply Forall_cons; [exact prime_1627771|]. apply Forall_nil.
  - vm_compute. reflexivity.
Qed.
Lemma prime_1409 : prime 1409.
Proof. apply (trial_prime 40); [reflexivity|vm_compute; reflexivity]. Qed.
Lemma prime_28181 : prime 28181.
Proof.
  apply (pock_ok (plain 28181) 28181 2 1409 16200
    []).
  - intros x; apply plain_ok; reflexivity.
  - apply Forall_cons; [exact prime_1409|]. apply Forall_nil.
  - vm_compute. reflexivity.
Qed.
Lemma prime_545358713 : prime 545358713.
Proof.
  apply (pock_ok (plain 545358713) 545358713 2 28181 160797069
    []).
  - intros x; apply plain_ok; reflexivity.
  - apply Forall_cons; [exact prime_28181|]. apply Forall_nil.
  - vm_compute. reflexivity.
Qed.
Lemma prime_29047611873442575647497758179 : prime 29047611873442575647497758179.
Proof.
  apply (pock_ok (plain 29047611873442575647497758179) 29047611873442575647497758179 2 297159362677 7881196461825673388358983901
    [(545358713, 9643653164146849936640551407)]).
  - intros x; apply plain_ok; reflexivity.
  - apply Forall_cons; [exact prime_297159362677|]. apply Forall_cons; [exact prime_545358713|]. apply Forall_nil.
  - vm_compute. reflexivity.
Qed.
Lemma prime_341948486974166000522343609283189 : prime 341948486974166000522343609283189.
Proof.
  apply (pock_ok (plain 341948486974166000522343609283189) 341948486974166000522343609283189 2 29047611873442575647497758179 230912421032721991545077801069578
    []).
  - intros x; apply plain_ok; reflexivity.
  - apply Forall_cons; [exact prime_29047611873442575647497758179|]. apply Forall_nil.
  - vm_compute. reflexivity.
Qed.
Lemma key_max_prime : prime key_max.
Proof.
  apply (pock_ok fold_n key_max 2 107361793816595537 75882924931766611973272472284568680993272073599073922898565096152986752117873
    [(341948486974166000522343609283189, 57112704531168816596589732607440886458891436705097388389849158079043094771009)]).
  - exact fold_n_ok.
  - apply Forall_cons; [exact prime_107361793816595537|]. apply Forall_cons; [exact prime_341948486974166000522343609283189|]. apply Forall_nil.
  - vm_compute. reflexivity.
Qed.
