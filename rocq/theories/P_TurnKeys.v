(** Keys with the same ordinate: consequences for the library's keys and signatures (lemmas). *)
From Coq Require Import ZArith Znumtheory Lia Bool List.
From Verif Require Import Base M_Hash S_Codec M_Keys S_Keys M_EC S_EC M_HD M_Sign S_Sign P_Keys P_PubKey P_EC P_ECProps P_SecpPrime P_ECDSA P_DSA P_Sign P_Cofactor P_KeyArith P_KeyTheory S_Turn P_Turn.
Import ListNotations.
Open Scope Z_scope.

Lemma roots : (lambda * lambda + lambda + 1) mod curve_order = 0 /\ (beta * beta + beta + 1) mod secp_p = 0.
Proof. split; vm_compute; reflexivity. Qed.

Notation coefs := multipliers.
Lemma neg_mod n e : 0 < n -> e mod n <> 0 -> n - e mod n = (- e) mod n.
Proof. intros N E. rewrite Z.mod_opp_l_nz by lia. reflexivity. Qed.
Lemma unit_mod c d : c mod curve_order <> 0 -> 0 < d < curve_order -> (c * d) mod curve_order <> 0.
Proof.
  intros C D E. apply Z.mod_divide in E; [|discriminate]. apply (prime_mult _ key_prime) in E. destruct E as [E|E].
  - apply C. apply Z.mod_divide; [discriminate|exact E].
  - apply Z.divide_pos_le in E; [|exact (proj1 D)]. change key_max with curve_order in E. clear -D E. revert D E. generalize curve_order. intros. lia.
Qed.
Lemma six_coefs d : 0 < d < curve_order -> six d = map (fun c => (c * d) mod curve_order) coefs.
Proof.
  intros D. unfold six, three, multipliers. cbn [map app]. rewrite Z.mul_1_l, (Z.mod_small d) by (clear -D; revert D; generalize curve_order; intros; lia).
  assert (P : 0 < curve_order) by reflexivity.
  assert (Q : forall c, c mod curve_order <> 0 -> curve_order - (c * d) mod curve_order = (- c * d) mod curve_order).
  { intros c C. rewrite Z.mul_opp_l. apply neg_mod; [exact P|]. exact (unit_mod c d C D). }
  pose proof (Q 1 ltac:(vm_compute; discriminate)) as Q1. rewrite Z.mul_1_l, (Z.mod_small d) in Q1 by (clear -D; revert D; generalize curve_order; intros; lia).
  change (-1 * d) with (- (1) * d). rewrite <- Q1, (Q lambda), (Q (lambda * lambda)) by (vm_compute; discriminate). reflexivity.
Qed.
Lemma three_six d e : In e (three d) -> In e (six d).
Proof. intros I. apply in_or_app. auto. Qed.
Lemma NoDup_map_inj {A B} (f : A -> B) l : NoDup l -> (forall a b, In a l -> In b l -> f a = f b -> a = b) -> NoDup (map f l).
Proof.
  induction 1 as [|a l N ND IH]; intros I; cbn [map]; constructor.
  - intros M. apply in_map_iff in M. destruct M as (b & E & IB). rewrite (I b a (or_intror IB) (or_introl eq_refl) E) in IB. exact (N IB).
  - apply IH. intros x y X Y. apply I; right; assumption.
Qed.
Lemma coefs_apart : forallb (fun a => forallb (fun b => (a =? b) || negb ((a - b) mod curve_order =? 0)) coefs) coefs = true.
Proof. vm_compute. reflexivity. Qed.
Lemma coefs_units : forallb (fun a => negb (a mod curve_order =? 0)) coefs = true.
Proof. vm_compute. reflexivity. Qed.
Lemma coefs_nodup : NoDup coefs.
Proof. repeat constructor; cbn [In]; intros H; repeat (destruct H as [H|H]; [vm_compute in H; discriminate H|]); exact H. Qed.
Lemma six_nodup d : 0 < d < curve_order -> NoDup (six d).
Proof.
  intros D. rewrite (six_coefs d D). apply NoDup_map_inj; [exact coefs_nodup|]. intros a b A B E.
  pose proof (proj1 (forallb_forall _ _) coefs_apart a A) as H. cbv beta in H. pose proof (proj1 (forallb_forall _ _) H b B) as K. cbv beta in K.
  apply orb_true_iff in K. destruct K as [K|K]; [apply Z.eqb_eq; exact K|]. apply negb_true_iff, Z.eqb_neq in K. exfalso. apply (unit_mod (a - b) d K D).
  rewrite Z.mul_sub_distr_r, Zminus_mod, E, Z.sub_diag. reflexivity.
Qed.
Lemma six_range d e : 0 < d < curve_order -> In e (six d) -> 0 < e < curve_order.
Proof.
  intros D I. rewrite (six_coefs d D) in I. apply in_map_iff in I. destruct I as (c & <- & C). pose proof (proj1 (forallb_forall _ _) coefs_units c C) as U. cbv beta in U.
  apply negb_true_iff, Z.eqb_neq in U. pose proof (unit_mod c d U D) as N. pose proof (Z.mod_pos_bound (c * d) curve_order eq_refl) as B.
  clear -N B. revert N B. generalize ((c * d) mod curve_order) curve_order. intros. lia.
Qed.
Lemma three_sum d : (d + (lambda * d) mod curve_order + (lambda * lambda * d) mod curve_order) mod curve_order = 0.
Proof.
  rewrite Zplus_mod_idemp_r, (Z.add_comm d), <- Z.add_assoc, Zplus_mod_idemp_l. replace (lambda * d + (d + lambda * lambda * d)) with ((lambda * lambda + lambda + 1) * d) by ring.
  rewrite <- Zmult_mod_idemp_l, (proj1 roots). reflexivity.
Qed.
Lemma sum_two d x y : public_point d x y -> public_point ((d + lambda * d) mod curve_order) ((beta * beta * x) mod secp_p) (secp_p - y).
Proof.
  intros PP. pose proof (neg_point _ _ _ (turn_point2 _ _ _ PP)) as N. replace ((d + lambda * d) mod curve_order) with (curve_order - (lambda * lambda * d) mod curve_order); [exact N|].
  rewrite neg_mod; [|reflexivity|apply unit_mod; [vm_compute; discriminate|exact (proj1 PP)]].
  replace (d + lambda * d) with ((lambda * lambda + lambda + 1) * d + - (lambda * lambda * d)) by ring. rewrite <- Zplus_mod_idemp_l, <- (Zmult_mod_idemp_l (lambda * lambda + lambda + 1)), (proj1 roots). reflexivity.
Qed.

(** keys *)
Lemma key_point k K : valid_key k -> pk_from_private_key k = Ok K -> public_point (k_secret k) (fst (pk_pair K)) (snd (pk_pair K)).
Proof. intros (B & _) E. apply pub_of in E. destruct E as (E & _). destruct (pk_pair K) as (x, y). exact (pps_pp _ _ _ B E). Qed.
Lemma keys_turn k K net cp : valid_key k -> pk_from_private_key k = Ok K ->
  pk_from_private_key (PrivateKey ((lambda * k_secret k) mod curve_order) net cp) = Ok (PublicKey ((beta * fst (pk_pair K)) mod secp_p, snd (pk_pair K)) net cp).
Proof.
  intros V E. pose proof (turn_point _ _ _ (key_point _ _ V E)) as T. apply pub_iff. do 2 eexists. split; [exact (proj1 (pp_pair _ _ _ T))|reflexivity].
Qed.
Lemma keys_ordinate k k' K K' : valid_key k -> valid_key k' -> pk_from_private_key k = Ok K -> pk_from_private_key k' = Ok K' ->
  (snd (pk_pair K') = snd (pk_pair K) <-> In (k_secret k') (three (k_secret k))).
Proof. intros V V' E E'. exact (ordinate_iff _ _ _ _ _ _ (key_point _ _ V E) (key_point _ _ V' E')). Qed.

(** signatures *)
Lemma nonce_point k r y o : 0 < k < curve_order -> p_mul secp256k1 secp_G k = Ok (PAff r y o) -> public_point k r y.
Proof. intros B E. apply pps_pp; [exact B|]. unfold public_pair_for_secret. rewrite E. reflexivity. Qed.
Lemma related_nonces d val val' k k' r s r' s' : 0 < k < curve_order -> 0 < k' < curve_order ->
  ecdsa_sign_k secp256k1 secp_G d val k = Ok (r, s) -> ecdsa_sign_k secp256k1 secp_G d val' k' = Ok (r', s') ->
  (r' * r' * r') mod secp_p = (r * r * r) mod secp_p ->
  exists c, In c multipliers /\ k' = (c * k) mod curve_order /\ (d * (s * r' - c * s' * r)) mod curve_order = (c * s' * val - s * val') mod curve_order.
Proof.
  intros B B' S S' X. apply (sign_iff secp256k1 secp_gx secp_gy key_max SG) in S; [|exact B]. apply (sign_iff secp256k1 secp_gx secp_gy key_max SG) in S'; [|exact B'].
  destruct S as ((y & o & P) & _ & _ & S). destruct S' as ((y' & o' & P') & _ & _ & S'). change key_max with curve_order in S, S'.
  pose proof (nonce_point _ _ _ _ B P) as PP. pose proof (nonce_point _ _ _ _ B' P') as PP'.
  apply (six_iff _ _ _ _ _ _ PP PP') in X. rewrite (six_coefs k B) in X. apply in_map_iff in X. destruct X as (c & <- & C). exists c. split; [exact C|]. split; [reflexivity|].
  clear -S S'. rewrite Zmult_mod_idemp_r in S'. revert S S'. change curve_order with key_max. assert (N : key_max <> 0) by discriminate. revert N. generalize key_max. intros n N S S'.
  assert (D1 : (n | s * k - (val + d * r))) by (apply Z.mod_divide; [exact N|]; rewrite Zminus_mod, S, Z.sub_diag; apply Zmod_0_l).
  assert (D2 : (n | s' * (c * k) - (val' + d * r'))) by (apply Z.mod_divide; [exact N|]; rewrite Zminus_mod, S', Z.sub_diag; apply Zmod_0_l).
  assert (D : (n | d * (s * r' - c * s' * r) - (c * s' * val - s * val'))).
  { replace (d * (s * r' - c * s' * r) - (c * s' * val - s * val')) with (c * s' * (s * k - (val + d * r)) - s * (s' * (c * k) - (val' + d * r'))) by ring.
    apply Z.divide_sub_r; apply Z.divide_mul_r; assumption. }
  destruct D as (q & D). replace (d * (s * r' - c * s' * r)) with ((c * s' * val - s * val') + q * n) by (clear -D; lia). apply Z_mod_plus_full.
Qed.
Lemma related_leak d val val' k k' r s r' s' : 0 < k < curve_order -> 0 < k' < curve_order ->
  ecdsa_sign_k secp256k1 secp_G d val k = Ok (r, s) -> ecdsa_sign_k secp256k1 secp_G d val' k' = Ok (r', s') ->
  (r' * r' * r') mod secp_p = (r * r * r) mod secp_p ->
  exists c, In c multipliers /\ forall i, ((s * r' - c * s' * r) * i) mod curve_order = 1 -> d mod curve_order = ((c * s' * val - s * val') * i) mod curve_order.
Proof.
  intros B B' S S' X. destruct (related_nonces _ _ _ _ _ _ _ _ _ B B' S S' X) as (c & C & _ & E). exists c. split; [exact C|]. intros i I.
  rewrite <- Zmult_mod_idemp_l, <- E, Zmult_mod_idemp_l, <- Z.mul_assoc, <- Zmult_mod_idemp_r, I, Z.mul_1_r. reflexivity.
Qed.

(** a pair of related nonces: 1 and [lambda], secret 5, values 3 and 11 *)
Lemma G_point : public_point 1 secp_gx secp_gy.
Proof. apply pps_pp; [split; reflexivity|]. vm_compute. reflexivity. Qed.
Lemma lambda_point : public_point lambda ((beta * secp_gx) mod secp_p) secp_gy.
Proof.
  pose proof (turn_point _ _ _ G_point) as T. replace ((lambda * 1) mod curve_order) with lambda in T; [exact T|]. vm_compute. reflexivity.
Qed.
Definition rel_s : Z := 0x60b8007ae14faa5dac21eced08a3372597ae367a86758bc74217c9add26bf379.
Definition rel_s2 : Z := 0x1941dc0d3ae388027d4db2beb6126ca4e792a4096c46cb67039a3deda704e9f7.
Definition rel_i : Z := 0xfba9c767f52a873e775b62c1cb407f29a54724d2e5886d91090773b5649fe016.
Lemma point_mul c G k x y : public_pair_for_secret c G k = Ok (Some (x, y)) -> exists y' o, p_mul c G k = Ok (PAff x y' o).
Proof.
  unfold public_pair_for_secret. destruct (p_mul c G k) as [[|x1 y1 o1]|e]; cbn [bind]; intros E; [discriminate E| |discriminate E].
  assert (x1 = x) as -> by congruence. eauto.
Qed.
Lemma sign_at d val k x y s : public_point k x y -> x <> 0 -> 1 <= s < curve_order -> (s * k) mod curve_order = (val + d * x) mod curve_order ->
  ecdsa_sign_k secp256k1 secp_G d val k = Ok (x, s).
Proof.
  intros PP X S E. apply (sign_iff secp256k1 secp_gx secp_gy key_max SG); [exact (proj1 PP)|]. split; [exact (point_mul _ _ _ _ _ (proj1 (pp_pair _ _ _ PP)))|auto].
Qed.
Lemma related_ex : ecdsa_sign_k secp256k1 secp_G 5 3 1 = Ok (secp_gx, rel_s) /\
  ecdsa_sign_k secp256k1 secp_G 5 11 lambda = Ok ((beta * secp_gx) mod secp_p, rel_s2).
Proof.
  split.
  - apply (sign_at 5 3 1 secp_gx secp_gy rel_s G_point); [discriminate|split; [discriminate|reflexivity]|vm_compute; reflexivity].
  - apply (sign_at 5 11 lambda _ secp_gy rel_s2 lambda_point); [vm_compute; discriminate|split; [discriminate|reflexivity]|vm_compute; reflexivity].
Qed.
