(** Proofs about random keys. *)
From Coq Require Import String ZArith Lia List Bool.
From Verif Require Import Base M_Hash M_Codec S_Codec P_Codec M_Keys S_Keys P_Keys M_EC S_EC M_HD S_HD P_HD M_Rand S_Rand.
Import ListNotations.
Open Scope Z_scope.

(** ** finite sets of lists *)
Lemma nodup_app {A} (a b : list A) : NoDup a -> NoDup b -> (forall x, In x a -> ~ In x b) -> NoDup (a ++ b).
Proof.
  intros A1 B1 D. induction A1 as [|x a N _ IH]; [exact B1|]. cbn [app]. constructor.
  - rewrite in_app_iff. intros [H|H]; [contradiction|]. apply (D x); [left; reflexivity|exact H].
  - apply IH. intros y H. apply D. right. exact H.
Qed.
Lemma nodup_map {A B} (f : A -> B) l : (forall x y, In x l -> In y l -> f x = f y -> x = y) -> NoDup l -> NoDup (map f l).
Proof.
  intros I N. induction N as [|x l N _ IH]; [constructor|]. cbn [map]. constructor.
  - rewrite in_map_iff. intros (y & E & H). assert (y = x) by (apply I; [right; exact H|left; reflexivity|exact E]). congruence.
  - apply IH. intros y z Hy Hz. apply I; right; assumption.
Qed.
Definition conses {A} (a : list A) (b : list (list A)) : list (list A) := flat_map (fun x => map (cons x) b) a.
Lemma conses_in {A} (a : list A) b l : In l (conses a b) <-> exists x r, l = x :: r /\ In x a /\ In r b.
Proof.
  unfold conses. rewrite in_flat_map. split.
  - intros (x & H & K). apply in_map_iff in K. destruct K as (r & <- & K). eauto.
  - intros (x & r & -> & H & K). exists x. split; [exact H|]. apply in_map, K.
Qed.
Lemma conses_length {A} (a : list A) b : length (conses a b) = (length a * length b)%nat.
Proof. induction a as [|x a IH]; [reflexivity|]. cbn [conses flat_map length]. rewrite app_length, map_length. fold (conses a b). rewrite IH. reflexivity. Qed.
Lemma conses_nodup {A} (a : list A) b : NoDup a -> NoDup b -> NoDup (conses a b).
Proof.
  intros NA NB. induction NA as [|x a N _ IH]; [constructor|]. cbn [conses flat_map]. fold (conses a b). apply nodup_app; [|exact IH|].
  - apply nodup_map; [|exact NB]. intros y z _ _ E. injection E as E. exact E.
  - intros l H K. apply in_map_iff in H. destruct H as (r & <- & _). apply conses_in in K. destruct K as (x' & r' & E & K & _). injection E as <- _. contradiction.
Qed.

(** ** blocks as numbers *)
Definition block (m : nat) (i : nat) : bytes := be_bytes m (Z.of_nat i).
Lemma be_bytes_len m n : length (be_bytes m n) = m.
Proof. unfold be_bytes. rewrite rev_length. apply le_bytes_length. Qed.
Lemma be_bytes_be_val b : be_bytes (length b) (be_val b) = b.
Proof. unfold be_bytes, be_val. rewrite <- (rev_length b), le_bytes_le_val, rev_involutive. reflexivity. Qed.
(** the blocks with values [a, a + c) *)
Definition range (m : nat) (a : Z) (c : nat) : list bytes := map (fun i => be_bytes m (a + Z.of_nat i)) (seq 0 c).
Lemma range_len m a c : length (range m a c) = c.
Proof. unfold range. rewrite map_length, seq_length. reflexivity. Qed.
Lemma range_in m a c b : 0 <= a -> a + Z.of_nat c <= 256 ^ Z.of_nat m ->
  (In b (range m a c) <-> length b = m /\ a <= be_val b < a + Z.of_nat c).
Proof.
  intros A C. unfold range. rewrite in_map_iff. split.
  - intros (i & <- & H). apply in_seq in H. rewrite be_bytes_len, be_val_be_bytes, Z.mod_small by lia. lia.
  - intros (<- & H). exists (Z.to_nat (be_val b - a)). split; [|apply in_seq; lia]. rewrite Z2Nat.id by lia.
    replace (a + (be_val b - a)) with (be_val b) by lia. apply be_bytes_be_val.
Qed.
Lemma range_nodup m a c : 0 <= a -> a + Z.of_nat c <= 256 ^ Z.of_nat m -> NoDup (range m a c).
Proof.
  intros A C. apply nodup_map; [|apply seq_NoDup]. intros i j I J E. apply in_seq in I. apply in_seq in J.
  apply (f_equal be_val) in E. rewrite !be_val_be_bytes, !Z.mod_small in E by lia. lia.
Qed.
Lemma pow256 m : 256 ^ Z.of_nat m = 2 ^ (8 * Z.of_nat m).
Proof. rewrite Z.pow_mul_r by lia. reflexivity. Qed.

(** ** drawing *)
Lemma bits_eq k b : k <= 8 * blen b -> rng_getrandbits k b = be_val b / 2 ^ (8 * blen b - k).
Proof. intros H. unfold rng_getrandbits. rewrite decode_int_be, Z.shiftr_div_pow2 by lia. reflexivity. Qed.
Lemma below_some k n bs r : rng_below k n bs = Some r <->
  exists pre b post, bs = pre ++ b :: post /\ Forall (fun x => n <= rng_getrandbits k x) pre /\ rng_getrandbits k b = r /\ r < n.
Proof.
  induction bs as [|b bs IH]; cbn [rng_below].
  - split; [discriminate|]. intros ([|? ?] & ? & ? & E & _); discriminate.
  - cbv zeta. destruct (rng_getrandbits k b >=? n) eqn:G.
    + rewrite IH. split.
      * intros (pre & b' & post & -> & F & E & L). exists (b :: pre), b', post. repeat split; auto. constructor; [lia|exact F].
      * intros (pre & b' & post & E & F & R & L). destruct pre as [|x pre]; cbn [app] in E; injection E as <- E; [lia|].
        exists pre, b', post. inversion F; subst. auto.
    + split.
      * intros E. injection E as <-. exists [], b, bs. repeat split; auto. lia.
      * intros (pre & b' & post & E & F & R & L). destruct pre as [|x pre]; cbn [app] in E; injection E as <- E; [congruence|].
        inversion F; subst. lia.
Qed.
Lemma bits_nonneg k b : 0 <= rng_getrandbits k b.
Proof. unfold rng_getrandbits. rewrite decode_int_be. apply Z.shiftr_nonneg. apply be_val_bound. Qed.
Lemma secret_range k bs s : random_secret k bs = Some s -> 0 < s < curve_order.
Proof.
  unfold random_secret, rng_randint. rewrite key_max_order. destruct (rng_below _ _ _) as [r|] eqn:E; [|discriminate].
  intros H. assert (s = 1 + r) by congruence. subst s. clear H. apply below_some in E. destruct E as (pre & b & post & _ & _ & <- & L). pose proof (bits_nonneg k b). lia.
Qed.
Lemma secret_iff k bs s : random_secret k bs = Some s <->
  exists pre b post, bs = pre ++ b :: post /\ Forall (fun x => curve_order <= rng_getrandbits k x + 1) pre /\ s = rng_getrandbits k b + 1 /\ s < curve_order.
Proof.
  unfold random_secret, rng_randint. rewrite key_max_order. split.
  - destruct (rng_below _ _ _) as [r|] eqn:E; [|discriminate]. intros H. assert (s = 1 + r) by congruence. subst s. clear H. apply below_some in E.
    destruct E as (pre & b & post & -> & F & <- & L). exists pre, b, post. repeat split; try lia. eapply Forall_impl; [|exact F]. cbv beta. intros; lia.
  - intros (pre & b & post & -> & F & -> & L).
    assert (E : rng_below k (curve_order - 1 + 1 - 1) (pre ++ b :: post) = Some (rng_getrandbits k b)).
    { apply below_some. exists pre, b, post. repeat split; try lia. eapply Forall_impl; [|exact F]. cbv beta. intros; lia. }
    rewrite E. f_equal. lia.
Qed.
Lemma secret_cons k b bs : random_secret k (b :: bs) = if rng_getrandbits k b + 1 <? curve_order then Some (rng_getrandbits k b + 1) else random_secret k bs.
Proof.
  unfold random_secret, rng_randint. rewrite key_max_order. cbn [rng_below]. cbv zeta.
  destruct (Z.ltb_spec (rng_getrandbits k b + 1) curve_order) as [H|H].
  - replace (rng_getrandbits k b >=? curve_order - 1 + 1 - 1) with false by lia. f_equal. lia.
  - replace (rng_getrandbits k b >=? curve_order - 1 + 1 - 1) with true by lia. reflexivity.
Qed.

Section Uniform.
Variables (k : Z) (m : nat).
Hypothesis K1 : k <= 8 * Z.of_nat m.
Hypothesis K2 : curve_order - 1 <= 2 ^ k.
Hypothesis K0 : 0 <= k.
Let e := 8 * Z.of_nat m - k.
Lemma pow_split : 256 ^ Z.of_nat m = 2 ^ k * 2 ^ e.
Proof. rewrite pow256, <- Z.pow_add_r by (unfold e; lia). f_equal. unfold e. lia. Qed.
Lemma pow_pos_e : 0 < 2 ^ e.
Proof. apply Z.pow_pos_nonneg; [lia|unfold e; lia]. Qed.
Lemma bits_m b : length b = m -> rng_getrandbits k b = be_val b / 2 ^ e.
Proof. intros L. rewrite bits_eq by (unfold blen; lia). unfold e, blen. rewrite L. reflexivity. Qed.
Definition accepting (s : Z) : list bytes := range m ((s - 1) * 2 ^ e) (Z.to_nat (2 ^ e)).
Definition rejecting : list bytes := range m ((curve_order - 1) * 2 ^ e) (Z.to_nat (256 ^ Z.of_nat m - (curve_order - 1) * 2 ^ e)).
Definition every : list bytes := range m 0 (Z.to_nat (256 ^ Z.of_nat m)).
Lemma div_iff x q : q = x / 2 ^ e <-> q * 2 ^ e <= x < (q + 1) * 2 ^ e.
Proof.
  pose proof pow_pos_e as P. split.
  - intros ->. pose proof (Z.div_mod x (2 ^ e) ltac:(lia)). pose proof (Z.mod_pos_bound x (2 ^ e) P). nia.
  - intros H. apply (Z.div_unique x (2 ^ e) q (x - q * 2 ^ e)); [left; nia|lia].
Qed.
Lemma acc_fits s : 0 < s < curve_order -> 0 <= (s - 1) * 2 ^ e /\ (s - 1) * 2 ^ e + Z.of_nat (Z.to_nat (2 ^ e)) <= 256 ^ Z.of_nat m.
Proof. intros S. pose proof pow_pos_e. rewrite Z2Nat.id by lia. rewrite pow_split. split; [apply Z.mul_nonneg_nonneg; lia|]. assert (s <= 2 ^ k) by lia. nia. Qed.
Lemma rej_fits : 0 <= (curve_order - 1) * 2 ^ e /\ (curve_order - 1) * 2 ^ e <= 256 ^ Z.of_nat m.
Proof. pose proof pow_pos_e. pose proof curve_order_bound as [C _]. rewrite pow_split. split; [apply Z.mul_nonneg_nonneg; lia|]. apply Z.mul_le_mono_nonneg_r; lia. Qed.
Lemma acc_in s b : 0 < s < curve_order -> (In b (accepting s) <-> length b = m /\ rng_getrandbits k b + 1 = s).
Proof.
  intros S. destruct (acc_fits s S) as [A B]. unfold accepting. rewrite range_in by assumption. pose proof pow_pos_e. rewrite Z2Nat.id by lia. split.
  - intros (L & H1). split; [exact L|]. rewrite bits_m by exact L. assert (E : s - 1 = be_val b / 2 ^ e) by (apply div_iff; replace ((s - 1 + 1) * 2 ^ e) with ((s - 1) * 2 ^ e + 2 ^ e) by ring; exact H1). lia.
  - intros (L & H1). split; [exact L|]. rewrite bits_m in H1 by exact L. assert (E : s - 1 = be_val b / 2 ^ e) by lia. apply div_iff in E. replace ((s - 1 + 1) * 2 ^ e) with ((s - 1) * 2 ^ e + 2 ^ e) in E by ring. exact E.
Qed.
Lemma rej_in b : In b rejecting <-> length b = m /\ curve_order <= rng_getrandbits k b + 1.
Proof.
  destruct rej_fits as [A B]. unfold rejecting. rewrite range_in; [|exact A|rewrite Z2Nat.id by lia; lia]. rewrite Z2Nat.id by lia. pose proof pow_pos_e as P. split.
  - intros (L & H1). split; [exact L|]. rewrite bits_m by exact L. assert (curve_order - 1 <= be_val b / 2 ^ e) by (apply Z.div_le_lower_bound; lia). lia.
  - intros (L & H1). split; [exact L|]. rewrite bits_m in H1 by exact L. pose proof (be_val_bound b) as R. rewrite L in R.
    pose proof (proj1 (div_iff (be_val b) _) eq_refl). set (q := be_val b / 2 ^ e) in *. assert ((curve_order - 1) * 2 ^ e <= q * 2 ^ e) by (apply Z.mul_le_mono_nonneg_r; lia). lia.
Qed.
Lemma every_in b : In b every <-> length b = m.
Proof. unfold every. rewrite range_in; [|lia|rewrite Z2Nat.id by (apply Z.pow_nonneg; lia); lia]. pose proof (be_val_bound b) as R. split; [tauto|]. intros L. split; [exact L|]. rewrite L in R. lia. Qed.
Fixpoint all_seqs (t : nat) : list (list bytes) := match t with O => [[]] | S t => conses every (all_seqs t) end.
Fixpoint good_seqs (s : Z) (t : nat) : list (list bytes) :=
  match t with O => [] | S t => conses (accepting s) (all_seqs t) ++ conses rejecting (good_seqs s t) end.
Lemma every_nodup : NoDup every.
Proof. apply range_nodup; [lia|]. rewrite Z2Nat.id by (apply Z.pow_nonneg; lia). lia. Qed.
Lemma rej_nodup : NoDup rejecting.
Proof. destruct rej_fits. apply range_nodup; [assumption|]. rewrite Z2Nat.id; lia. Qed.
Lemma all_in t bs : In bs (all_seqs t) <-> length bs = t /\ Forall (fun b => length b = m) bs.
Proof.
  revert bs. induction t as [|t IH]; intros bs; cbn [all_seqs].
  - cbn [In]. split; [intros [<-|[]]; auto|]. intros (L & _). destruct bs; [left; reflexivity|discriminate].
  - rewrite conses_in. split.
    + intros (x & r & -> & X & R). apply IH in R. apply every_in in X. destruct R as [<- F]. split; [reflexivity|]. constructor; assumption.
    + intros (L & F). destruct bs as [|x r]; [discriminate|]. cbn [length] in L. injection L as L. inversion F; subst. exists x, r. split; [reflexivity|]. split; [apply every_in; assumption|apply IH; auto].
Qed.
Lemma all_nodup t : NoDup (all_seqs t).
Proof. induction t as [|t IH]; cbn [all_seqs]; [constructor; [intros []|constructor]|]. apply conses_nodup; [exact every_nodup|exact IH]. Qed.
Lemma good_in s t bs : 0 < s < curve_order -> (In bs (good_seqs s t) <-> length bs = t /\ Forall (fun b => length b = m) bs /\ random_secret k bs = Some s).
Proof.
  intros S. revert bs. induction t as [|t IH]; intros bs; cbn [good_seqs].
  - split; [intros []|]. intros (L & _ & E). destruct bs; discriminate.
  - rewrite in_app_iff, !conses_in. split.
    + intros [(x & r & -> & X & R)|(x & r & -> & X & R)].
      * apply acc_in in X; [|exact S]. apply all_in in R. destruct X as [X1 X2], R as [<- R2]. rewrite secret_cons. split; [reflexivity|]. split; [constructor; assumption|]. rewrite X2. destruct (Z.ltb_spec s curve_order); [reflexivity|lia].
      * apply rej_in in X. apply IH in R. destruct X as [X1 X2], R as (<- & R2 & R3). rewrite secret_cons. split; [reflexivity|]. split; [constructor; assumption|]. destruct (Z.ltb_spec (rng_getrandbits k x + 1) curve_order); [lia|exact R3].
    + intros (L & F & E). destruct bs as [|x r]; [discriminate|]. cbn [length] in L. injection L as L. inversion F; subst. rewrite secret_cons in E.
      destruct (Z.ltb_spec (rng_getrandbits k x + 1) curve_order) as [H|H].
      * left. injection E as E. exists x, r. split; [reflexivity|]. split; [apply acc_in; auto|apply all_in; auto].
      * right. exists x, r. split; [reflexivity|]. split; [apply rej_in; auto|apply IH; auto].
Qed.
Lemma good_nodup s t : 0 < s < curve_order -> NoDup (good_seqs s t).
Proof.
  intros S. induction t as [|t IH]; cbn [good_seqs]; [constructor|]. apply nodup_app.
  - apply conses_nodup; [|apply all_nodup]. destruct (acc_fits s S). apply range_nodup; assumption.
  - apply conses_nodup; [exact rej_nodup|exact IH].
  - intros l H1 H2. apply conses_in in H1. apply conses_in in H2. destruct H1 as (x & r & -> & X & _), H2 as (x' & r' & E & X' & _). injection E as <- _.
    apply acc_in in X; [|exact S]. apply rej_in in X'. lia.
Qed.
Lemma good_length s s' t : length (good_seqs s t) = length (good_seqs s' t).
Proof. induction t as [|t IH]; [reflexivity|]. cbn [good_seqs]. rewrite !app_length, !conses_length, IH. unfold accepting. rewrite !range_len. reflexivity. Qed.
Lemma uniform t : exists c, forall s, 0 < s < curve_order -> how_many m t (fun bs => random_secret k bs = Some s) c.
Proof.
  exists (length (good_seqs 1 t)). intros s S. exists (good_seqs s t). split; [apply good_nodup, S|]. split; [apply good_length|]. intros bs. apply good_in, S.
Qed.
Lemma one_draw s : 0 < s < curve_order -> how_many m 1 (fun bs => random_secret k bs = Some s) (Z.to_nat (2 ^ (8 * Z.of_nat m - k))).
Proof.
  intros S. exists (good_seqs s 1). split; [apply good_nodup, S|]. split; [|intros bs; apply good_in, S].
  cbn [good_seqs all_seqs]. rewrite app_length, !conses_length. unfold accepting. rewrite range_len. cbn [length]. fold e. lia.
Qed.
End Uniform.

Lemma random_key k net c bs r : new_privkey_opt k None net c bs = Some r ->
  (exists n s, find net (txt "name") = Ok n /\ random_secret k bs = Some s /\ r = Ok (PrivateKey s n c) /\ 0 < s < curve_order) \/
  (r = Err E_Priv_UnknownNetwork /\ find net (txt "name") = Err E_UnknownNetwork).
Proof.
  unfold new_privkey_opt. destruct (priv_find_network net (txt "name")) as [n|e'] eqn:F.
  - destruct (random_secret k bs) as [s|] eqn:R; [|discriminate]. intros H. injection H as <-. left. pose proof (secret_range _ _ _ R) as B. exists n, s. rewrite key_max_order.
    replace ((0 <? s) && (s <? curve_order)) with true by lia. apply priv_find_network_ok in F. auto.
  - intros H. injection H as <-. right. pose proof (priv_find_network_err _ _ _ F) as ->. split; [reflexivity|].
    destruct (find net (txt "name")) as [n|e2] eqn:G; [apply priv_find_network_ok in G; congruence|]. apply find_err in G. congruence.
Qed.
Lemma given_key k s net c bs : new_privkey_opt k (Some s) net c bs = Some (new_privkey s net c).
Proof. unfold new_privkey_opt, new_privkey. destruct (priv_find_network net (txt "name")) as [n|e']; cbn [bind]; [|reflexivity]. destruct (negb _); reflexivity. Qed.
Lemma random_seed os : (forall n, blen (os n) = n) ->
  (exists secret chain f, master (os 32) secret chain /\ hdpriv_from_seed_opt None os = Ok (HDPriv (PrivateKey secret livenet true) chain 0 0 0 livenet f)) \/
  (hdpriv_from_seed_opt None os = Err E_Priv_InvalidSecret /\ forall secret chain, ~ master (os 32) secret chain).
Proof.
  intros L. unfold hdpriv_from_seed_opt. change min_seed_len with 32. destruct (hdpriv_from_seed (os 32)) as [h|e] eqn:H.
  - left. apply from_seed_iff in H. destruct H as (_ & s & c & x & y & f & M & _ & _ & ->). eauto.
  - right. apply from_seed_err in H. destruct H as [(_ & H)|(-> & _ & H)]; [rewrite L in H; lia|auto].
Qed.
Lemma given_seed s os : hdpriv_from_seed_opt (Some s) os = hdpriv_from_seed s.
Proof. reflexivity. Qed.
