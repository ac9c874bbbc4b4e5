(** Repeated derivation of public keys (proofs). *)
From Coq Require Import ZArith Znumtheory Lia Bool List.
From Verif Require Import Base M_Hash S_Codec M_Keys S_Keys M_EC S_EC M_HD S_HD M_Sign S_Sign S_KeyArith P_Codec P_Keys P_PubKey P_NumTheory P_ECProps P_SecpPrime P_ECDSA P_DSA P_HD P_Sign P_Cofactor P_KeyArith P_KeyTheory S_Path.
Import ListNotations.
Open Scope Z_scope.

Lemma child_of_left d x y cp chain i sec is left chain1 A child : public_point d x y -> sec_of x y cp sec -> ser32 i is -> hmac_halves chain (sec ++ is) left chain1 ->
  multiple secp_p 0 (EA secp_gx secp_gy) (left mod curve_order) A -> is_sum secp_p 0 A (EA x y) child -> multiple secp_p 0 (EA secp_gx secp_gy) ((left + d) mod curve_order) child.
Proof.
  intros PP SO SI HM MU SU. destruct (child_secret d x y cp chain i child chain1 PP) as (s & (sec' & is' & left' & SO' & SI' & HM' & ->) & _ & M).
  - exists sec, is, left, A. auto.
  - rewrite (sec_of_fun _ _ _ _ _ SO' SO), (ser32_fun _ _ _ SI' SI) in HM'. destruct (hmac_halves_fun _ _ _ _ _ _ HM' HM) as (-> & _). exact M.
Qed.
Lemma mult_same k P Q : multiple secp_p 0 (EA secp_gx secp_gy) k P -> multiple secp_p 0 (EA secp_gx secp_gy) k Q -> P = Q.
Proof.
  intros MP MQ. apply (multiple_fun secp256k1 (proj1 secp_curve) (proj1 (proj2 secp_curve)) secp_G k); [exact (dg_valid secp256k1 secp_gx secp_gy key_max SG)|exact MP|exact MQ].
Qed.
Lemma child_public d x y cp chain i sec is left chain1 A x1 y1 : public_point d x y -> sec_of x y cp sec -> ser32 i is -> hmac_halves chain (sec ++ is) left chain1 ->
  multiple secp_p 0 (EA secp_gx secp_gy) (left mod curve_order) A -> is_sum secp_p 0 A (EA x y) (EA x1 y1) -> public_point ((left + d) mod curve_order) x1 y1.
Proof.
  intros PP SO SI HM MU SU. pose proof (child_of_left _ _ _ _ _ _ _ _ _ _ _ _ PP SO SI HM MU SU) as M. split; [|exact M].
  assert (B : 0 <= (left + d) mod curve_order < curve_order) by (apply Z.mod_pos_bound; reflexivity). revert M B. generalize ((left + d) mod curve_order). intros s M B.
  destruct (Z.eq_dec s 0) as [->|Z]; [|clear -B Z; revert B Z; generalize curve_order; intros; lia].
  exfalso. pose proof (proj2 (dg_order_spec secp256k1 secp_gx secp_gy key_max SG 0 (EA x1 y1) M) eq_refl). discriminate.
Qed.
Lemma pp_unique d d' x y : public_point d x y -> public_point d' x y -> d = d'.
Proof. intros P Q. destruct (pp_pair _ _ _ P) as (_ & ON). destruct (secp_whole x y ON) as (e & _ & U). rewrite (U d P), (U d' Q). reflexivity. Qed.
Lemma pp_on d x y : public_point d x y -> on_curve secp_p 0 7 (EA x y).
Proof. intros P. exact (proj2 (pp_pair _ _ _ P)). Qed.

(** one step *)
Lemma derive_step h i a d : public_point d (pub_x h) (pub_y h) -> hdpub_derive h i false = Ok a ->
  exists sec is left A, sec_of (pub_x h) (pub_y h) (pk_compressed (hp_pubkey h)) sec /\ ser32 (hp_index h) is /\ hmac_halves (hp_chain h) (sec ++ is) left (hp_chain a) /\
    multiple secp_p 0 (EA secp_gx secp_gy) (left mod curve_order) A /\ is_sum secp_p 0 A (EA (pub_x h) (pub_y h)) (EA (pub_x a) (pub_y a)) /\ pk_compressed (hp_pubkey a) = true /\ hp_index a = i.
Proof.
  intros PP E. pose proof (pp_on _ _ _ PP) as ON. unfold pub_x, pub_y in *. destruct (pk_pair (hp_pubkey h)) as (x, y) eqn:PE. cbn [fst snd] in *.
  destruct (hdpub_derive_spec h i x y PE ON) as (child & chain' & (sec & is & left & A & SO & SI & HM & MU & SU) & M). destruct child as [|x' y']; [congruence|]. destruct M as (_ & f & _ & E'). rewrite E in E'.
  assert (a = HDPub (PublicKey (x', y') (hp_network h) true) chain' (hp_depth h + 1) i (hp_fingerprint h) (hp_network h) f) as -> by congruence. cbn [hp_pubkey hp_chain hp_index pk_pair pk_compressed fst snd].
  exists sec, is, left, A. auto 10.
Qed.
Lemma step_derives h i x1 y1 chain1 d sec is left A : public_point d (pub_x h) (pub_y h) -> sec_of (pub_x h) (pub_y h) (pk_compressed (hp_pubkey h)) sec -> ser32 (hp_index h) is ->
  hmac_halves (hp_chain h) (sec ++ is) left chain1 -> multiple secp_p 0 (EA secp_gx secp_gy) (left mod curve_order) A -> is_sum secp_p 0 A (EA (pub_x h) (pub_y h)) (EA x1 y1) ->
  exists a, hdpub_derive h i false = Ok a /\ pub_x a = x1 /\ pub_y a = y1 /\ hp_chain a = chain1.
Proof.
  intros PP SO SI HM MU SU. pose proof (pp_on _ _ _ PP) as ON. pose proof (child_of_left _ _ _ _ _ _ _ _ _ _ _ _ PP SO SI HM MU SU) as MC. unfold pub_x, pub_y in *. destruct (pk_pair (hp_pubkey h)) as (x, y) eqn:PE. cbn [fst snd] in *.
  destruct (hdpub_derive_spec h i x y PE ON) as (child & chain' & (sec' & is' & left' & A' & SO' & SI' & HM' & MU' & SU') & M).
  rewrite (sec_of_fun _ _ _ _ _ SO' SO), (ser32_fun _ _ _ SI' SI) in HM'. destruct (hmac_halves_fun _ _ _ _ _ _ HM' HM) as (-> & ->).
  pose proof (child_of_left _ _ _ _ _ _ _ _ _ _ _ _ PP SO SI HM MU' SU') as MC'. rewrite (mult_same _ _ _ MC' MC) in M. destruct M as (_ & f & _ & E').
  eexists. split; [exact E'|]. auto.
Qed.

Lemma path_spec p : forall h i a d, public_point d (pub_x h) (pub_y h) -> derive_path h (p ++ [i]) = Ok a ->
  exists t, bip32_descendant h (hp_index h :: p) a t /\ hp_index a = i /\ pk_compressed (hp_pubkey a) = true.
Proof.
  induction p as [|j p IH]; intros h i a d PP; cbn [app derive_path]; (destruct (hdpub_derive h _ false) as [b|] eqn:E; [|discriminate]); destruct (derive_step _ _ _ _ PP E) as (sec & is & left & A & SO & SI & HM & MU & SU & CP & IX).
  - intros [= <-]. exists (left + 0). split; [|auto]. unfold bip32_descendant. apply (de_child _ _ _ _ _ _ sec is left A _ _ _ _ _ _ _ SO SI HM MU SU). constructor.
  - intros H. pose proof (child_public _ _ _ _ _ _ _ _ _ _ _ _ _ PP SO SI HM MU SU) as PB. destruct (IH b i a _ PB H) as (t & B & R). exists (left + t). split; [|exact R]. unfold bip32_descendant in *. rewrite CP, IX in B.
    exact (de_child _ _ _ _ _ _ sec is left A _ _ _ _ _ _ _ SO SI HM MU SU B).
Qed.
Lemma path_complete p : forall h i d x' y' chain' t, public_point d (pub_x h) (pub_y h) ->
  descends (pub_x h) (pub_y h) (pk_compressed (hp_pubkey h)) (hp_chain h) (hp_index h :: p) x' y' chain' t ->
  exists a, derive_path h (p ++ [i]) = Ok a /\ pub_x a = x' /\ pub_y a = y' /\ hp_chain a = chain'.
Proof.
  induction p as [|j p IH]; intros h i d x' y' chain' t PP H; inversion H; subst; clear H.
  - match goal with Q : descends _ _ _ _ [] _ _ _ _ |- _ => inversion Q; subst; clear Q end. cbn [app derive_path].
    destruct (step_derives h i _ _ _ d _ _ _ _ PP ltac:(eassumption) ltac:(eassumption) ltac:(eassumption) ltac:(eassumption) ltac:(eassumption)) as (a & E & R). rewrite E. exists a. auto.
  - cbn [app derive_path].
    match goal with SO : sec_of _ _ _ ?sec, SI : ser32 _ ?is, HM : hmac_halves _ (?sec ++ ?is) ?left ?c1, MU : multiple _ _ _ (?left mod _) ?A, SU : is_sum _ _ ?A _ (EA ?x1 ?y1) |- _ =>
      pose proof (child_public _ _ _ _ _ _ _ _ _ _ _ _ _ PP SO SI HM MU SU) as PB; destruct (step_derives h j x1 y1 c1 d sec is left A PP SO SI HM MU SU) as (b & E & X & Y & C) end.
    rewrite E. destruct (hdpub_derive_fields _ _ _ E) as (IX & _ & _ & _ & _ & CP).
    match goal with Q : descends _ _ true _ _ _ _ _ _ |- _ => rewrite <- X, <- Y, <- C, <- CP, <- IX in Q; rewrite <- X, <- Y in PB; exact (IH b i _ _ _ _ _ PB Q) end.
Qed.
Lemma path_fields p : forall h a, derive_path h p = Ok a -> hp_depth a = hp_depth h + Z.of_nat (length p) /\ hp_network a = hp_network h /\ hp_index a = last p (hp_index h).
Proof.
  induction p as [|i p IH]; intros h a; cbn [derive_path length last]; [intros [= <-]; split; [lia|auto]|]. destruct (hdpub_derive h i false) as [b|] eqn:E; [|discriminate]. intros H.
  destruct (hdpub_derive_fields _ _ _ E) as (IX & DE & _ & NE & _). destruct (IH b a H) as (D & N & L). rewrite D, N, L, DE, NE, IX. split; [lia|]. split; [reflexivity|]. destruct p; [reflexivity|]. cbn [last].
  clear. revert z. induction p as [|k p IH]; intros z; [reflexivity|]. apply IH.
Qed.
Lemma path_app p q h : derive_path h (p ++ q) = match derive_path h p with Ok a => derive_path a q | Err e => Err e end.
Proof. revert h. induction p as [|i p IH]; intros h; [reflexivity|]. cbn [app derive_path]. destruct (hdpub_derive h i false); [apply IH|reflexivity]. Qed.
Lemma path_last h p i j a : derive_path h (p ++ [i]) = Ok a -> exists b, derive_path h (p ++ [j]) = Ok b /\ hp_pubkey b = hp_pubkey a /\ hp_chain b = hp_chain a /\ hp_fingerprint b = hp_fingerprint a /\ hp_index a = i /\ hp_index b = j.
Proof.
  rewrite !path_app. destruct (derive_path h p) as [c|]; [|discriminate]. cbn [derive_path]. destruct (hdpub_derive c i false) as [a'|] eqn:E; [|discriminate]. intros [= ->].
  destruct (hdpub_derive_any c i j (ex_intro _ a E)) as (b & EB). rewrite EB. exists b. destruct (hdpub_derive_same c i j a b E EB) as (A & B & C & I & J). auto 6.
Qed.
Lemma descends_secret x y cp chain p x' y' chain' t : descends x y cp chain p x' y' chain' t -> forall d, public_point d x y -> public_point ((d + t) mod curve_order) x' y'.
Proof.
  induction 1 as [x y cp chain|x y cp chain i r sec is left A x1 y1 chain1 x' y' chain' t SO SI HM MU SU H IH]; intros d PP.
  - rewrite Z.add_0_r, Z.mod_small by (destruct PP as ((P & Q) & _); split; [apply Z.lt_le_incl, P|exact Q]). exact PP.
  - pose proof (child_public _ _ _ _ _ _ _ _ _ _ _ _ _ PP SO SI HM MU SU) as PB. specialize (IH _ PB). rewrite Zplus_mod_idemp_l in IH. replace (d + (left + t)) with (left + d + t) by (clear; generalize left, d, t; intros; lia). exact IH.
Qed.
Lemma descends_back x y cp chain p x' y' chain' t : descends x y cp chain p x' y' chain' t -> on_curve secp_p 0 7 (EA x y) -> forall s, public_point s x' y' -> public_point ((s - t) mod curve_order) x y.
Proof.
  intros H ON s PS. destruct (secp_whole x y ON) as (d & PD & _). pose proof (descends_secret _ _ _ _ _ _ _ _ _ H d PD) as PQ. rewrite (pp_unique _ _ _ _ PS PQ).
  rewrite Zminus_mod_idemp_l. replace (d + t - t) with d by (clear; lia). rewrite Z.mod_small by (destruct PD as ((P & Q) & _); split; [apply Z.lt_le_incl, P|exact Q]). exact PD.
Qed.
Lemma path_iff h p i x' y' chain' : on_curve secp_p 0 7 (EA (pub_x h) (pub_y h)) ->
  (exists a, derive_path h (p ++ [i]) = Ok a /\ pub_x a = x' /\ pub_y a = y' /\ hp_chain a = chain') <->
  exists t, descends (pub_x h) (pub_y h) (pk_compressed (hp_pubkey h)) (hp_chain h) (hp_index h :: p) x' y' chain' t.
Proof.
  intros ON. destruct (secp_whole _ _ ON) as (d & PD & _). split.
  - intros (a & E & <- & <- & <-). destruct (path_spec p h i a d PD E) as (t & B & _). exists t. exact B.
  - intros (t & H). exact (path_complete p h i d x' y' chain' t PD H).
Qed.
Lemma path_secrets h p i a : on_curve secp_p 0 7 (EA (pub_x h) (pub_y h)) -> derive_path h (p ++ [i]) = Ok a ->
  exists t, bip32_descendant h (hp_index h :: p) a t /\
    (forall d s, public_point d (pub_x h) (pub_y h) -> (public_point s (pub_x a) (pub_y a) <-> s = (d + t) mod curve_order)) /\
    (forall s, public_point s (pub_x a) (pub_y a) -> public_point ((s - t) mod curve_order) (pub_x h) (pub_y h)).
Proof.
  intros ON E. destruct (secp_whole _ _ ON) as (d0 & PD & _). destruct (path_spec p h i a d0 PD E) as (t & B & _). exists t. split; [exact B|]. split.
  - intros d s P. pose proof (descends_secret _ _ _ _ _ _ _ _ _ B d P) as Q. split; [intros S; exact (pp_unique _ _ _ _ S Q)|intros ->; exact Q].
  - intros s S. exact (descends_back _ _ _ _ _ _ _ _ _ B ON s S).
Qed.
(** the sum is determined by public data *)
Lemma descends_fun x y cp chain p x' y' chain' t : descends x y cp chain p x' y' chain' t -> on_curve secp_p 0 7 (EA x y) ->
  forall x2 y2 chain2 t2, descends x y cp chain p x2 y2 chain2 t2 -> x2 = x' /\ y2 = y' /\ chain2 = chain' /\ t2 = t.
Proof.
  induction 1 as [x y cp chain|x y cp chain i r sec is left A x1 y1 chain1 x' y' chain' t SO SI HM MU SU H IH]; intros ON x2 y2 chain2 t2 K; inversion K; subst; clear K; [auto|].
  destruct (secp_whole _ _ ON) as (d & PD & _). pose proof (child_public _ _ _ _ _ _ _ _ _ _ _ _ _ PD SO SI HM MU SU) as PB.
  match goal with S2 : sec_of _ _ _ ?s2, I2 : ser32 _ ?i2, H2 : hmac_halves _ (?s2 ++ ?i2) ?l2 ?c2, M2 : multiple _ _ _ (?l2 mod _) ?A2, U2 : is_sum _ _ ?A2 _ (EA ?u ?v), Q : descends ?u ?v true ?c2 _ _ _ _ _ |- _ =>
    first [constr_eq s2 sec; fail 1 | rewrite (sec_of_fun _ _ _ _ _ S2 SO), (ser32_fun _ _ _ I2 SI) in H2; destruct (hmac_halves_fun _ _ _ _ _ _ H2 HM) as (-> & ->);
      pose proof (child_of_left _ _ _ _ _ _ _ _ _ _ _ _ PD SO SI HM M2 U2) as MC; assert (EQ : EA u v = EA x1 y1) by exact (mult_same _ _ _ MC (proj2 PB));
      assert (u = x1) as -> by congruence; assert (v = y1) as -> by congruence; destruct (IH (pp_on _ _ _ PB) _ _ _ _ Q) as (-> & -> & -> & ->); auto] end.
Qed.
Lemma path_wallet h q p i a : valid_key (hv_privkey h) -> known (hv_network h) -> hdpub_from_hdpriv h = Ok q -> derive_path q (p ++ [i]) = Ok a ->
  exists t, bip32_descendant q (hv_index h :: p) a t /\
    let k := PrivateKey ((k_secret (hv_privkey h) + t) mod curve_order) (hv_network h) true in valid_key k /\ pk_from_private_key k = Ok (hp_pubkey a).
Proof.
  intros V KN EQ E. destruct (to_hdpub_ok h V) as (x & y & f & PO & _ & EQ'). rewrite EQ in EQ'.
  assert (Q : q = HDPub (PublicKey (x, y) (k_network (hv_privkey h)) (k_compressed (hv_privkey h))) (hv_chain h) (hv_depth h) (hv_index h) (hv_parent h) (hv_network h) f) by congruence. clear EQ EQ'.
  assert (PP : public_point (k_secret (hv_privkey h)) (pub_x q) (pub_y q)) by (rewrite Q; split; [exact (proj1 V)|exact PO]). destruct (path_spec p q i a _ PP E) as (t & B & _ & _). exists t. pose proof B as B'. rewrite Q in B' at 2. cbn [hp_index] in B'. split; [exact B'|].
  pose proof (descends_secret _ _ _ _ _ _ _ _ _ B _ PP) as PA. split; [split; [exact (proj1 PA)|exact KN]|]. apply pub_iff. exists (pub_x a), (pub_y a). split; [exact (proj1 (pp_pair _ _ _ PA))|].
  destruct (path_fields _ _ _ E) as (_ & NA & _). rewrite path_app in E. destruct (derive_path q p) as [c|] eqn:EC; [|discriminate]. cbn [derive_path] in E. destruct (hdpub_derive c i false) as [b|] eqn:ED; [|discriminate]. injection E as ->.
  destruct (path_fields _ _ _ EC) as (_ & NC & _). destruct (hdpub_derive_fields _ _ _ ED) as (_ & _ & _ & NB & NK & CP). unfold pub_x, pub_y. destruct (hp_pubkey a) as [[u v] n cp]. cbn [pk_network pk_compressed pk_pair fst snd] in *. subst cp.
  replace (hv_network h) with n; [reflexivity|]. rewrite NK, NC, Q. reflexivity.
Qed.
Lemma parsed_on s h : hdpub_from_string s = Ok h -> pub_x h < secp_p -> on_curve secp_p 0 7 (EA (pub_x h) (pub_y h)).
Proof.
  intros E. apply hdpub_from_string_iff in E. destruct E as (b & rest & v & de & pa & ix & ch & key & n & x & y & f & _ & _ & _ & SO & ON & Y & _ & ->). unfold pub_x, pub_y. cbn [hp_pubkey pk_pair fst snd]. intros X.
  assert (X0 : 0 <= x) by (inversion SO; subst; apply be_val_bound). split; [split; assumption|]. split; [exact Y|]. unfold secp_on in ON. rewrite ON. f_equal. clear. generalize x. intros. ring.
Qed.
