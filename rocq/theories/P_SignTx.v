(** What a signed input satisfies. *)
From Coq Require Import ZArith Znumtheory Lia Bool List.
From Verif Require Import Base M_Hash M_Codec S_Codec P_Codec M_Keys S_Keys P_Keys M_EC S_EC P_DSA P_SigAlg M_Script S_Script P_Script M_Tx S_Tx P_Tx P_TxSign P_PubKey P_PubTx M_Sign S_Sign P_Sign.
Import ListNotations.
Open Scope Z_scope.

Lemma pp_one : public_point 1 secp_gx secp_gy.
Proof. split; [split; reflexivity|]. change 1 with (0 + 1). eapply mult_S; [discriminate|apply mult_0|apply sum_left]. Qed.
Lemma G_below : secp_gx < curve_order /\ secp_gy < curve_order. Proof. split; reflexivity. Qed.
Lemma pp_one_is x y : public_point 1 x y -> x = secp_gx /\ y = secp_gy.
Proof. intros P. exact (pp_fun 1 x y secp_gx secp_gy P pp_one). Qed.
(** [verify] does not accept what [sign] returns *)
Lemma verify_sign_fails : ~ (forall k nonce m b, valid_key k -> 0 < nonce < curve_order -> blen m = 32 -> priv_sign k nonce m = SOk b -> priv_verify k b m = SOk true).
Proof.
  intros H. pose proof G_below as (GX & GY). set (m := x01 :: zeros 31). assert (ZM : be_val m = 2 ^ 248) by (vm_compute; reflexivity).
  set (k := PrivateKey 1 livenet true). assert (N1 : 0 < 1 < curve_order) by (split; reflexivity). assert (LM : blen m = 32) by reflexivity.
  assert (VK : valid_key k) by (split; [exact N1|vm_compute; tauto]). clearbody m.
  destruct (sign_outcome k secp_gx secp_gy 1 m pp_one GX GY N1) as (r & yr & P & R & C); [clear -LM; lia|].
  apply pp_one_is in P. destruct P as (-> & ->). destruct C as [(_ & s & b & E & _)|(Z0 & _)].
  - assert (BM : 2 ^ 160 <= be_val m < curve_order) by (rewrite ZM; split; [discriminate|reflexivity]).
    destruct (verify_sign_long k secp_gx secp_gy 1 m b pp_one GX GY N1 E BM) as (r & yr & P & I). apply pp_one_is in P. destruct P as (-> & ->).
    specialize (H k 1 m b VK N1 LM E). assert (RG : secp_p - curve_order <= secp_gx < curve_order) by (split; [discriminate|reflexivity]). apply (proj1 (I RG)) in H. rewrite ZM in H. pose proof (sha1_small m) as S.
    change (k_secret k) with 1 in H. revert S H. generalize (be_val (sha1 m)). intros e S H.
    rewrite Z.mod_small in H; [|split; [|apply (Z.lt_trans _ (2 ^ 160 + 2 ^ 248 + 2 * 1 * secp_gx)); [|reflexivity]]].
    + assert (GP : 0 < 2 * 1 * secp_gx) by reflexivity. revert H GP. generalize (2 * 1 * secp_gx). intros w H GP. clear -H GP S. lia.
    + assert (GP : 0 < 2 * 1 * secp_gx) by reflexivity. revert GP. generalize (2 * 1 * secp_gx). intros w GP. clear -GP S. lia.
    + generalize (2 * 1 * secp_gx). intros w. clear -S. lia.
  - rewrite ZM in Z0. vm_compute in Z0. discriminate Z0.
Qed.

(** ** address inputs *)
Lemma pk_point k p : valid_key k -> pk_from_private_key k = Ok p -> public_point (k_secret k) (fst (pk_pair p)) (snd (pk_pair p)) /\ on_curve secp_p 0 7 (EA (fst (pk_pair p)) (snd (pk_pair p))).
Proof.
  intros V E. destruct (public_key_of k V) as (x & y & E' & M & _). rewrite E in E'. injection E' as ->. cbn [pk_pair fst snd].
  assert (P : public_point (k_secret k) x y) by (split; [exact (proj1 V)|exact M]). split; [exact P|exact (proj2 (pp_pair _ _ _ P))].
Qed.
(** what [sign] returned is accepted *)
Lemma sign_accepts k x y nonce m b st : public_point (k_secret k) x y -> 0 < nonce < curve_order -> priv_sign k nonce m = SOk b ->
  (forall r yr, public_point nonce r yr -> r < curve_order) -> accepts m st x y (b ++ [Zb st]).
Proof.
  intros P N E RN. destruct (Z.ltb_spec x curve_order) as [X|X]; [|rewrite (sign_point_range k x y nonce m P) in E by (clear -X; lia); discriminate].
  destruct (Z.ltb_spec y curve_order) as [Y|Y]; [|rewrite (sign_point_range k x y nonce m P) in E by (clear -Y; lia); discriminate].
  destruct (Z.ltb_spec 32 (blen m)) as [L|L]; [rewrite (sign_long k x y nonce m P X Y L) in E; discriminate|].
  destruct m as [|c m]; [rewrite (sign_empty k x y nonce P X Y) in E; discriminate|].
  destruct (sign_outcome k x y nonce (c :: m) P X Y N) as (r & yr & Q & R & [(_ & s & b' & E' & DS & _ & S & _ & V)|(_ & E')]);
    [split; [rewrite blen_cons; pose proof (blen_nonneg m) as BN; clear -BN; lia|exact L]| |congruence].
  rewrite E in E'. injection E' as <-. exists b, r, s. split; [reflexivity|]. split; [exact DS|]. split; [exact S|]. apply V. exact (RN r yr Q).
Qed.
Lemma address_redeems id n a q i k nonce payload sg st i' : address_input_create id n a q = Ok i -> valid_key k -> address_can_sign i [k] = Ok true ->
  0 < nonce < curve_order -> (forall r yr, public_point nonce r yr -> r < curve_order) ->
  priv_sign k nonce payload = SOk (sg 0%nat (k_secret k) payload) -> input_sign sg i [k] payload st = Ok i' ->
  redeems_hash (pyb_bytes (a_phash a)) payload st (s_ins (in_script i')).
Proof.
  intros A V C N RN E S. destruct (address_can_sign_spec id n a q i k A V) as (p & h & b & EP & KH & C' & I). rewrite C in C'. injection C' as <-.
  pose proof (proj1 I eq_refl) as H. apply address_create_ok in A. destruct A as (CL & _).
  destruct (address_sign_ok sg i k payload st i' CL S) as (pub & kb & EP' & EB & ST & _ & SH & GS & DA). unfold priv_to_public_key in EP'. rewrite EP in EP'. injection EP' as <-.
  destruct (pk_point k p V EP) as (P & ON). destruct KH as (kb' & SO & HH).
  destruct (valid_key_usable k V) as (p' & EP' & U & _). rewrite EP in EP'. injection EP' as <-. destruct (usable_bytes p U) as (b' & EB' & SO' & _). rewrite EB in EB'. injection EB' as <-.
  rewrite <- (sec_unique _ _ _ _ _ SO SO') in *. inversion SH as [a0 b0 PA PB X0 EL| | | | |]. unfold get_signature, data_at in GS, DA. rewrite <- EL in GS, DA. cbn [nth_error] in GS, DA.
  injection GS as GS. injection DA as DA. exists a0, b0, (sg 0%nat (k_secret k) payload ++ [Zb st]), kb', (fst (pk_pair p)), (snd (pk_pair p)), (pk_compressed p).
  split; [reflexivity|]. split; [exact PA|]. split; [exact PB|]. split; [exact GS|]. split; [exact DA|]. split; [congruence|]. split; [exact SO|]. split; [exact ON|].
  exact (sign_accepts k _ _ nonce payload _ st P N E RN).
Qed.
Lemma py_index_nat {A} (l : list A) j a : py_index l (Z.of_nat j) = Ok a <-> nth_error l j = Some a.
Proof.
  unfold py_index. cbv zeta. destruct (Z.ltb_spec (Z.of_nat j) 0); [lia|]. rewrite Nat2Z.id. cbn [orb]. destruct (Z.ltb_spec (Z.of_nat j) 0); [lia|]. cbn [orb].
  unfold blen. destruct (Z.leb_spec (Z.of_nat (length l)) (Z.of_nat j)) as [L|L].
  - split; [discriminate|]. intros E. assert (j < length l)%nat by (apply nth_error_Some; congruence). lia.
  - destruct (nth_error l j) eqn:E; split; congruence.
Qed.
Lemma tx_redeems id n a q t j k i nonce sg st t' : address_input_create id n a q = Ok i -> nth_error (tx_inputs t) j = Some i -> tx_fits t ->
  valid_key k -> address_can_sign i [k] = Ok true -> 0 < nonce < curve_order -> (forall r yr, public_point nonce r yr -> r < curve_order) ->
  (forall m, signing_message t j st m -> priv_sign k nonce (sha256 (sha256 m)) = SOk (sg 0%nat (k_secret k) (sha256 (sha256 m)))) ->
  tx_sign sg t [k] (Z.of_nat j) st = Ok t' ->
  exists m i', signing_message t j st m /\ nth_error (tx_inputs t') j = Some i' /\ same_but_script i i' /\
    redeems_hash (pyb_bytes (a_phash a)) (sha256 (sha256 m)) st (s_ins (in_script i')).
Proof.
  intros A NT F V C N RN E S. destruct (tx_sign_inv _ _ _ _ _ _ S) as (m & inp & inp' & M & PI & IS & _ & _ & _ & ->). apply py_index_nat in PI. rewrite NT in PI. injection PI as <-.
  destruct (address_create_ok _ _ _ _ _ A) as (CL & _).
  assert (U : u32 st). { destruct (address_sign_ok _ _ _ _ _ _ CL IS) as (? & ? & _ & _ & B & _). unfold u32. lia. }
  assert (SM : signing_message t j st m) by (apply (preimage_message t j st m F U), M).
  exists m, inp'. split; [exact SM|]. cbn [tx_inputs]. split.
  - rewrite mapi_nth, NT. cbn [option_map]. rewrite Z.add_0_l, Z.eqb_refl. reflexivity.
  - split; [exact (proj2 (proj2 (input_sign_ok _ _ _ _ _ _ IS)))|].
    exact (address_redeems id n a q i k nonce (sha256 (sha256 m)) sg st inp' A V C N RN (E m SM) IS).
Qed.

(** ** multisig inputs *)
Lemma match_in_order payload st keys ks (f : nat -> privkey -> bytes) n sigs : in_order keys ks -> List.length sigs = List.length keys ->
  (forall j k, nth_error keys j = Some k -> nth_error sigs j = Some (Str (f (n + j)%nat k ++ [Zb st])) /\
     forall x y, public_point (k_secret k) x y -> accepts payload st x y (f (n + j)%nat k ++ [Zb st])) ->
  multi_match payload st (map Some sigs) ks.
Proof.
  intros O. revert n sigs. induction O as [ks|k keys p ks P O IH|keys p ks O IH]; intros n sigs L H.
  - destruct sigs; [|discriminate L]. constructor.
  - destruct sigs as [|a sigs]; [discriminate L|]. destruct (H 0%nat k eq_refl) as (E & A). injection E as ->. cbn [map]. constructor; [apply A, P|].
    apply (IH (S n)); [injection L; auto|]. intros j k' J. replace (S n + j)%nat with (n + S j)%nat by lia. exact (H (S j) k' J).
  - destruct sigs as [|a sigs]; [constructor|]. cbn [map]. apply mm_skip. apply (IH n (a :: sigs) L H).
Qed.
Lemma multisig_matches sg nonces i keys ks payload st i' : in_class_of i = C_ScriptInput \/ in_class_of i = C_MultisigInput -> keys <> [] ->
  in_order keys ks -> all_signed sg nonces payload keys -> input_sign sg i keys payload st = Ok i' ->
  List.length (get_signatures (in_script i')) = List.length keys /\ multi_match payload st (get_signatures (in_script i')) ks.
Proof.
  intros C N O A S. destruct (script_sign_ok sg i keys payload st i' C N S) as (rb & sigs & _ & _ & L & H & _ & _ & G & _). rewrite G, map_length.
  split; [exact L|]. apply (match_in_order payload st keys ks (fun j k => sg j (k_secret k) payload) 0 sigs O L). intros j k J. rewrite Nat.add_0_l.
  split; [exact (H j k J)|]. intros x y P. destruct (A j k J) as (NB & RN & E). exact (sign_accepts k x y (nonces j) payload _ st P NB E RN).
Qed.
Lemma accepts_other d d' x y x' y' k nonce r yr payload st b : k_secret k = d -> public_point d x y -> public_point d' x' y' -> d <> d' ->
  0 < nonce < curve_order -> public_point nonce r yr -> secp_p - curve_order <= r < curve_order -> priv_sign k nonce payload = SOk b ->
  accepts payload st x' y' (b ++ [Zb st]) -> (2 * be_val payload + r * (d + d')) mod curve_order = 0.
Proof.
  intros KD P P' ND N Q R E (b' & r' & s & EB & DS & SB & V). apply app_inj_tail in EB. destruct EB as (<- & _). rewrite <- KD in P.
  destruct (Z.ltb_spec x curve_order) as [X|X]; [|rewrite (sign_point_range k x y nonce payload P) in E by (clear -X; lia); discriminate].
  destruct (Z.ltb_spec y curve_order) as [Y|Y]; [|rewrite (sign_point_range k x y nonce payload P) in E by (clear -Y; lia); discriminate].
  destruct (sign_made k x y nonce payload b P X Y N E) as (r0 & yr0 & s1 & Q0 & R0 & DS0 & S1 & s0 & S2 & S0 & K). rewrite KD in K.
  destruct (pp_fun _ _ _ _ _ Q Q0) as (<- & <-). destruct (lax_fun _ _ _ _ _ (der_lax _ _ _ DS) (der_lax _ _ _ DS0)) as (-> & ->).
  assert (V0 : secp_valid x' y' (be_val payload) r s0). { destruct S2 as [->|S2]; [exact V|]. apply (secp_mirror d' x' y' (be_val payload) r s1 P') in V. rewrite S2. exact V. }
  unfold secp_valid in V0. rewrite <- key_max_order in *. pose proof (pp_mult _ _ _ P') as PM. destruct Q as (_ & Q), P' as (D' & _). destruct P as (D & _).
  assert (NB : 0 <= nonce < key_max) by (clear -N; lia). assert (R1 : 1 <= r < key_max) by (split; [exact (proj1 R0)|exact (proj2 R)]).
  assert (W : secp_p <= key_max + r) by (clear -R; lia).
  pose proof (proj1 (sig_valid_keys secp256k1 secp_gx secp_gy key_max secp_group d d' x' y' nonce r yr (be_val payload) s0 PM NB Q R1 S0 K W) V0) as [F|F]; [|exact F].
  exfalso. apply ND. rewrite <- KD in *. rewrite key_max_order in F. rewrite (Z.mod_small d') in F by (clear -D'; lia). rewrite Z.mod_small in F by (clear -D; lia). symmetry. exact F.
Qed.
Lemma multisig_swapped sg i k1 k2 p1 p2 nonce r yr payload st i' : in_class_of i = C_ScriptInput \/ in_class_of i = C_MultisigInput ->
  public_point (k_secret k1) (fst (pk_pair p1)) (snd (pk_pair p1)) -> public_point (k_secret k2) (fst (pk_pair p2)) (snd (pk_pair p2)) -> k_secret k2 <> k_secret k1 ->
  0 < nonce < curve_order -> public_point nonce r yr -> secp_p - curve_order <= r < curve_order -> priv_sign k2 nonce payload = SOk (sg 0%nat (k_secret k2) payload) ->
  input_sign sg i [k2; k1] payload st = Ok i' -> multi_match payload st (get_signatures (in_script i')) [p1; p2] ->
  (2 * be_val payload + r * (k_secret k2 + k_secret k1)) mod curve_order = 0.
Proof.
  intros C P1 P2 ND N Q R E S M. destruct (script_sign_ok sg i [k2; k1] payload st i' C ltac:(discriminate) S) as (rb & sigs & _ & _ & L & H & _ & _ & G & _).
  destruct sigs as [|a [|b [|? ?]]]; try discriminate L. pose proof (H 0%nat k2 eq_refl) as E0. cbn [nth_error] in E0. injection E0 as ->. rewrite G in M. cbn [map] in M.
  inversion M as [|sig sigs k ks A M' E1 E2|s sigs k ks M' E1 E2]; subst.
  - exact (accepts_other (k_secret k2) (k_secret k1) _ _ _ _ k2 nonce r yr payload st _ eq_refl P2 P1 ND N Q R E A).
  - exfalso. inversion M' as [|? ? ? ? A' M2|? ? ? ? M2]; subst; inversion M2.
Qed.

(** [can_sign] accepts the keys in any order, and the signatures come out in that order *)
Lemma p2sh_in_total r rb sigs : script_to_bytes r = Ok rb -> 1 <= blen rb <= 4294967295 -> Forall (fun b => 1 <= blen b <= 4294967295) sigs ->
  exists s, p2sh_in_create r (map Str sigs) = Ok s.
Proof.
  intros E L F. unfold p2sh_in_create. rewrite E. cbn [bind]. unfold sub_create. cbn [app to_instructions].
  rewrite to_instruction_op_ok by (unfold pushes; vm_compute; intuition discriminate). cbn [bind].
  assert (T : exists ins, to_instructions (map I_Bytes (map Str sigs) ++ [I_Bytes (Str rb)]) = Ok ins).
  { induction F as [|b sigs B F (ins & IH)]; cbn [map app to_instructions].
    - destruct (to_instruction_bytes_ok rb L) as (j & ->). cbn [bind]. eauto.
    - destruct (to_instruction_bytes_ok b B) as (j & ->). rewrite IH. cbn [bind]. eauto. }
  destruct T as (ins & ->). cbn [bind]. eauto.
Qed.
Definition twice_x : Z := 0xc6047f9441ed7d6d3045406e95c07cd85c778e4b8cef3ca7abac09b95c709ee5.
Definition twice_y : Z := 0x1ae168fea63dc339a3c58419466ceaeef7f632653266d0e1236431a950cfe52a.
Lemma pp_two : public_point 2 twice_x twice_y.
Proof.
  split; [split; reflexivity|]. destruct pp_one as (_ & M). apply (mult_S secp_p 0 (EA secp_gx secp_gy) 1 (EA secp_gx secp_gy)); [discriminate|exact M|].
  apply (sum_tangent secp_p 0 secp_gx secp_gy 0xcb35b28428101a303eb9d1235992ac63f58857c2f631ee6936d3aebbeddcd1b1); [vm_compute; discriminate|vm_compute; reflexivity..].
Qed.
Lemma zeros_signed k x y : public_point (k_secret k) x y -> x < curve_order -> y < curve_order -> (k_secret k * secp_gx) mod curve_order <> 0 ->
  exists b, priv_sign k 1 (zeros 32) = SOk b /\ blen b <= 72.
Proof.
  intros P X Y NZ. destruct (sign_outcome k x y 1 (zeros 32) P X Y) as (r & yr & Q & R & C); [split; reflexivity|split; discriminate|].
  apply pp_one_is in Q. destruct Q as (-> & ->). replace (be_val (zeros 32)) with 0 in C by reflexivity. rewrite Z.add_0_l in C.
  destruct C as [(_ & s & b & E & _ & LB & _)|(Z0 & _)]; [|contradiction]. exists b. split; [exact E|exact LB].
Qed.
Definition w_k1 := PrivateKey 1 livenet true.
Definition w_k2 := PrivateKey 2 livenet true.
Definition w_p1 := PublicKey (secp_gx, secp_gy) livenet true.
Definition w_p2 := PublicKey (twice_x, twice_y) livenet true.
Lemma w_facts : valid_key w_k1 /\ valid_key w_k2 /\ Forall usable_pub [w_p1; w_p2] /\ pk_from_private_key w_k1 = Ok w_p1 /\ pk_from_private_key w_k2 = Ok w_p2.
Proof.
  assert (V : forall z, 1 <= z <= 2 -> valid_key (PrivateKey z livenet true)).
  { intros z (Z1 & Z2). split; [|left; reflexivity]. split; [apply (Z.lt_le_trans 0 1); [reflexivity|exact Z1]|apply (Z.le_lt_trans _ 2); [exact Z2|reflexivity]]. }
  assert (V1 : valid_key w_k1) by (apply V; split; discriminate). assert (V2 : valid_key w_k2) by (apply V; split; discriminate).
  destruct (valid_key_usable w_k1 V1) as (q1 & E1 & U1 & _), (valid_key_usable w_k2 V2) as (q2 & E2 & U2 & _).
  destruct (public_key_of w_k1 V1) as (x1 & y1 & F1 & M1 & _), (public_key_of w_k2 V2) as (x2 & y2 & F2 & M2 & _).
  rewrite F1 in E1. rewrite F2 in E2. injection E1 as <-. injection E2 as <-.
  assert (P1 : public_point 1 x1 y1) by (split; [exact (proj1 V1)|exact M1]). assert (P2 : public_point 2 x2 y2) by (split; [exact (proj1 V2)|exact M2]).
  destruct (pp_one_is _ _ P1) as (-> & ->). destruct (pp_fun _ _ _ _ _ P2 pp_two) as (-> & ->).
  split; [exact V1|]. split; [exact V2|]. split; [constructor; [exact U1|constructor; [exact U2|constructor]]|]. split; [exact F1|exact F2].
Qed.
Lemma twice_below : twice_x < curve_order /\ twice_y < curve_order. Proof. split; reflexivity. Qed.
(** all that is needed to sign with the two keys *)
Lemma w_signed : exists sg i i', multisig_input_create (zeros 32) 0 [w_p1; w_p2] 2 4294967295 = Ok i /\ multisig_can_sign i [w_k2; w_k1] = Ok true /\
  all_signed sg (fun _ => 1) (zeros 32) [w_k2; w_k1] /\ input_sign sg i [w_k2; w_k1] (zeros 32) 1 = Ok i'.
Proof.
  destruct w_facts as (V1 & V2 & U & F1 & F2). destruct G_below as (GX & GY), twice_below as (TX & TY).
  destruct (zeros_signed w_k1 _ _ pp_one GX GY) as (b1 & E1 & L1); [discriminate|].
  destruct (zeros_signed w_k2 _ _ pp_two TX TY) as (b2 & E2 & L2); [discriminate|].
  set (sg := (fun (j : nat) (d : Z) (_ : bytes) => match j with O => b2 | _ => b1 end) : signer).
  destruct (multisig_input_create (zeros 32) 0 [w_p1; w_p2] 2 4294967295) as [i|e] eqn:C; [|vm_compute in C; discriminate C].
  exists sg, i. assert (CI : in_class_of i = C_MultisigInput) by (exact (proj1 (multisig_create_fields _ _ _ _ _ _ C))).
  assert (SB : exists rb, script_to_bytes (in_script i) = Ok rb /\ 1 <= blen rb <= 4294967295).
  { vm_compute in C. injection C as <-. eexists. split; [vm_compute; reflexivity|]. split; discriminate. }
  destruct SB as (rb & SB & LB). destruct (p2sh_in_total (in_script i) rb [b2 ++ [Zb 1]; b1 ++ [Zb 1]] SB LB) as (s & S).
  { repeat constructor; rewrite blen_app; change (blen [Zb 1]) with 1; pose proof (blen_nonneg b1); pose proof (blen_nonneg b2); clear SB E1 E2 C; lia. }
  exists (input_replace_script i s). split; [reflexivity|]. split; [|split].
  - destruct (multisig_can_sign_livenet _ _ _ _ _ _ [w_k2; w_k1] C U) as (b & B & I).
    + constructor; [reflexivity|constructor; [reflexivity|constructor]].
    + constructor; [exact V2|constructor; [exact V1|constructor]].
    + rewrite B. f_equal. apply I. split; [reflexivity|]. constructor; [|constructor; [|constructor]].
      * exists w_p2. split; [exact F2|right; left; reflexivity].
      * exists w_p1. split; [exact F1|left; reflexivity].
  - intros j k J. split; [split; reflexivity|]. split; [intros r yr Q; apply pp_one_is in Q; destruct Q as (-> & _); exact GX|].
    destruct j as [|[|j]]; [injection J as <-; exact E2|injection J as <-; exact E1|destruct j; discriminate J].
  - unfold input_sign. rewrite CI. cbn [signatures sg]. change (py_chr 1) with (Ok [Zb 1] : res bytes). cbn [bind]. change (p2sh_in_create (in_script i) (map Str [b2 ++ [Zb 1]; b1 ++ [Zb 1]]) = Ok s) in S.
    cbn [map] in S. rewrite S. cbn [bind]. reflexivity.
Qed.
Lemma multisig_order_ignored : ~ (forall sg nonces id n ks m q i keys payload st i', multisig_input_create id n ks m q = Ok i -> Forall usable_pub ks -> Forall valid_key keys ->
  multisig_can_sign i keys = Ok true -> List.length payload = 32%nat -> all_signed sg nonces payload keys -> input_sign sg i keys payload st = Ok i' ->
  multi_match payload st (get_signatures (in_script i')) ks).
Proof.
  intros H. destruct w_facts as (V1 & V2 & U & F1 & F2). destruct w_signed as (sg & i & i' & C & CS & A & S). pose proof (A 0%nat w_k2 eq_refl) as (N & _ & E).
  assert (M : multi_match (zeros 32) 1 (get_signatures (in_script i')) [w_p1; w_p2]).
  { apply (H sg (fun _ => 1) (zeros 32) 0 [w_p1; w_p2] 2 4294967295 i [w_k2; w_k1] (zeros 32) 1 i' C U); [constructor; [exact V2|constructor; [exact V1|constructor]]|exact CS|reflexivity|exact A|exact S]. }
  assert (RG : secp_p - curve_order <= secp_gx < curve_order) by (split; [discriminate|reflexivity]).
  pose proof (multisig_swapped sg i w_k1 w_k2 w_p1 w_p2 1 secp_gx secp_gy (zeros 32) 1 i' (or_intror (proj1 (multisig_create_fields _ _ _ _ _ _ C))) pp_one pp_two
    ltac:(discriminate) N pp_one RG E S M) as F. vm_compute in F. discriminate F.
Qed.
Lemma tx_matches sg nonces t j i keys ks st t' : nth_error (tx_inputs t) j = Some i -> in_class_of i = C_ScriptInput \/ in_class_of i = C_MultisigInput -> tx_fits t -> keys <> [] ->
  in_order keys ks -> (forall m, signing_message t j st m -> all_signed sg nonces (sha256 (sha256 m)) keys) -> tx_sign sg t keys (Z.of_nat j) st = Ok t' ->
  exists m i', signing_message t j st m /\ nth_error (tx_inputs t') j = Some i' /\ same_but_script i i' /\
    List.length (get_signatures (in_script i')) = List.length keys /\ multi_match (sha256 (sha256 m)) st (get_signatures (in_script i')) ks.
Proof.
  intros NT CL F NE O A S. destruct (tx_sign_inv _ _ _ _ _ _ S) as (m & inp & inp' & M & PI & IS & _ & _ & _ & ->). apply py_index_nat in PI. rewrite NT in PI. injection PI as <-.
  assert (U : u32 st). { destruct (script_sign_ok _ _ _ _ _ _ CL NE IS) as (? & ? & _ & B & _). unfold u32. lia. }
  assert (SM : signing_message t j st m) by (apply (preimage_message t j st m F U), M).
  exists m, inp'. split; [exact SM|]. cbn [tx_inputs]. split.
  - rewrite mapi_nth, NT. cbn [option_map]. rewrite Z.add_0_l, Z.eqb_refl. reflexivity.
  - split; [exact (proj2 (proj2 (input_sign_ok _ _ _ _ _ _ IS)))|]. exact (multisig_matches sg nonces i keys ks _ st inp' CL NE O (A m SM) IS).
Qed.
(** examples *)
Lemma ex_in_order : in_order [w_k1; w_k2] [w_p1; w_p2] /\ in_order [w_k2] [w_p1; w_p2] /\ ~ in_order [w_k2; w_k1] [w_p1; w_p2].
Proof.
  split; [apply io_take; [exact pp_one|apply io_take; [exact pp_two|apply io_done]]|]. split; [apply io_skip, io_take; [exact pp_two|apply io_done]|].
  intros H. inversion H as [|? ? ? ? P H'|? ? ? H']; subst.
  - destruct (pp_fun _ _ _ _ _ P pp_two) as (E & _). discriminate E.
  - inversion H' as [|? ? ? ? P H2|? ? ? H2]; subst; inversion H2.
Qed.
Lemma ex_sign : exists b, priv_sign w_k2 1 (zeros 32) = SOk b /\ bip66 (b ++ [x01]) /\ accepts (zeros 32) 1 twice_x twice_y (b ++ [x01]) /\ ~ accepts (zeros 32) 1 secp_gx secp_gy (b ++ [x01]).
Proof.
  destruct twice_below as (TX & TY). destruct (zeros_signed w_k2 _ _ pp_two TX TY) as (b & E & _); [discriminate|]. exists b. assert (N1 : 0 < 1 < curve_order) by (split; reflexivity).
  assert (RG : secp_p - curve_order <= secp_gx < curve_order) by (split; [discriminate|reflexivity]).
  split; [exact E|]. split; [exact (sign_bip66 w_k2 1 (zeros 32) b x01 N1 E)|]. split.
  - apply (sign_accepts w_k2 _ _ 1 (zeros 32) b 1 pp_two N1 E). intros r yr Q. apply pp_one_is in Q. destruct Q as (-> & _). reflexivity.
  - intros A. pose proof (accepts_other 2 1 _ _ _ _ w_k2 1 secp_gx secp_gy (zeros 32) 1 b eq_refl pp_two pp_one ltac:(discriminate) N1 pp_one RG E A) as F. vm_compute in F. discriminate F.
Qed.
Lemma ex_multisig : exists sg i i', multisig_input_create (zeros 32) 0 [w_p1; w_p2] 2 4294967295 = Ok i /\ multisig_can_sign i [w_k2; w_k1] = Ok true /\
  all_signed sg (fun _ => 1) (zeros 32) [w_k2; w_k1] /\ input_sign sg i [w_k2; w_k1] (zeros 32) 1 = Ok i' /\
  ~ multi_match (zeros 32) 1 (get_signatures (in_script i')) [w_p1; w_p2] /\ multi_match (zeros 32) 1 (get_signatures (in_script i')) [w_p2; w_p1].
Proof.
  destruct w_signed as (sg & i & i' & C & CS & A & S). exists sg, i, i'. split; [exact C|]. split; [exact CS|]. split; [exact A|]. split; [exact S|].
  pose proof (or_intror (proj1 (multisig_create_fields _ _ _ _ _ _ C)) : in_class_of i = C_ScriptInput \/ in_class_of i = C_MultisigInput) as CL. split.
  - intros M. pose proof (A 0%nat w_k2 eq_refl) as (N & _ & E). assert (RG : secp_p - curve_order <= secp_gx < curve_order) by (split; [discriminate|reflexivity]).
    pose proof (multisig_swapped sg i w_k1 w_k2 w_p1 w_p2 1 secp_gx secp_gy (zeros 32) 1 i' CL pp_one pp_two ltac:(discriminate) N pp_one RG E S M) as F. vm_compute in F. discriminate F.
  - apply (multisig_matches sg (fun _ => 1) i [w_k2; w_k1] [w_p2; w_p1] (zeros 32) 1 i' CL); [discriminate| |exact A|exact S].
    apply io_take; [exact pp_two|apply io_take; [exact pp_one|apply io_done]].
Qed.
(** a key signs an input that spends its own address *)
Lemma ex_address : let a := Address (Str (ripemd160 (sha256 (x02 :: be_bytes 32 secp_gx)))) livenet T_PublicKey in
  exists i sg i', address_input_create (zeros 32) 0 a 4294967295 = Ok i /\ address_can_sign i [w_k1] = Ok true /\
  priv_sign w_k1 1 (zeros 32) = SOk (sg 0%nat 1 (zeros 32)) /\ input_sign sg i [w_k1] (zeros 32) 1 = Ok i' /\
  redeems_hash (pyb_bytes (a_phash a)) (zeros 32) 1 (s_ins (in_script i')).
Proof.
  intros a. destruct G_below as (GX & GY). destruct (zeros_signed w_k1 _ _ pp_one GX GY) as (b & E & L); [discriminate|]. destruct w_facts as (V1 & _).
  destruct (address_input_create (zeros 32) 0 a 4294967295) as [i|e] eqn:C; [|vm_compute in C; discriminate C].
  assert (CS : address_can_sign i [w_k1] = Ok true) by (vm_compute in C; injection C as <-; vm_compute; reflexivity).
  exists i, (fun _ _ _ => b). pose proof (proj1 (address_create_ok _ _ _ _ _ C)) as CL.
  destruct (address_sign_total (fun _ _ _ => b) i w_k1 (zeros 32) 1 CL V1) as (i' & S); [split; discriminate|clear -L; lia|].
  exists i'. split; [reflexivity|]. split; [exact CS|]. split; [exact E|]. split; [exact S|].
  apply (address_redeems (zeros 32) 0 a 4294967295 i w_k1 1 (zeros 32) (fun _ _ _ => b) 1 i' C V1 CS); [split; reflexivity| |exact E|exact S].
  intros r yr Q. apply pp_one_is in Q. destruct Q as (-> & _). reflexivity.
Qed.

(** ** whole transactions, without an oracle *)
Lemma real_signed k x y nonce r yr nonces j digest : public_point (k_secret k) x y -> x < curve_order -> y < curve_order -> 0 < nonce < curve_order ->
  public_point nonce r yr -> signable k r digest -> 1 <= blen digest <= 32 -> nonces j = nonce ->
  priv_sign k nonce digest = SOk (real_signer nonces j (k_secret k) digest) /\ blen (real_signer nonces j (k_secret k) digest) <= 72.
Proof.
  intros P X Y N Q SG L NJ. destruct (sign_outcome k x y nonce digest P X Y N L) as (r' & yr' & Q' & _ & [(_ & s & b & E & _ & LB & _)|(F & _)]).
  - unfold real_signer. rewrite NJ. change (priv_sign (PrivateKey (k_secret k) livenet true) nonce digest) with (priv_sign k nonce digest). rewrite E. split; [reflexivity|exact LB].
  - destruct (pp_fun _ _ _ _ _ Q Q') as (<- & <-). contradiction.
Qed.
Lemma sha256_blen m : blen (sha256 m) = 32.
Proof. unfold blen. rewrite sha256_length. reflexivity. Qed.
Lemma tx_spends id n a q t j k i x y nonce r yr st : address_input_create id n a q = Ok i -> nth_error (tx_inputs t) j = Some i -> tx_fits t ->
  valid_key k -> address_can_sign i [k] = Ok true -> public_point (k_secret k) x y -> x < curve_order -> y < curve_order ->
  0 < nonce < curve_order -> public_point nonce r yr -> r < curve_order -> 0 <= st <= 255 ->
  exists m, signing_message t j st m /\ (signable k r (sha256 (sha256 m)) ->
    exists t' i', tx_sign (real_signer (fun _ => nonce)) t [k] (Z.of_nat j) st = Ok t' /\ nth_error (tx_inputs t') j = Some i' /\ same_but_script i i' /\
      redeems_hash (pyb_bytes (a_phash a)) (sha256 (sha256 m)) st (s_ins (in_script i'))).
Proof.
  intros A NT F V C P X Y N Q R ST. destruct (preimage_total t (Z.of_nat j) st F) as (m & M). assert (U : u32 st) by (unfold u32; lia).
  assert (SM : signing_message t j st m) by (apply (preimage_message t j st m F U), M). exists m. split; [exact SM|]. intros SG.
  destruct (real_signed k x y nonce r yr (fun _ => nonce) 0%nat (sha256 (sha256 m)) P X Y N Q SG) as (E & L); [rewrite sha256_blen; split; discriminate|reflexivity|].
  destruct (address_create_ok _ _ _ _ _ A) as (CL & _).
  destruct (address_sign_total (real_signer (fun _ => nonce)) i k (sha256 (sha256 m)) st CL V ST) as (i' & S); [clear -L; lia|].
  pose proof F as (_ & LT & NI & _ & _ & NO & _). assert (PI : py_index (tx_inputs t) (Z.of_nat j) = Ok i) by (apply py_index_nat; exact NT).
  eexists. exists i'. split; [exact (tx_sign_intro _ t [k] (Z.of_nat j) st m i i' M PI S NI NO LT)|]. cbn [tx_inputs]. split.
  - rewrite mapi_nth, NT. cbn [option_map]. rewrite Z.add_0_l, Z.eqb_refl. reflexivity.
  - split; [exact (proj2 (proj2 (input_sign_ok _ _ _ _ _ _ S)))|].
    apply (address_redeems id n a q i k nonce (sha256 (sha256 m)) (real_signer (fun _ => nonce)) st i' A V C N); [|exact E|exact S].
    intros r' yr' Q'. destruct (pp_fun _ _ _ _ _ Q Q') as (<- & _). exact R.
Qed.
Lemma real_nonempty nonces payload st : forall keys n sigs, signatures (real_signer nonces) n keys payload st = Ok sigs ->
  (forall j k, nth_error keys j = Some k -> blen (real_signer nonces (n + j)%nat (k_secret k) payload) <= 72) ->
  exists l, sigs = map Str l /\ Forall (fun b => 1 <= blen b <= 4294967295) l.
Proof.
  induction keys as [|k keys IH]; intros n sigs; cbn [signatures].
  - intros H _. injection H as <-. exists []. split; [reflexivity|constructor].
  - unfold py_chr. destruct ((0 <=? st) && (st <? 256)); [|discriminate]. cbn [bind]. intros H L. apply bind_ok in H. destruct H as (t & E & H). injection H as <-.
    destruct (IH (S n) t E) as (l & -> & F). { intros j k' J. replace (S n + j)%nat with (n + S j)%nat by lia. exact (L (S j) k' J). }
    exists ((real_signer nonces n (k_secret k) payload ++ [Zb st]) :: l). split; [reflexivity|]. constructor; [|exact F].
    pose proof (L 0%nat k eq_refl) as B. rewrite Nat.add_0_r in B. rewrite blen_app. change (blen [Zb st]) with 1. pose proof (blen_nonneg (real_signer nonces n (k_secret k) payload)) as NN. clear -B NN. lia.
Qed.
Lemma signatures_total sg payload st : 0 <= st <= 255 -> forall keys n, exists sigs, signatures sg n keys payload st = Ok sigs.
Proof.
  intros ST. induction keys as [|k keys IH]; intros n; cbn [signatures]; [eauto|]. unfold py_chr. replace ((0 <=? st) && (st <? 256)) with true by lia. cbn [bind].
  destruct (IH (S n)) as (t & ->). cbn [bind]. eauto.
Qed.
Lemma tx_multisig_spends t j i rb keys ks nonces st : nth_error (tx_inputs t) j = Some i -> in_class_of i = C_ScriptInput \/ in_class_of i = C_MultisigInput -> tx_fits t ->
  script_to_bytes (in_script i) = Ok rb -> 1 <= blen rb <= 4294967295 -> keys <> [] -> in_order keys ks -> 0 <= st <= 255 ->
  (forall k, In k keys -> exists x y, public_point (k_secret k) x y /\ x < curve_order /\ y < curve_order) ->
  (forall n, 0 < nonces n < curve_order /\ forall r yr, public_point (nonces n) r yr -> r < curve_order) ->
  exists m, signing_message t j st m /\ ((forall n k r yr, nth_error keys n = Some k -> public_point (nonces n) r yr -> signable k r (sha256 (sha256 m))) ->
    exists t' i', tx_sign (real_signer nonces) t keys (Z.of_nat j) st = Ok t' /\ nth_error (tx_inputs t') j = Some i' /\ same_but_script i i' /\
      List.length (get_signatures (in_script i')) = List.length keys /\ multi_match (sha256 (sha256 m)) st (get_signatures (in_script i')) ks).
Proof.
  intros NT CL F SB LB KN O ST KP NB. destruct (preimage_total t (Z.of_nat j) st F) as (m & M). assert (U : u32 st) by (unfold u32; lia).
  assert (SM : signing_message t j st m) by (apply (preimage_message t j st m F U), M). exists m. split; [exact SM|]. intros SG.
  assert (AS : forall n k, nth_error keys n = Some k -> priv_sign k (nonces n) (sha256 (sha256 m)) = SOk (real_signer nonces n (k_secret k) (sha256 (sha256 m))) /\
    blen (real_signer nonces n (k_secret k) (sha256 (sha256 m))) <= 72).
  { intros n k J. destruct (KP k (nth_error_In _ _ J)) as (x & y & P & X & Y). destruct (NB n) as (N & RN). destruct (pp_exists _ N) as (r & yr & Q).
    apply (real_signed k x y (nonces n) r yr nonces n _ P X Y N Q); [exact (SG n k r yr J Q)|rewrite sha256_blen; split; discriminate|reflexivity]. }
  assert (ASG : all_signed (real_signer nonces) nonces (sha256 (sha256 m)) keys).
  { intros n k J. destruct (NB n) as (N & RN). split; [exact N|]. split; [exact RN|exact (proj1 (AS n k J))]. }
  destruct (signatures_total (real_signer nonces) (sha256 (sha256 m)) st ST keys 0) as (sigs & ES).
  destruct (real_nonempty nonces (sha256 (sha256 m)) st keys 0 sigs ES) as (l & -> & FL); [intros n k J; exact (proj2 (AS n k J))|].
  destruct (p2sh_in_total (in_script i) rb l SB LB FL) as (s & PS).
  assert (S : input_sign (real_signer nonces) i keys (sha256 (sha256 m)) st = Ok (input_replace_script i s)).
  { unfold input_sign. destruct CL as [->| ->]; rewrite ES; cbn [bind]; rewrite PS; reflexivity. }
  pose proof F as (_ & LT & NI & _ & _ & NO & _). assert (PI : py_index (tx_inputs t) (Z.of_nat j) = Ok i) by (apply py_index_nat; exact NT).
  eexists. exists (input_replace_script i s). split; [exact (tx_sign_intro _ t keys (Z.of_nat j) st m i _ M PI S NI NO LT)|]. cbn [tx_inputs]. split.
  - rewrite mapi_nth, NT. cbn [option_map]. rewrite Z.add_0_l, Z.eqb_refl. reflexivity.
  - split; [exact (proj2 (proj2 (input_sign_ok _ _ _ _ _ _ S)))|]. exact (multisig_matches (real_signer nonces) nonces i keys ks _ st _ CL KN O ASG S).
Qed.

Lemma ex_two_nonces digest : signable w_k1 secp_gx digest \/ signable w_k1 twice_x digest.
Proof.
  unfold signable. change (k_secret w_k1) with 1. rewrite !Z.mul_1_l. set (z := be_val digest). clearbody z. destruct (Z.eq_dec ((z + secp_gx) mod curve_order) 0) as [E|E]; [right|left; exact E]. intros E'.
  assert (D : ((z + secp_gx) - (z + twice_x)) mod curve_order = 0) by (rewrite Zminus_mod, E, E'; reflexivity).
  replace (z + secp_gx - (z + twice_x)) with (secp_gx - twice_x) in D by (generalize secp_gx, twice_x; intros; ring). vm_compute in D. discriminate D.
Qed.
Lemma ex_spend : let a := Address (Str (ripemd160 (sha256 (x02 :: be_bytes 32 secp_gx)))) livenet T_PublicKey in
  exists i t nonce m t' i', address_input_create (repeat x61 64) 0 a 4294967295 = Ok i /\ t = Tx [i] [Output C_Output 5 (Script None [])] 0 1 /\ tx_fits t /\
    address_can_sign i [w_k1] = Ok true /\ signing_message t 0 1 m /\ tx_sign (real_signer (fun _ => nonce)) t [w_k1] 0 1 = Ok t' /\ nth_error (tx_inputs t') 0 = Some i' /\
    redeems_hash (pyb_bytes (a_phash a)) (sha256 (sha256 m)) 1 (s_ins (in_script i')).
Proof.
  intros a. destruct G_below as (GX & GY), twice_below as (TX & TY). destruct w_facts as (V1 & _).
  destruct (address_input_create (repeat x61 64) 0 a 4294967295) as [i|e] eqn:C; [|vm_compute in C; discriminate C].
  assert (CS : address_can_sign i [w_k1] = Ok true) by (vm_compute in C; injection C as <-; vm_compute; reflexivity).
  set (t := Tx [i] [Output C_Output 5 (Script None [])] 0 1). assert (F : tx_fits t) by (apply tx_fitsb_ok; unfold t; vm_compute in C; injection C as <-; vm_compute; reflexivity).
  assert (N1 : 0 < 1 < curve_order) by (split; reflexivity). assert (N2 : 0 < 2 < curve_order) by (split; reflexivity). assert (ST : 0 <= 1 <= 255) by (split; discriminate).
  destruct (tx_spends _ _ _ _ t 0 w_k1 i _ _ 1 _ _ 1 C eq_refl F V1 CS pp_one GX GY N1 pp_one GX ST) as (m & SM & H1).
  destruct (tx_spends _ _ _ _ t 0 w_k1 i _ _ 2 _ _ 1 C eq_refl F V1 CS pp_one GX GY N2 pp_two TX ST) as (m' & SM' & H2).
  assert (m' = m). { assert (U1 : u32 1) by (split; reflexivity || discriminate). apply (preimage_message t 0 1 m F U1) in SM. apply (preimage_message t 0 1 m' F U1) in SM'. congruence. } subst m'.
  destruct (ex_two_nonces (sha256 (sha256 m))) as [S|S].
  - destruct (H1 S) as (t' & i' & E & NT & _ & R). exists i, t, 1, m, t', i'. split; [reflexivity|]. split; [reflexivity|]. split; [exact F|]. split; [exact CS|]. split; [exact SM|]. split; [exact E|]. split; [exact NT|exact R].
  - destruct (H2 S) as (t' & i' & E & NT & _ & R). exists i, t, 2, m, t', i'. split; [reflexivity|]. split; [reflexivity|]. split; [exact F|]. split; [exact CS|]. split; [exact SM|]. split; [exact E|]. split; [exact NT|exact R].
Qed.
Lemma ex_hashed m : exists b, priv_sign w_k1 1 (sha1 m) = SOk b /\ priv_verify w_k1 b m = SOk true.
Proof.
  destruct G_below as (GX & GY). assert (N1 : 0 < 1 < curve_order) by (split; reflexivity).
  assert (L : 1 <= blen (sha1 m) <= 32) by (unfold blen; rewrite sha1_length; split; discriminate).
  destruct (sign_outcome w_k1 secp_gx secp_gy 1 (sha1 m) pp_one GX GY N1 L) as (r & yr & Q & _ & C). apply pp_one_is in Q. destruct Q as (-> & ->).
  destruct C as [(_ & s & b & E & _)|(Z0 & _)].
  - exists b. split; [exact E|]. destruct (verify_sign_digest w_k1 secp_gx secp_gy 1 m b pp_one GX GY N1 E) as (r & yr & Q & V & _). apply pp_one_is in Q. destruct Q as (-> & ->). exact (V GX).
  - exfalso. change (k_secret w_k1) with 1 in Z0. pose proof (sha1_small m) as S. assert (B : 0 < secp_gx /\ secp_gx < curve_order - 2 ^ 160) by (split; reflexivity).
    rewrite Z.mod_small in Z0; revert Z0 B; revert S; generalize (be_val (sha1 m)); generalize secp_gx; generalize curve_order; intros; lia.
Qed.
