(** What a hash determines (lemmas). *)
From Coq Require Import ZArith Lia Bool List.
From Verif Require Import Base M_Hash M_Codec S_Codec P_Codec M_Keys S_Keys P_Keys M_Script S_Script P_Script M_Tx S_Tx P_Tx P_TxSign M_EC S_EC P_DSA P_PubKey P_PubTx
  M_Sign S_Sign P_Sign P_SignTx S_SigTheory P_SigTheory S_Bind.
Import ListNotations.
Open Scope Z_scope.

Lemma bytes_dec (x y : bytes) : x = y \/ x <> y.
Proof. destruct (bytes_eqb x y) eqn:E; [left; apply bytes_eqb_eq; exact E|right; rewrite <- bytes_eqb_eq; congruence]. Qed.
Lemma twice x y : sha256 (sha256 x) = sha256 (sha256 y) -> x = y \/ collide_twice x y.
Proof.
  intros E. destruct (bytes_dec x y) as [H|H]; [left; exact H|right]. destruct (bytes_dec (sha256 x) (sha256 y)) as [Q|Q]; [left; split; assumption|right; split; assumption].
Qed.
Lemma hash160 x y : ripemd160 (sha256 x) = ripemd160 (sha256 y) -> x = y \/ collide_160 x y.
Proof.
  intros E. destruct (bytes_dec x y) as [H|H]; [left; exact H|right]. destruct (bytes_dec (sha256 x) (sha256 y)) as [Q|Q]; [left; split; assumption|right; split; assumption].
Qed.
Lemma encode_hex_inj d d' : encode_hex d = encode_hex d' -> d = d'.
Proof. intros E. pose proof (proj2 (decode_hex_iff _ _) (encode_hex_text d)) as H. rewrite E in H. rewrite (proj2 (decode_hex_iff _ _) (encode_hex_text d')) in H. congruence. Qed.

(** transactions *)
Lemma same_id t t' h : tx_fits t -> tx_fits t' -> tx_get_id t = Ok h -> tx_get_id t' = Ok h ->
  agree t t' \/ exists w w', tx_to_bytes t = Ok w /\ tx_to_bytes t' = Ok w' /\ collide_twice w w'.
Proof.
  intros F F' E E'. apply (get_id_ok t h F) in E. apply (get_id_ok t' h F') in E'. destruct E as (w & W & ->), E' as (w' & W' & E). apply encode_hex_inj in E.
  apply (tx_write t w F) in W. apply (tx_write t' w' F') in W'. destruct (twice _ _ E) as [<-|C].
  - left. exact (tx_bytes_injective t t' w F F' W W').
  - right. exists w, w'. auto.
Qed.

Definition id_texts (t : tx) : list bytes := map (fun i => map lower (in_tx_id i)) (tx_inputs t).
Lemma agree_texts t t' : agree t t' -> id_texts t = id_texts t'.
Proof.
  intros (H & _). unfold id_texts, lower_ids in *. cbn [tx_inputs] in H. remember (map lower_input (tx_inputs t)) as a eqn:A. remember (map lower_input (tx_inputs t')) as b eqn:B.
  revert A B. generalize (tx_inputs t), (tx_inputs t'). induction H as [|x y l l' S _ IH]; intros [|i r] [|i' r']; try discriminate; [reflexivity|].
  cbn [map]. intros A B. injection A as -> ->. injection B as -> ->. f_equal; [exact (proj1 S)|apply IH; reflexivity].
Qed.
Lemma spending_texts t t' : Forall2 (fun a b => same_but_script (lower_input a) (lower_input b)) (tx_inputs t) (tx_inputs t') -> id_texts t = id_texts t'.
Proof. unfold id_texts. intros H. induction H as [|x y l l' S _ IH]; [reflexivity|]. cbn [map]. f_equal; [exact (proj1 S)|exact IH]. Qed.
Definition determines (R : input -> tx -> Prop) : Prop := forall i p i' p', R i p -> R i' p' -> map lower (in_tx_id i) = map lower (in_tx_id i') ->
  exists w w', tx_to_bytes p = Ok w /\ tx_to_bytes p' = Ok w' /\ sha256 (sha256 w) = sha256 (sha256 w').
Lemma refers_determines : determines refers.
Proof.
  intros i p i' p' (w & W & H) (w' & W' & H') E. exists w, w'. split; [exact W|]. split; [exact W'|].
  apply lower_hex_encode in H. apply lower_hex_encode in H'. rewrite <- H, <- H' in E. apply encode_hex_inj in E.
  rewrite <- (rev_involutive (sha256 (sha256 w))), E, rev_involutive. reflexivity.
Qed.
Lemma refers_id_determines : determines refers_id.
Proof.
  intros i p i' p' (h & E & H) (h' & E' & H') L. unfold tx_get_id, tx_get_id_bytes in E, E'. apply bind_ok in E. apply bind_ok in E'. destruct E as (b & E & Q), E' as (b' & E' & Q').
  apply bind_ok in E. apply bind_ok in E'. destruct E as (w & W & E), E' as (w' & W' & E'). exists w, w'. split; [exact W|]. split; [exact W'|].
  assert (b = sha256 (sha256 w)) as <- by congruence. assert (b' = sha256 (sha256 w')) as <- by congruence. assert (in_tx_id i = encode_hex b) as X by congruence. assert (in_tx_id i' = encode_hex b') as X' by congruence.
  rewrite X, X' in L. rewrite <- (lower_hex_encode _ _ (encode_hex_text b)), <- (lower_hex_encode _ _ (encode_hex_text b')) in L. exact (encode_hex_inj _ _ L).
Qed.
Lemma nth_texts t t' k i i' : id_texts t = id_texts t' -> nth_error (tx_inputs t) k = Some i -> nth_error (tx_inputs t') k = Some i' -> map lower (in_tx_id i) = map lower (in_tx_id i').
Proof.
  unfold id_texts. intros E N N'. apply (map_nth_error (fun i => map lower (in_tx_id i))) in N. apply (map_nth_error (fun i => map lower (in_tx_id i))) in N'. rewrite E in N. congruence.
Qed.
Lemma history_gen R : determines R -> forall t ks ps, ancestry R t ks ps -> forall t' ps', ancestry R t' ks ps' -> id_texts t = id_texts t' -> Forall2 agree ps ps' \/ collision_among ps ps'.
Proof.
  intros D t ks ps A. induction A as [t|t k ks i p ps N HR F A IH]; intros t' ps' A' E; inversion A' as [|t0 k0 ks0 i' p' qs N' HR' F' A'']; subst; [left; constructor|].
  destruct (D _ _ _ _ HR HR' (nth_texts _ _ _ _ _ E N N')) as (w & w' & W & W' & Q). destruct (twice _ _ Q) as [<-|C].
  - pose proof (tx_bytes_injective p p' w F F' W W') as G. destruct (IH p' qs A'' (agree_texts _ _ G)) as [I|(n & a & b & u & v & X)]; [left; constructor; assumption|].
    right. exists (S n), a, b, u, v. exact X.
  - right. exists 0%nat, p, p', w, w'. auto.
Qed.
Lemma history t t' ks ps ps' : agree t t' -> ancestry refers t ks ps -> ancestry refers t' ks ps' -> Forall2 agree ps ps' \/ collision_among ps ps'.
Proof. intros G A A'. exact (history_gen _ refers_determines t ks ps A t' ps' A' (agree_texts _ _ G)). Qed.
Lemma history_ids t t' ks ps ps' : agree t t' -> ancestry refers_id t ks ps -> ancestry refers_id t' ks ps' -> Forall2 agree ps ps' \/ collision_among ps ps'.
Proof. intros G A A'. exact (history_gen _ refers_id_determines t ks ps A t' ps' A' (agree_texts _ _ G)). Qed.

(** the message of a signature *)
Lemma same_digest t t' k k' st st' m m' i i' : tx_fits t -> tx_fits t' -> u32 st -> u32 st' ->
  nth_error (tx_inputs t) k = Some i -> nth_error (tx_inputs t') k' = Some i' -> signing_message t k st m -> signing_message t' k' st' m' ->
  sha256 (sha256 m) = sha256 (sha256 m') -> same_spending t t' k k' st st' i i' \/ collide_twice m m'.
Proof.
  intros F F' U U' N N' M M' E. destruct (twice _ _ E) as [<-|C]; [left|right; exact C]. exact (message_commits t t' k k' st st' m i i' F F' U U' N N' M M').
Qed.
Lemma signed_history t t' k k' st st' i i' ks ps ps' : same_spending t t' k k' st st' i i' -> ancestry refers t ks ps -> ancestry refers t' ks ps' ->
  Forall2 agree ps ps' \/ collision_among ps ps'.
Proof. intros (_ & _ & _ & _ & G & _) A A'. exact (history_gen _ refers_determines t ks ps A t' ps' A' (spending_texts _ _ G)). Qed.
Lemma replay d x y t t' k k' st st' m m' i i' r s : public_point d x y -> secp_p - curve_order <= r -> tx_fits t -> tx_fits t' -> u32 st -> u32 st' ->
  nth_error (tx_inputs t) k = Some i -> nth_error (tx_inputs t') k' = Some i' -> signing_message t k st m -> signing_message t' k' st' m' ->
  secp_valid x y (be_val (sha256 (sha256 m))) r s -> secp_valid x y (be_val (sha256 (sha256 m'))) r s ->
  let e := be_val (sha256 (sha256 m)) in let e' := be_val (sha256 (sha256 m')) in
  same_spending t t' k k' st st' i i' \/ collide_twice m m' \/ (e' = e + curve_order \/ e = e' + curve_order) \/ (e + e' + 2 * d * r) mod curve_order = 0.
Proof.
  intros PP RB F F' U U' N N' M M' V V'. cbv zeta.
  pose proof (sha256_length (sha256 m)) as L. pose proof (sha256_length (sha256 m')) as L'.
  destruct (bytes_dec (sha256 (sha256 m)) (sha256 (sha256 m'))) as [E|E].
  - destruct (same_digest t t' k k' st st' m m' i i' F F' U U' N N' M M' E) as [H|H]; auto.
  - right. right. set (a := sha256 (sha256 m)) in *. set (b := sha256 (sha256 m')) in *. clearbody a b.
    apply (secp_verify_spec d x y _ r s PP) in V. apply (secp_verify_spec d x y _ r s PP) in V'. destruct (pp_pair d x y PP) as (PD & _).
    assert (O : one_abscissa secp_p 0 7 key_max r) by (apply secp_one; rewrite key_max_order; exact RB).
    pose proof (proj1 (two_values secp256k1 secp_gx secp_gy key_max secp_group d x y (be_val a) (be_val b) r s PD O V) V') as T. rewrite key_max_order in T.
    assert (B : 0 <= be_val a < 2 ^ 256) by (pose proof (be_val_bound a) as H; rewrite L in H; exact H).
    assert (B' : 0 <= be_val b < 2 ^ 256) by (pose proof (be_val_bound b) as H; rewrite L' in H; exact H).
    assert (NE : be_val a <> be_val b) by (intros Q; apply E; apply be_val_inj; [congruence|exact Q]).
    assert (NB : 2 ^ 255 < curve_order < 2 ^ 256) by (split; vm_compute; reflexivity). clear - T B B' NE NB. revert T B B' NE NB. generalize (be_val a) (be_val b) curve_order (2 * d * r). clear. intros u v n z.
    change (2 ^ 256) with (2 * 2 ^ 255). generalize (2 ^ 255). intros q T B B' NE NB. destruct T as [T|T]; [left|right].
    + pose proof (Z.div_mod u n ltac:(lia)) as D. pose proof (Z.div_mod v n ltac:(lia)) as D'. rewrite T in D'. set (w := u mod n) in *. set (g := u / n) in *. set (g' := v / n) in *. clearbody w g g'.
      assert (C : v - u = n * (g' - g)) by lia. set (c := g' - g) in *. clearbody c. assert (c = 1 \/ c = -1) by nia. nia.
    + replace (u + v + z) with (v - (- u - z)) by ring. rewrite Zminus_mod, T, Z.sub_diag. apply Z.mod_0_l. lia.
Qed.

(** keys and scripts *)
Lemma sec_determines k k' b : usable_pub k -> usable_pub k' -> sec_of (fst (pk_pair k)) (snd (pk_pair k)) (pk_compressed k) b ->
  sec_of (fst (pk_pair k')) (snd (pk_pair k')) (pk_compressed k') b -> pk_pair k = pk_pair k' /\ pk_compressed k = pk_compressed k'.
Proof.
  assert (G : forall k, usable_pub k -> sec_of (fst (pk_pair k)) (snd (pk_pair k)) (pk_compressed k) b -> pk_from_bytes (Str b) (VNet livenet) = Ok (PublicKey (pk_pair k) livenet (pk_compressed k))).
  { clear. intros [[x y] n c] U S. unfold usable_pub in U. cbn [pk_pair pk_compressed fst snd] in *. apply pk_from_bytes_iff. exists livenet, x, y, c. split; [reflexivity|]. split; [|reflexivity].
    exists b, []. rewrite app_nil_r. split; [reflexivity|]. split; [exact S|]. split; [exact (proj1 U)|]. destruct U as (_ & _ & U). intros ->. exact U. }
  intros U U' S S'. pose proof (G k U S) as E. rewrite (G k' U' S') in E. split; congruence.
Qed.
Lemma same_key_address k k' a : valid_key k -> valid_key k' -> priv_to_address k = Ok a -> priv_to_address k' = Ok a ->
  k = k' \/ exists p p' b b', pk_from_private_key k = Ok p /\ pk_from_private_key k' = Ok p' /\
    sec_of (fst (pk_pair p)) (snd (pk_pair p)) (pk_compressed p) b /\ sec_of (fst (pk_pair p')) (snd (pk_pair p')) (pk_compressed p') b' /\ collide_160 b b'.
Proof.
  intros V V' E E'. destruct (valid_key_usable k V) as (p & P & U & NP & CP). destruct (valid_key_usable k' V') as (p' & P' & U' & NP' & CP').
  destruct (priv_address k V) as (q & h & Q & (b & B & ->) & A). destruct (priv_address k' V') as (q' & h' & Q' & (b' & B' & ->) & A').
  assert (q = p) as -> by congruence. assert (q' = p') as -> by congruence.
  assert (H : ripemd160 (sha256 b) = ripemd160 (sha256 b')) by congruence. assert (NN : k_network k = k_network k') by congruence.
  destruct (hash160 _ _ H) as [<-|C]; [left|right; exists p, p', b, b'; auto].
  destruct (sec_determines p p' b U U' B B') as (PP & CC). pose proof (public_key_inj k k' p p' V V' P P' PP) as SS.
  destruct k as [s n c], k' as [s' n' c']; cbn [k_secret k_network k_compressed] in *. congruence.
Qed.
Lemma same_key_text k k' a a' s : valid_key k -> valid_key k' -> priv_to_address k = Ok a -> priv_to_address k' = Ok a' -> addr_to_string a = Ok s -> addr_to_string a' = Ok s ->
  k = k' \/ exists p p' b b', pk_from_private_key k = Ok p /\ pk_from_private_key k' = Ok p' /\
    sec_of (fst (pk_pair p)) (snd (pk_pair p)) (pk_compressed p) b /\ sec_of (fst (pk_pair p')) (snd (pk_pair p')) (pk_compressed p') b' /\ collide_160 b b'.
Proof.
  intros V V' E E' T T'. apply (same_key_address k k' a V V' E). rewrite E'. f_equal.
  assert (G : forall k a, valid_key k -> priv_to_address k = Ok a -> valid_addr a).
  { clear. intros k a V E. destruct (priv_address k V) as (q & h & Q & (b & B & ->) & A). assert (a = _) as -> by (rewrite E in A; injection A as A; exact A).
    split; [exact (proj2 V)|]. exists (ripemd160 (sha256 b)). split; [reflexivity|apply ripemd160_length]. }
  symmetry. exact (addr_string_injective a a' s (G _ _ V E) (G _ _ V' E') T T').
Qed.
Lemma same_script_text s s' n n' a a' t : known n -> known n' -> Forall well_formed (s_ins s) -> Forall well_formed (s_ins s') ->
  addr_from_script s (VNet n) = Ok a -> addr_from_script s' (VNet n') = Ok a' -> addr_to_string a = Ok t -> addr_to_string a' = Ok t ->
  n = n' /\ (same_script s s' \/ exists b b', script_to_bytes s = Ok b /\ script_to_bytes s' = Ok b' /\ collide_160 b b').
Proof.
  intros K K' W W' E E' T T'.
  assert (G : forall s n a, known n -> addr_from_script s (VNet n) = Ok a -> exists b, script_to_bytes s = Ok b /\ a = Address (Str (ripemd160 (sha256 b))) n T_Script).
  { clear. intros s n a K E. destruct (script_to_bytes s) as [b|e] eqn:B; [|unfold addr_from_script in E; rewrite B in E; discriminate E].
    exists b. split; [reflexivity|]. rewrite (from_script_address s n b K B) in E. congruence. }
  destruct (G _ _ _ K E) as (b & B & ->), (G _ _ _ K' E') as (b' & B' & ->).
  assert (Q : Address (Str (ripemd160 (sha256 b))) n T_Script = Address (Str (ripemd160 (sha256 b'))) n' T_Script).
  { apply (addr_string_injective _ _ t); [| |exact T|exact T']; (split; [assumption|]); eexists; (split; [reflexivity|apply ripemd160_length]). }
  assert (H : ripemd160 (sha256 b) = ripemd160 (sha256 b')) by congruence. split; [congruence|]. destruct (hash160 _ _ H) as [<-|C]; [left|right; exists b, b'; auto].
  apply (wire_script_fun _ _ b); [exact (proj2 (to_bytes_inv _ _ W B))|exact (proj2 (to_bytes_inv _ _ W' B'))].
Qed.
Lemma key_is_no_script k a s n a' t : valid_key k -> known n -> priv_to_address k = Ok a -> addr_from_script s (VNet n) = Ok a' -> addr_to_string a = Ok t -> addr_to_string a' <> Ok t.
Proof.
  intros V K E E' T T'. destruct (priv_address k V) as (q & h & Q & (b & B & ->) & A). assert (a = Address (Str (ripemd160 (sha256 b))) (k_network k) T_PublicKey) as -> by congruence.
  destruct (script_to_bytes s) as [b'|e] eqn:B'; [|unfold addr_from_script in E'; rewrite B' in E'; discriminate E'].
  rewrite (from_script_address s n b' K B') in E'. assert (a' = Address (Str (ripemd160 (sha256 b'))) n T_Script) as -> by congruence.
  assert (X : Address (Str (ripemd160 (sha256 b))) (k_network k) T_PublicKey = Address (Str (ripemd160 (sha256 b'))) n T_Script).
  { apply (addr_string_injective _ _ t); [| |exact T|exact T']; [split; [exact (proj2 V)|]|split; [exact K|]]; eexists; (split; [reflexivity|apply ripemd160_length]). }
  apply (f_equal a_type) in X. cbn [a_type] in X. discriminate X.
Qed.

(** a signature of any number under the key 1 *)
Lemma some_signature z : exists r s, secp_p - curve_order <= r /\ secp_valid secp_gx secp_gy z r s.
Proof.
  destruct (Z.eq_dec ((z + 1 * secp_gx) mod curve_order) 0) as [E|E].
  - assert (E2 : (z + 1 * twice_x) mod curve_order <> 0).
    { intros E'. assert (D : ((z + 1 * secp_gx) - (z + 1 * twice_x)) mod curve_order = 0) by (rewrite Zminus_mod, E, E'; reflexivity).
      replace (z + 1 * secp_gx - (z + 1 * twice_x)) with (secp_gx - twice_x) in D by (generalize secp_gx, twice_x; intros; ring). vm_compute in D. discriminate D. }
    set (a := z + 1 * twice_x) in *. assert (S0 : 1 <= (a * ((curve_order + 1) / 2)) mod curve_order < curve_order /\ ((a * ((curve_order + 1) / 2)) mod curve_order * 2) mod curve_order = a mod curve_order).
    { assert (H : 2 * ((curve_order + 1) / 2) = curve_order + 1) by (vm_compute; reflexivity). assert (P : 0 < curve_order) by reflexivity. revert E2 H P. generalize ((curve_order + 1) / 2). generalize curve_order. generalize a. clear. intros a n h E H P.
      assert (Q : ((a * h) mod n * 2) mod n = a mod n). { rewrite Z.mul_mod_idemp_l by lia. replace (a * h * 2) with (a * (2 * h)) by ring. rewrite H. replace (a * (n + 1)) with (a + a * n) by ring. apply Z.mod_add. lia. }
      split; [|exact Q]. pose proof (Z.mod_pos_bound (a * h) n P) as B. enough ((a * h) mod n <> 0) by lia. intros Z0. rewrite Z0 in Q. rewrite Z.mod_0_l in Q by lia. congruence. }
    exists twice_x, ((a * ((curve_order + 1) / 2)) mod curve_order). split; [vm_compute; discriminate|].
    refine (made_valid 1 secp_gx secp_gy 2 twice_x twice_y z _ _ pp_one pp_two _ (or_introl eq_refl) (proj1 S0) (proj2 S0)). split; [vm_compute; discriminate|reflexivity].
  - exists secp_gx, ((z + 1 * secp_gx) mod curve_order). split; [vm_compute; discriminate|].
    refine (made_valid 1 secp_gx secp_gy 1 secp_gx secp_gy z _ _ pp_one pp_one _ (or_introl eq_refl) _ _).
    + split; [vm_compute; discriminate|reflexivity].
    + revert E. generalize (z + 1 * secp_gx). assert (P : 0 < curve_order) by reflexivity. revert P. generalize curve_order. clear. intros n P a E. pose proof (Z.mod_pos_bound a n P). lia.
    + rewrite Z.mul_1_r. apply Z.mod_mod. discriminate.
Qed.

(** two ways of writing a transaction and its parent *)
Definition ex_parent (d : bytes -> pyb) : tx := Tx [Input C_Input (repeat x61 64) 0 (Script None [Instr x01 (Some (d [x05]))]) 7] [Output C_Output 5 (Script None [])] 0 1.
Definition upper (b : byte) : byte := if (97 <=? bZ b) then Zb (bZ b - 32) else b.
Definition ex_child_id : bytes := Eval vm_compute in match tx_to_bytes (ex_parent Str) with Ok w => encode_hex (rev (sha256 (sha256 w))) | Err _ => [] end.
Definition ex_child (f : byte -> byte) (sc : script) : tx := Tx [Input C_Input (map f ex_child_id) 0 sc 7] [Output C_Output 4 (Script None [])] 0 1.
Lemma ex_history : let t := ex_child (fun b => b) (Script None []) in let t' := ex_child upper (Script None []) in
  t <> t' /\ tx_fits t /\ tx_fits t' /\ agree t t' /\ ex_parent Str <> ex_parent BA /\ ancestry refers t [0%nat] [ex_parent Str] /\ ancestry refers t' [0%nat] [ex_parent BA].
Proof.
  cbv zeta. split; [intros E; vm_compute in E; discriminate E|]. split; [apply tx_fitsb_ok; vm_compute; reflexivity|]. split; [apply tx_fitsb_ok; vm_compute; reflexivity|].
  split. { split; [|split; [|split; reflexivity]]; repeat constructor. }
  split; [intros E; discriminate E|].
  assert (W : forall d, (d = Str \/ d = BA) -> tx_to_bytes (ex_parent d) = tx_to_bytes (ex_parent Str)) by (intros d [->| ->]; vm_compute; reflexivity).
  assert (G : forall f d, (d = Str \/ d = BA) -> (forall w, tx_to_bytes (ex_parent Str) = Ok w -> hex_text (map f ex_child_id) (rev (sha256 (sha256 w)))) -> ancestry refers (ex_child f (Script None [])) [0%nat] [ex_parent d]).
  { intros f d D H. econstructor; [reflexivity| |destruct D as [->| ->]; apply tx_fitsb_ok; vm_compute; reflexivity|constructor].
    destruct (tx_to_bytes (ex_parent Str)) as [w|e] eqn:E; [|vm_compute in E; discriminate E]. exists w. split; [exact (W d D)|exact (H w eq_refl)]. }
  assert (H : forall w, tx_to_bytes (ex_parent Str) = Ok w -> encode_hex (rev (sha256 (sha256 w))) = ex_child_id).
  { intros w E. vm_compute in E. assert (w = ltac:(let v := eval vm_compute in (match tx_to_bytes (ex_parent Str) with Ok w => w | Err _ => [] end) in exact v)) as -> by congruence. vm_compute. reflexivity. }
  split; apply G; auto; intros w E; specialize (H w E).
  - rewrite map_id, <- H. apply encode_hex_text.
  - assert (U : decode_hex (map upper ex_child_id) = decode_hex ex_child_id) by (vm_compute; reflexivity). apply decode_hex_iff. rewrite U, <- H. apply decode_hex_iff, encode_hex_text.
Qed.
Lemma ex_replay : exists m r s, signing_message (ex_child (fun b => b) (Script None [])) 0 1 m /\ signing_message (ex_child upper (Script None [])) 0 1 m /\
  secp_p - curve_order <= r /\ public_point 1 secp_gx secp_gy /\ secp_valid secp_gx secp_gy (be_val (sha256 (sha256 m))) r s.
Proof.
  destruct (tx_preimage (ex_child (fun b => b) (Script None [])) 0 1) as [m|e] eqn:E; [|vm_compute in E; discriminate E].
  assert (E' : tx_preimage (ex_child upper (Script None [])) 0 1 = Ok m) by (rewrite <- E; vm_compute; reflexivity).
  destruct (some_signature (be_val (sha256 (sha256 m)))) as (r & s & R & V). exists m, r, s.
  assert (U : u32 1) by (split; reflexivity || discriminate). split; [|split; [|split; [exact R|split; [exact pp_one|exact V]]]].
  - apply preimage_message; [apply tx_fitsb_ok; vm_compute; reflexivity|exact U|exact E].
  - apply preimage_message; [apply tx_fitsb_ok; vm_compute; reflexivity|exact U|exact E'].
Qed.
Definition ex_lib_id : bytes := Eval vm_compute in match tx_get_id (ex_parent Str) with Ok h => h | Err _ => [] end.
Definition ex_child_lib : tx := Tx [Input C_Input ex_lib_id 0 (Script None []) 7] [Output C_Output 4 (Script None [])] 0 1.
Lemma ex_history_ids : tx_fits ex_child_lib /\ ancestry refers_id ex_child_lib [0%nat] [ex_parent Str] /\ ancestry refers_id ex_child_lib [0%nat] [ex_parent BA].
Proof.
  assert (G : forall d, d = Str \/ d = BA -> ancestry refers_id ex_child_lib [0%nat] [ex_parent d]).
  { intros d D. assert (E : tx_get_id (ex_parent d) = tx_get_id (ex_parent Str)) by (unfold tx_get_id, tx_get_id_bytes; assert (W : tx_to_bytes (ex_parent d) = tx_to_bytes (ex_parent Str)) by (destruct D as [->| ->]; vm_compute; reflexivity); rewrite W; reflexivity).
    econstructor; [reflexivity| |destruct D as [->| ->]; apply tx_fitsb_ok; vm_compute; reflexivity|constructor].
    exists ex_lib_id. split; [rewrite E; vm_compute; reflexivity|reflexivity]. }
  split; [apply tx_fitsb_ok; vm_compute; reflexivity|]. split; apply G; auto.
Qed.
