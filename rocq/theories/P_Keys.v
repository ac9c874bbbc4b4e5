(** Proofs about networks, private keys, addresses and DER signatures. *)
From Coq Require Import String.
From Verif Require Import Base M_Hash M_Codec S_Codec P_Codec P_ScriptNum M_Keys S_Keys.
Open Scope Z_scope.
Ltac Zify.zify_post_hook ::= Z.div_mod_to_equations.
Arguments encode_base58h : simpl never.
Arguments decode_base58h : simpl never.
Arguments encode_hex : simpl never.
Arguments decode_hex : simpl never.
Arguments txt : simpl never.

(** ** networks *)

Definition all_attrs : list bytes := map txt ["name"; "pubkeyhash"; "wif_prefix"; "scripthash";
  "hd_public_key"; "hd_private_key"; "magic"; "port"; "seeds"]%string.

Lemma attr_eq_other n attr v : ~ In attr all_attrs -> attr_eq n attr v = None.
Proof.
  intros H. unfold attr_eq. unfold all_attrs in H. cbn [map In] in H.
  repeat match goal with |- context[bytes_eqb attr ?t] =>
    replace (bytes_eqb attr t) with false by (symmetry; apply bytes_eqb_neq; intros ->; tauto) end.
  reflexivity.
Qed.

Lemma in_attrs_dec attr : {In attr all_attrs} + {~ In attr all_attrs}.
Proof. apply in_dec, bytes_eq_dec. Qed.

Lemma find_int_iff attr z n : find (VInt z) attr = Ok n <-> exists a, attr = txt a /\ network_number n a z.
Proof.
  split.
  - unfold find, find_opt, networks. cbn [find_loop].
    destruct (in_attrs_dec attr) as [H|H]; [|rewrite (attr_eq_other _ _ _ H); discriminate].
    unfold all_attrs in H. cbn [map In] in H.
    repeat (destruct H as [<-|H]); [..|destruct H].
    + discriminate.
    + change (attr_eq livenet (txt "pubkeyhash") (VInt z)) with (Some (0 =? z)).
      change (attr_eq testnet (txt "pubkeyhash") (VInt z)) with (Some (111 =? z)).
      destruct (0 =? z) eqn:E; [|destruct (111 =? z) eqn:E'; [|discriminate]]; intros X; injection X as <-;
      eexists; (split; [reflexivity|]);
      [replace z with 0 by lia|replace z with 111 by lia]; constructor.
    + change (attr_eq livenet (txt "wif_prefix") (VInt z)) with (Some (128 =? z)).
      change (attr_eq testnet (txt "wif_prefix") (VInt z)) with (Some (239 =? z)).
      destruct (128 =? z) eqn:E; [|destruct (239 =? z) eqn:E'; [|discriminate]]; intros X; injection X as <-;
      eexists; (split; [reflexivity|]);
      [replace z with 128 by lia|replace z with 239 by lia]; constructor.
    + change (attr_eq livenet (txt "scripthash") (VInt z)) with (Some (5 =? z)).
      change (attr_eq testnet (txt "scripthash") (VInt z)) with (Some (196 =? z)).
      destruct (5 =? z) eqn:E; [|destruct (196 =? z) eqn:E'; [|discriminate]]; intros X; injection X as <-;
      eexists; (split; [reflexivity|]);
      [replace z with 5 by lia|replace z with 196 by lia]; constructor.
    + change (attr_eq livenet (txt "hd_public_key") (VInt z)) with (Some (76067358 =? z)).
      change (attr_eq testnet (txt "hd_public_key") (VInt z)) with (Some (70617039 =? z)).
      destruct (76067358 =? z) eqn:E; [|destruct (70617039 =? z) eqn:E'; [|discriminate]]; intros X; injection X as <-;
      eexists; (split; [reflexivity|]);
      [replace z with 76067358 by lia|replace z with 70617039 by lia]; constructor.
    + change (attr_eq livenet (txt "hd_private_key") (VInt z)) with (Some (76066276 =? z)).
      change (attr_eq testnet (txt "hd_private_key") (VInt z)) with (Some (70615956 =? z)).
      destruct (76066276 =? z) eqn:E; [|destruct (70615956 =? z) eqn:E'; [|discriminate]]; intros X; injection X as <-;
      eexists; (split; [reflexivity|]);
      [replace z with 76066276 by lia|replace z with 70615956 by lia]; constructor.
    + change (attr_eq livenet (txt "magic") (VInt z)) with (Some (4190024921 =? z)).
      change (attr_eq testnet (txt "magic") (VInt z)) with (Some (185665799 =? z)).
      destruct (4190024921 =? z) eqn:E; [|destruct (185665799 =? z) eqn:E'; [|discriminate]]; intros X; injection X as <-;
      eexists; (split; [reflexivity|]);
      [replace z with 4190024921 by lia|replace z with 185665799 by lia]; constructor.
    + change (attr_eq livenet (txt "port") (VInt z)) with (Some (8333 =? z)).
      change (attr_eq testnet (txt "port") (VInt z)) with (Some (18333 =? z)).
      destruct (8333 =? z) eqn:E; [|destruct (18333 =? z) eqn:E'; [|discriminate]]; intros X; injection X as <-;
      eexists; (split; [reflexivity|]);
      [replace z with 8333 by lia|replace z with 18333 by lia]; constructor.
    + discriminate.
  - intros (a & -> & H). destruct H; reflexivity.
Qed.

Lemma find_text_iff attr t n : find (VText t) attr = Ok n <->
  attr = txt "name" /\ ((n = livenet /\ t = txt "livenet") \/ (n = testnet /\ t = txt "testnet")).
Proof.
  split.
  - unfold find, find_opt, networks. cbn [find_loop].
    destruct (in_attrs_dec attr) as [H|H]; [|rewrite (attr_eq_other _ _ _ H); discriminate].
    unfold all_attrs in H. cbn [map In] in H.
    repeat (destruct H as [<-|H]); [..|destruct H]; try discriminate.
    change (attr_eq livenet (txt "name") (VText t)) with (Some (bytes_eqb (txt "livenet") t)).
    change (attr_eq testnet (txt "name") (VText t)) with (Some (bytes_eqb (txt "testnet") t)).
    destruct (bytes_eqb (txt "livenet") t) eqn:E1; [apply bytes_eqb_eq in E1|].
    { intros X. injection X as <-. auto. }
    destruct (bytes_eqb (txt "testnet") t) eqn:E2; [apply bytes_eqb_eq in E2|discriminate].
    intros X. injection X as <-. auto.
  - intros [-> [[-> ->]|[-> ->]]]; reflexivity.
Qed.

Lemma find_err v attr e : find v attr = Err e -> e = E_UnknownNetwork.
Proof. unfold find. destruct (find_opt v attr); congruence. Qed.

Lemma find_net n attr : find (VNet n) attr = Ok n.
Proof. reflexivity. Qed.

Lemma find_opt_find v attr : find_opt v attr = match find v attr with Ok n => Some n | Err _ => None end.
Proof. unfold find. destruct (find_opt v attr); reflexivity. Qed.

Lemma network_number_fun n a z z' : network_number n a z -> network_number n a z' -> z = z'.
Proof. intros H H'. destruct H; inversion H'; reflexivity. Qed.

Lemma network_number_unambiguous n n' a z : network_number n a z -> network_number n' a z -> n = n'.
Proof. intros H H'. destruct H; inversion H'; reflexivity. Qed.

Lemma version_types_disjoint n n' z : network_number n "pubkeyhash" z -> network_number n' "scripthash" z -> False.
Proof. intros H H'. inversion H; subst; inversion H'. Qed.

Lemma network_number_known n a z : network_number n a z -> known n.
Proof. destruct 1; unfold known; auto. Qed.

(** ** private keys *)

Lemma key_max_order : key_max = curve_order.
Proof. reflexivity. Qed.
Lemma curve_order_bound : 0 < curve_order < 2 ^ 256.
Proof. split; reflexivity. Qed.
Opaque curve_order key_max.

Lemma priv_find_network_net n attr : priv_find_network (VNet n) attr = Ok n.
Proof. reflexivity. Qed.

Lemma priv_find_network_err v attr e : priv_find_network v attr = Err e -> e = E_Priv_UnknownNetwork.
Proof.
  unfold priv_find_network, recatch. destruct (find v attr) as [n|e'] eqn:E; [discriminate|].
  apply find_err in E. subst. cbn. congruence.
Qed.

Lemma priv_find_network_ok v attr n : priv_find_network v attr = Ok n <-> find v attr = Ok n.
Proof.
  unfold priv_find_network, recatch. destruct (find v attr) as [m|e]; [reflexivity|].
  destruct (is_unknown_network e); split; discriminate.
Qed.

Lemma new_privkey_ok s v c k : new_privkey s v c = Ok k <->
  exists n, find v (txt "name") = Ok n /\ 0 < s < curve_order /\ k = PrivateKey s n c.
Proof.
  unfold new_privkey. rewrite bind_ok. rewrite <- key_max_order. split.
  - intros (n & E & H). apply priv_find_network_ok in E. exists n. split; [exact E|].
    destruct ((0 <? s) && (s <? key_max)) eqn:B; cbn [negb] in H; [|discriminate].
    injection H as <-. split; [lia|reflexivity].
  - intros (n & E & H & ->). exists n. split; [apply priv_find_network_ok, E|].
    replace ((0 <? s) && (s <? key_max)) with true by lia. reflexivity.
Qed.

Lemma new_privkey_err s v c e : new_privkey s v c = Err e ->
  (e = E_Priv_UnknownNetwork /\ find v (txt "name") = Err E_UnknownNetwork) \/
  (e = E_Priv_InvalidSecret /\ ~ 0 < s < curve_order).
Proof.
  unfold new_privkey. destruct (priv_find_network v (txt "name")) as [n|e'] eqn:E; cbn [bind].
  - rewrite key_max_order. destruct ((0 <? s) && (s <? curve_order)) eqn:B; cbn [negb]; [discriminate|].
    intros X. injection X as <-. right. split; [reflexivity|]. lia.
  - intros X. injection X as <-. left. pose proof (priv_find_network_err _ _ _ E) as ->. split; [reflexivity|].
    destruct (find v (txt "name")) as [n|e2] eqn:F; [|apply find_err in F; congruence].
    apply priv_find_network_ok in F. congruence.
Qed.

Lemma new_privkey_net s n c : new_privkey s (VNet n) c =
  if (0 <? s) && (s <? curve_order) then Ok (PrivateKey s n c) else Err E_Priv_InvalidSecret.
Proof.
  unfold new_privkey. rewrite priv_find_network_net. cbn [bind]. rewrite key_max_order.
  destruct ((0 <? s) && (s <? curve_order)); reflexivity.
Qed.

Lemma priv_from_bytes_ok b v c k : priv_from_bytes b v c = Ok k <->
  length b = 32%nat /\ exists n, find v (txt "name") = Ok n /\ 0 < be_val b < curve_order /\
  k = PrivateKey (be_val b) n c.
Proof.
  unfold priv_from_bytes. rewrite decode_int_be. unfold blen.
  destruct (Z.of_nat (length b) =? 32) eqn:E; cbn [negb].
  - rewrite new_privkey_ok. split; [intros H; split; [lia|exact H]|intros [_ H]; exact H].
  - split; [discriminate|lia].
Qed.

Lemma priv_to_bytes_be k : 0 <= k_secret k -> priv_to_bytes k = be_bytes 32 (k_secret k).
Proof. intros H. unfold priv_to_bytes. apply encode_int_fixed_be_bytes, H. Qed.

Lemma priv_to_bytes_length k : length (priv_to_bytes k) = 32%nat.
Proof. apply encode_int_length. Qed.

Lemma priv_to_bytes_val k : 0 < k_secret k < curve_order -> be_val (priv_to_bytes k) = k_secret k.
Proof.
  intros H. rewrite priv_to_bytes_be by lia. rewrite be_val_be_bytes.
  pose proof curve_order_bound. apply Z.mod_small. change (256 ^ Z.of_nat 32) with (2 ^ 256). lia.
Qed.

Lemma priv_bytes_roundtrip k : 0 < k_secret k < curve_order ->
  priv_from_bytes (priv_to_bytes k) (VNet (k_network k)) (k_compressed k) = Ok k.
Proof.
  intros H. apply priv_from_bytes_ok. split; [apply priv_to_bytes_length|].
  exists (k_network k). rewrite priv_to_bytes_val by exact H. split; [reflexivity|]. split; [exact H|].
  destruct k; reflexivity.
Qed.

Lemma priv_hex_roundtrip k : 0 < k_secret k < curve_order ->
  priv_from_hex (priv_to_hex k) (VNet (k_network k)) (k_compressed k) = Ok k.
Proof.
  intros H. unfold priv_from_hex, priv_to_hex. rewrite decode_encode_hex. cbn [recatch bind].
  apply priv_bytes_roundtrip, H.
Qed.

Lemma priv_from_bytes_back b v c k : priv_from_bytes b v c = Ok k -> priv_to_bytes k = b /\ k_compressed k = c.
Proof.
  rewrite priv_from_bytes_ok. intros (L & n & F & B & ->). cbn [k_compressed]. split; [|reflexivity].
  apply be_val_inj; [rewrite priv_to_bytes_length, L; reflexivity|].
  rewrite priv_to_bytes_val; [reflexivity|exact B].
Qed.

Lemma priv_from_bytes_err b v c e : priv_from_bytes b v c = Err e ->
  (e = E_Priv_InvalidBinaryLength /\ length b <> 32%nat) \/
  (e = E_Priv_UnknownNetwork /\ find v (txt "name") = Err E_UnknownNetwork) \/
  (e = E_Priv_InvalidSecret /\ length b = 32%nat /\ ~ 0 < be_val b < curve_order).
Proof.
  unfold priv_from_bytes. rewrite decode_int_be. unfold blen.
  destruct (Z.of_nat (length b) =? 32) eqn:E; cbn [negb].
  - intros H. apply new_privkey_err in H as [[-> H]|[-> H]]; [right; left; auto|].
    right; right. repeat split; [lia|exact H].
  - intros X. injection X as <-. left. split; [reflexivity|lia].
Qed.

Lemma priv_from_hex_ok s v c k : priv_from_hex s v c = Ok k ->
  exists b, decode_hex s = Ok b /\ priv_from_bytes b v c = Ok k.
Proof.
  unfold priv_from_hex. rewrite bind_ok. intros (b & E & H). exists b. split; [|exact H].
  destruct (decode_hex s) as [b'|e]; cbn [recatch] in E; [congruence|destruct (is_invalid_hex e); discriminate].
Qed.

(** all ways to make a key give an in-range secret *)
Lemma priv_ctor_in_range s v c k : new_privkey s v c = Ok k -> 0 < k_secret k < curve_order.
Proof. rewrite new_privkey_ok. intros (n & _ & H & ->). exact H. Qed.
Lemma priv_bytes_in_range b v c k : priv_from_bytes b v c = Ok k -> 0 < k_secret k < curve_order.
Proof. rewrite priv_from_bytes_ok. intros (_ & n & _ & H & ->). exact H. Qed.
Lemma priv_hex_in_range s v c k : priv_from_hex s v c = Ok k -> 0 < k_secret k < curve_order.
Proof. intros H. apply priv_from_hex_ok in H as (b & _ & H). eapply priv_bytes_in_range, H. Qed.

(** ** WIF *)

Lemma wif_prefix_byte n : known n -> exists v, network_number n "wif_prefix" (bZ v) /\ compat_chr (n_wif_prefix n) = Ok [v].
Proof.
  intros [->| ->].
  - exists x80. split; [exact nn_live_wif|reflexivity].
  - exists xef. split; [exact nn_test_wif|reflexivity].
Qed.

Lemma priv_to_wif_payload k : valid_key k ->
  exists p, wif_payload (k_network k) (priv_to_bytes k) (k_compressed k) p /\
            priv_to_wif k = encode_base58h (Str p).
Proof.
  intros [H K]. destruct (wif_prefix_byte _ K) as (v & N & E).
  exists (v :: priv_to_bytes k ++ (if k_compressed k then [x01] else [])). split.
  - exists v. split; [exact N|]. split; [apply priv_to_bytes_length|reflexivity].
  - unfold priv_to_wif. rewrite E. reflexivity.
Qed.

(** What from_wif does with a decoded payload. *)
Definition wif_of_payload (b : bytes) : res privkey :=
  let! bc :=
    (if blen b =? 33 then Ok (b, false)
     else if blen b =? 34 then
       (if negb (byte_at_end 1 b =? 1) then Err E_Priv_InvalidCompressionByte
        else Ok (drop_last 1 b, true))
     else Err E_Priv_InvalidWifLength) in
  let '(b, compressed) := bc in
  match b with
  | [] => Err E_IndexError
  | b0 :: rest =>
      let! network := priv_find_network (VInt (bZ b0)) (txt "wif_prefix") in
      let secret := decode_int rest true in
      new_privkey secret (VNet network) compressed
  end.

Lemma priv_from_wif_decoded s p : decode_base58h s = Ok p -> priv_from_wif s = wif_of_payload p.
Proof. intros H. unfold priv_from_wif. rewrite H. reflexivity. Qed.

Lemma txt_inj a b : txt a = txt b -> a = b.
Proof.
  unfold txt. revert b. induction a as [|x a IH]; intros [|y b] H; cbn in H; try discriminate; [reflexivity|].
  injection H as Hx H. f_equal; [|apply IH, H].
  apply (f_equal Ascii.ascii_of_byte) in Hx. rewrite !Ascii.ascii_of_byte_of_ascii in Hx. exact Hx.
Qed.

Lemma find_wif z n : find (VInt z) (txt "wif_prefix") = Ok n <-> network_number n "wif_prefix" z.
Proof.
  rewrite find_int_iff. split; [|intros H; exists "wif_prefix"%string; auto].
  intros (a & E & H). apply txt_inj in E. subst a. exact H.
Qed.

Lemma find_pkh z n : find (VInt z) (txt "pubkeyhash") = Ok n <-> network_number n "pubkeyhash" z.
Proof.
  rewrite find_int_iff. split; [|intros H; exists "pubkeyhash"%string; auto].
  intros (a & E & H). apply txt_inj in E. subst a. exact H.
Qed.
Lemma find_sh z n : find (VInt z) (txt "scripthash") = Ok n <-> network_number n "scripthash" z.
Proof.
  rewrite find_int_iff. split; [|intros H; exists "scripthash"%string; auto].
  intros (a & E & H). apply txt_inj in E. subst a. exact H.
Qed.

(** a 34-byte payload ending in 1, or a 33-byte payload: the split form *)
Lemma wif_of_payload_spec v (sec : bytes) (c : bool) : length sec = 32%nat ->
  wif_of_payload (v :: sec ++ (if c then [x01] else [])) =
  (let! n := priv_find_network (VInt (bZ v)) (txt "wif_prefix") in
   if (0 <? be_val sec) && (be_val sec <? curve_order) then Ok (PrivateKey (be_val sec) n c)
   else Err E_Priv_InvalidSecret).
Proof.
  intros L. unfold wif_of_payload. unfold blen. cbn [List.length]. rewrite app_length, L. destruct c; cbn [List.length].
  - change (Z.of_nat (S (32 + 1)) =? 33) with false. change (Z.of_nat (S (32 + 1)) =? 34) with true. cbn iota.
    change (v :: sec ++ [x01]) with ((v :: sec) ++ [x01]).
    rewrite byte_at_end_snoc. change (bZ x01 =? 1) with true. cbn [negb].
    rewrite drop_last_app by reflexivity. cbn [bind].
    destruct (priv_find_network _ _); cbn [bind]; [|reflexivity].
    rewrite decode_int_be. apply new_privkey_net.
  - change (Z.of_nat (S (32 + 0)) =? 33) with true. cbn iota. rewrite app_nil_r. cbn [bind].
    destruct (priv_find_network _ _); cbn [bind]; [|reflexivity].
    rewrite decode_int_be. apply new_privkey_net.
Qed.

Lemma wif_of_payload_ok p k : wif_of_payload p = Ok k <->
  valid_key k /\ wif_payload (k_network k) (priv_to_bytes k) (k_compressed k) p.
Proof.
  split.
  - intros H.
    assert (S : exists v sec c, p = v :: sec ++ (if c : bool then [x01] else []) /\ length sec = 32%nat).
    { unfold wif_of_payload in H. apply bind_ok in H as ([b c] & E & _).
      unfold blen in E. destruct (Z.of_nat (List.length p) =? 33) eqn:E33.
      - destruct p as [|v sec]; [discriminate|]. exists v, sec, false. rewrite app_nil_r.
        split; [reflexivity|]. cbn [List.length] in E33. lia.
      - destruct (Z.of_nat (List.length p) =? 34) eqn:E34; [|discriminate].
        destruct (byte_at_end 1 p =? 1) eqn:B; cbn [negb] in E; [|discriminate].
        destruct (snoc_cases p) as [->|(q & t & ->)]; [discriminate|].
        rewrite byte_at_end_snoc in B. rewrite app_length in E34. cbn [List.length] in E34.
        destruct q as [|v sec]; [discriminate|]. exists v, sec, true. cbn [List.length] in E34. split; [|lia].
        cbn [app]. do 3 f_equal. apply bZ_inj. change (bZ x01) with 1. lia. }
    destruct S as (v & sec & c & -> & L). rewrite wif_of_payload_spec in H by exact L.
    apply bind_ok in H as (n & F & H).
    destruct ((0 <? be_val sec) && (be_val sec <? curve_order)) eqn:B; [|discriminate].
    injection H as <-. apply priv_find_network_ok, find_wif in F.
    split; [split; [cbn; lia|eapply network_number_known, F]|].
    exists v. cbn [k_network k_compressed]. split; [exact F|]. split; [apply priv_to_bytes_length|].
    do 2 f_equal. symmetry. apply be_val_inj; [rewrite priv_to_bytes_length, L; reflexivity|].
    rewrite priv_to_bytes_val; [reflexivity|cbn; lia].
  - intros [[H K] (v & N & L & ->)]. rewrite wif_of_payload_spec by exact L.
    apply find_wif, (priv_find_network_ok (VInt (bZ v))) in N. rewrite N. cbn [bind].
    rewrite priv_to_bytes_val by exact H.
    replace ((0 <? k_secret k) && (k_secret k <? curve_order)) with true by lia. destruct k; reflexivity.
Qed.

Lemma priv_from_wif_ok_inv s k : priv_from_wif s = Ok k ->
  exists p, decode_base58h s = Ok p /\ wif_of_payload p = Ok k.
Proof.
  unfold priv_from_wif. rewrite bind_ok. intros (p & E & H). exists p. split; [|exact H].
  destruct (decode_base58h s) as [p'|e]; cbn [recatch] in E; [congruence|destruct (is_invalid_base58h e); discriminate].
Qed.

Lemma wif_payload_fun n s c p p' : wif_payload n s c p -> wif_payload n s c p' -> p = p'.
Proof.
  intros (v & N & _ & ->) (v' & N' & _ & ->). f_equal. apply bZ_inj. eapply network_number_fun; eauto.
Qed.

Lemma priv_wif_canonical s k : priv_from_wif s = Ok k -> valid_key k /\ priv_to_wif k = Ok s.
Proof.
  intros H. apply priv_from_wif_ok_inv in H as (p & D & W). apply wif_of_payload_ok in W as [V P].
  split; [exact V|]. destruct (priv_to_wif_payload k V) as (p' & P' & E).
  rewrite E, (wif_payload_fun _ _ _ _ _ P' P). apply decode_base58h_iff, D.
Qed.

Lemma priv_wif_roundtrip k : valid_key k -> exists s, priv_to_wif k = Ok s /\ priv_from_wif s = Ok k.
Proof.
  intros V. destruct (priv_to_wif_payload k V) as (p & P & E).
  destruct (base58h_roundtrip p) as (s & E1 & D). exists s. split; [rewrite E; exact E1|].
  rewrite (priv_from_wif_decoded s p D). apply wif_of_payload_ok. auto.
Qed.

Lemma priv_from_wif_iff s k : priv_from_wif s = Ok k <-> valid_key k /\ priv_to_wif k = Ok s.
Proof.
  split; [apply priv_wif_canonical|]. intros [V E]. destruct (priv_wif_roundtrip k V) as (s' & E' & F).
  congruence.
Qed.

(** Which exception from_wif raises. *)
Lemma priv_from_wif_errors s :
  (forall e, decode_base58h s = Err e ->
     priv_from_wif s = Err (if all_ascii s then E_Priv_InvalidBase58h else E_UnicodeDecodeError)) /\
  (forall p, decode_base58h s = Ok p ->
     (length p <> 33%nat -> length p <> 34%nat -> priv_from_wif s = Err E_Priv_InvalidWifLength) /\
     (length p = 34%nat -> last p x00 <> x01 -> priv_from_wif s = Err E_Priv_InvalidCompressionByte) /\
     (forall v sec (c : bool), p = v :: sec ++ (if c then [x01] else []) -> length sec = 32%nat ->
        ((forall n, ~ network_number n "wif_prefix" (bZ v)) -> priv_from_wif s = Err E_Priv_UnknownNetwork) /\
        (forall n, network_number n "wif_prefix" (bZ v) -> ~ 0 < be_val sec < curve_order ->
           priv_from_wif s = Err E_Priv_InvalidSecret))).
Proof.
  split.
  - intros e E. unfold priv_from_wif. rewrite E. apply decode_base58h_err in E. subst e.
    destruct (all_ascii s); reflexivity.
  - intros p D. rewrite (priv_from_wif_decoded s p D). split; [|split].
    + intros L1 L2. unfold wif_of_payload, blen.
      replace (Z.of_nat (List.length p) =? 33) with false by lia.
      replace (Z.of_nat (List.length p) =? 34) with false by lia. reflexivity.
    + intros L Ht. unfold wif_of_payload, blen. rewrite L.
      change (Z.of_nat 34 =? 33) with false. change (Z.of_nat 34 =? 34) with true. cbn iota.
      destruct (snoc_cases p) as [->|(q & t & ->)]; [discriminate|].
      rewrite byte_at_end_snoc. rewrite last_last in Ht.
      destruct (bZ t =? 1) eqn:B; [|reflexivity]. exfalso. apply Ht, bZ_inj. change (bZ x01) with 1. lia.
    + intros v sec c -> L. rewrite wif_of_payload_spec by exact L. split.
      * intros N. destruct (priv_find_network (VInt (bZ v)) (txt "wif_prefix")) as [n|e] eqn:F.
        -- exfalso. apply priv_find_network_ok, find_wif in F. eapply N, F.
        -- apply priv_find_network_err in F. subst. reflexivity.
      * intros n N R. apply find_wif, (priv_find_network_ok (VInt (bZ v))) in N. rewrite N. cbn [bind].
        replace ((0 <? be_val sec) && (be_val sec <? curve_order)) with false by lia. reflexivity.
Qed.

Lemma priv_from_wif_contained s e : all_ascii s = true -> priv_from_wif s = Err e ->
  In e [E_Priv_InvalidBase58h; E_Priv_InvalidWifLength; E_Priv_InvalidCompressionByte;
        E_Priv_UnknownNetwork; E_Priv_InvalidSecret].
Proof.
  intros A H. destruct (decode_base58h s) as [p|e'] eqn:D.
  - rewrite (priv_from_wif_decoded s p D) in H. unfold wif_of_payload, blen in H.
    destruct (Z.of_nat (List.length p) =? 33) eqn:E33.
    + destruct p as [|v sec]; [discriminate|]. cbn [bind] in H.
      destruct (priv_find_network (VInt (bZ v)) (txt "wif_prefix")) as [n|e'] eqn:F; cbn [bind] in H.
      * rewrite new_privkey_net in H. destruct (_ && _); inversion H; subst; cbn; tauto.
      * apply priv_find_network_err in F. inversion H; subst; cbn; tauto.
    + destruct (Z.of_nat (List.length p) =? 34) eqn:E34; [|inversion H; subst; cbn; tauto].
      destruct (negb _); [inversion H; subst; cbn; tauto|]. cbn [bind] in H.
      destruct (drop_last 1 p) as [|v sec] eqn:Dr.
      { exfalso. apply (f_equal (@List.length byte)) in Dr. unfold drop_last in Dr. rewrite firstn_length in Dr.
        cbn in Dr. lia. }
      destruct (priv_find_network (VInt (bZ v)) (txt "wif_prefix")) as [n|e'] eqn:F; cbn [bind] in H.
      * rewrite new_privkey_net in H. destruct (_ && _); inversion H; subst; cbn; tauto.
      * apply priv_find_network_err in F. inversion H; subst; cbn; tauto.
  - destruct (priv_from_wif_errors s) as [X _]. rewrite (X e' D), A in H. inversion H; cbn; tauto.
Qed.

(** ** Addresses *)

Lemma new_address_ok ph v ty a : new_address ph v ty = Ok a <->
  exists n t, find v (txt "name") = Ok n /\ ty = TA t /\ length (pyb_bytes ph) = 20%nat /\ a = Address ph n t.
Proof.
  unfold new_address. rewrite bind_ok. split.
  - intros (n & E & H). destruct ty as [t|]; [|discriminate]. unfold pyb_len in H.
    destruct (Z.of_nat (List.length (pyb_bytes ph)) =? 20) eqn:L; cbn [negb] in H; [|discriminate].
    injection H as <-. exists n, t. repeat split; [|lia].
    destruct (find v (txt "name")) as [m|e]; cbn [recatch] in E; [congruence|].
    destruct (is_unknown_network e); discriminate.
  - intros (n & t & E & -> & L & ->). exists n. rewrite E. split; [reflexivity|]. unfold pyb_len. rewrite L. reflexivity.
Qed.

Lemma new_address_err ph v ty e : new_address ph v ty = Err e ->
  (e = E_Addr_UnknownNetwork /\ find v (txt "name") = Err E_UnknownNetwork) \/
  (e = E_Addr_InvalidType /\ ty = TA_other) \/
  (e = E_Addr_InvalidHashLength /\ length (pyb_bytes ph) <> 20%nat).
Proof.
  unfold new_address. destruct (find v (txt "name")) as [n|e'] eqn:F; cbn [recatch bind].
  - destruct ty as [t|]; [|intros X; injection X as <-; right; left; auto].
    unfold pyb_len. destruct (Z.of_nat (List.length (pyb_bytes ph)) =? 20) eqn:L; cbn [negb]; [discriminate|].
    intros X. injection X as <-. right; right. split; [reflexivity|lia].
  - apply find_err in F. subst. cbn. intros X. injection X as <-. left; auto.
Qed.

Lemma addr_classify_ok z n t : addr_classify z = Ok (n, t) <->
  network_number n (match t with T_PublicKey => "pubkeyhash" | T_Script => "scripthash" end) z.
Proof.
  unfold addr_classify. rewrite !find_opt_find.
  destruct (find (VInt z) (txt "pubkeyhash")) as [m|e] eqn:E1.
  - pose proof E1 as F1. apply find_pkh in F1. split.
    + intros X. injection X as <- <-. exact F1.
    + destruct t; intros H.
      * rewrite (network_number_unambiguous _ _ _ _ H F1). reflexivity.
      * exfalso. eapply version_types_disjoint; eauto.
  - destruct (find (VInt z) (txt "scripthash")) as [m|e2] eqn:E2.
    + pose proof E2 as F2. apply find_sh in F2. split.
      * intros X. injection X as <- <-. exact F2.
      * destruct t; intros H; [apply find_pkh in H; congruence|].
        rewrite (network_number_unambiguous _ _ _ _ H F2). reflexivity.
    + split; [discriminate|]. destruct t; intros H; [apply find_pkh in H|apply find_sh in H]; congruence.
Qed.

Lemma addr_classify_err z e : addr_classify z = Err e -> e = E_Addr_InvalidVersion.
Proof.
  unfold addr_classify. destruct (find_opt _ _); [discriminate|]. destruct (find_opt _ _); [discriminate|]. congruence.
Qed.

Lemma addr_from_bytes_ok p a : addr_from_bytes p = Ok a <->
  exists h, addr_payload (a_network a) (a_type a) h (pyb_bytes p) /\
            a_phash a = match p with Str _ => Str h | BA _ => BA h end.
Proof.
  unfold addr_from_bytes, pyb_len. split.
  - destruct (Z.of_nat (List.length (pyb_bytes p)) =? 21) eqn:L; cbn [negb]; [|discriminate].
    destruct (pyb_bytes p) as [|v h] eqn:E; [discriminate|]. intros H.
    apply bind_ok in H as ([n t] & C & H). cbn [fst snd] in H.
    apply new_address_ok in H as (n' & t' & F & T & Lh & ->). injection F as <-. injection T as <-.
    apply addr_classify_ok in C. exists h. cbn [a_network a_type a_phash]. split.
    + exists v. split; [exact C|]. split; [cbn [List.length] in L; lia|reflexivity].
    + destruct p; cbn [pyb_bytes] in E; subst; reflexivity.
  - intros (h & (v & N & L & E) & P). rewrite E. cbn [List.length]. rewrite L.
    change (Z.of_nat 21 =? 21) with true. cbn [negb].
    apply addr_classify_ok in N. rewrite N. cbn [bind fst snd]. apply new_address_ok.
    exists (a_network a), (a_type a). split; [reflexivity|]. split; [reflexivity|].
    assert (Q : pyb_map (skipn 1) p = match p with Str _ => Str h | BA _ => BA h end)
      by (destruct p; cbn [pyb_bytes] in E; subst; reflexivity).
    rewrite Q. split; [destruct p; exact L|]. rewrite <- P. destruct a; reflexivity.
Qed.

Lemma addr_version_byte a : known (a_network a) ->
  exists v, network_number (a_network a) (match a_type a with T_PublicKey => "pubkeyhash" | T_Script => "scripthash" end) (bZ v)
  /\ compat_chr (addr_version a) = Ok [v].
Proof.
  unfold addr_version. intros [->| ->]; destruct (a_type a).
  - exists x00. split; [exact nn_live_pkh|reflexivity].
  - exists x05. split; [exact nn_live_sh|reflexivity].
  - exists x6f. split; [exact nn_test_pkh|reflexivity].
  - exists xc4. split; [exact nn_test_sh|reflexivity].
Qed.

Lemma addr_to_bytes_payload a : valid_addr a -> exists h p,
  a_phash a = Str h /\ addr_payload (a_network a) (a_type a) h p /\ addr_to_bytes a = Ok (Str p).
Proof.
  intros (K & h & P & L). destruct (addr_version_byte a K) as (v & N & C).
  exists h, (v :: h). split; [exact P|]. split; [exists v; auto|].
  unfold addr_to_bytes. rewrite C. cbn [bind]. rewrite P. reflexivity.
Qed.

Lemma addr_bytes_roundtrip a : valid_addr a -> exists p, addr_to_bytes a = Ok p /\ addr_from_bytes p = Ok a.
Proof.
  intros V. destruct (addr_to_bytes_payload a V) as (h & p & P & Q & E).
  exists (Str p). split; [exact E|]. apply addr_from_bytes_ok. exists h. auto.
Qed.

Lemma addr_string_roundtrip a : valid_addr a -> exists s, addr_to_string a = Ok s /\ addr_from_string s = Ok a.
Proof.
  intros V. destruct (addr_to_bytes_payload a V) as (h & p & P & Q & E).
  destruct (base58h_roundtrip p) as (s & E1 & D). exists s. unfold addr_to_string. rewrite E. cbn [bind].
  split; [exact E1|]. unfold addr_from_string. rewrite D. cbn [recatch bind].
  apply addr_from_bytes_ok. exists h. auto.
Qed.

Lemma addr_hex_roundtrip a : valid_addr a -> exists s, addr_to_hex a = Ok s /\ addr_from_hex s = Ok a.
Proof.
  intros V. destruct (addr_to_bytes_payload a V) as (h & p & P & Q & E).
  exists (encode_hex p). unfold addr_to_hex. rewrite E. cbn [bind]. split; [reflexivity|].
  unfold addr_from_hex. rewrite decode_encode_hex. cbn [recatch bind].
  apply addr_from_bytes_ok. exists h. auto.
Qed.

Lemma addr_from_str_valid b a : addr_from_bytes (Str b) = Ok a -> valid_addr a /\ addr_to_bytes a = Ok (Str b).
Proof.
  intros H. apply addr_from_bytes_ok in H as (h & (v & N & L & E) & P). cbn [pyb_bytes] in E.
  assert (V : valid_addr a) by (split; [eapply network_number_known, N|exists h; auto]).
  split; [exact V|]. destruct (addr_version_byte a (proj1 V)) as (v' & N' & C).
  unfold addr_to_bytes. rewrite C. cbn [bind]. rewrite P, E. cbn [pyb_map app]. do 3 f_equal.
  apply bZ_inj. eapply network_number_fun; eauto.
Qed.

Lemma addr_from_string_ok_inv s a : addr_from_string s = Ok a ->
  exists p, decode_base58h s = Ok p /\ addr_from_bytes (Str p) = Ok a.
Proof.
  unfold addr_from_string. rewrite bind_ok. intros (p & E & H). exists p. split; [|exact H].
  destruct (decode_base58h s) as [p'|e]; cbn [recatch] in E; [congruence|destruct (is_invalid_base58h e); discriminate].
Qed.

Lemma addr_string_canonical s a : addr_from_string s = Ok a -> valid_addr a /\ addr_to_string a = Ok s.
Proof.
  intros H. apply addr_from_string_ok_inv in H as (p & D & H). apply addr_from_str_valid in H as [V E].
  split; [exact V|]. unfold addr_to_string. rewrite E. cbn [bind]. apply decode_base58h_iff, D.
Qed.

Lemma addr_string_iff s a : addr_from_string s = Ok a <-> valid_addr a /\ addr_to_string a = Ok s.
Proof.
  split; [apply addr_string_canonical|]. intros [V E].
  destruct (addr_string_roundtrip a V) as (s' & E' & F). congruence.
Qed.

Lemma addr_string_injective a b s : valid_addr a -> valid_addr b ->
  addr_to_string a = Ok s -> addr_to_string b = Ok s -> a = b.
Proof.
  intros Va Vb Ea Eb. assert (Fa : addr_from_string s = Ok a) by (apply addr_string_iff; auto).
  assert (Fb : addr_from_string s = Ok b) by (apply addr_string_iff; auto). congruence.
Qed.

Lemma addr_from_bytes_accepts p : (exists a, addr_from_bytes p = Ok a) <->
  length (pyb_bytes p) = 21%nat /\ In (hd x00 (pyb_bytes p)) [x00; x05; x6f; xc4].
Proof.
  split.
  - intros [a H]. apply addr_from_bytes_ok in H as (h & (v & N & L & E) & _). rewrite E. cbn [List.length hd]. split; [lia|].
    assert (Hv : bZ v = 0 \/ bZ v = 5 \/ bZ v = 111 \/ bZ v = 196)
      by (destruct (a_type a); inversion N; auto).
    destruct Hv as [Hv|[Hv|[Hv|Hv]]].
    + left. apply bZ_inj. rewrite Hv. reflexivity.
    + right; left. apply bZ_inj. rewrite Hv. reflexivity.
    + right; right; left. apply bZ_inj. rewrite Hv. reflexivity.
    + right; right; right; left. apply bZ_inj. rewrite Hv. reflexivity.
  - intros [L I]. destruct (pyb_bytes p) as [|v h] eqn:E; [discriminate|]. cbn [hd List.length] in *.
    assert (Ht : exists n t, network_number n (match t with T_PublicKey => "pubkeyhash" | T_Script => "scripthash" end) (bZ v)).
    { destruct I as [<-|[<-|[<-|[<-|[]]]]].
      - exists livenet, T_PublicKey. exact nn_live_pkh.
      - exists livenet, T_Script. exact nn_live_sh.
      - exists testnet, T_PublicKey. exact nn_test_pkh.
      - exists testnet, T_Script. exact nn_test_sh. }
    destruct Ht as (n & t & N).
    exists (Address (match p with Str _ => Str h | BA _ => BA h end) n t). apply addr_from_bytes_ok.
    exists h. cbn [a_network a_type a_phash]. rewrite E. split; [|reflexivity]. exists v. repeat split; [exact N|lia].
Qed.

Lemma addr_from_bytes_err p e : addr_from_bytes p = Err e ->
  (e = E_Addr_InvalidBinaryLength /\ length (pyb_bytes p) <> 21%nat) \/
  (e = E_Addr_InvalidVersion /\ length (pyb_bytes p) = 21%nat /\ ~ In (hd x00 (pyb_bytes p)) [x00; x05; x6f; xc4]).
Proof.
  intros H. pose proof (addr_from_bytes_accepts p) as A.
  assert (N : ~ (length (pyb_bytes p) = 21%nat /\ In (hd x00 (pyb_bytes p)) [x00; x05; x6f; xc4])).
  { intros X. apply A in X as [a X]. congruence. }
  unfold addr_from_bytes, pyb_len in H.
  destruct (Z.of_nat (List.length (pyb_bytes p)) =? 21) eqn:L; cbn [negb] in H.
  - right. assert (L' : List.length (pyb_bytes p) = 21%nat) by lia. split; [|split; [exact L'|tauto]].
    destruct (pyb_bytes p) as [|v h] eqn:E; [discriminate|].
    destruct (addr_classify (bZ v)) as [[n t]|e'] eqn:C; cbn [bind fst snd] in H.
    + apply new_address_err in H as [[-> F]|[[-> T]|[-> Lh]]].
      * discriminate F.
      * discriminate T.
      * exfalso. apply Lh. destruct p; cbn [pyb_bytes pyb_map] in *; subst; cbn [List.length skipn] in *; lia.
    + apply addr_classify_err in C. congruence.
  - injection H as <-. left. split; [reflexivity|lia].
Qed.

Lemma addr_from_string_err s e : addr_from_string s = Err e ->
  (e = E_Addr_InvalidBase58h /\ all_ascii s = true) \/ (e = E_UnicodeDecodeError /\ all_ascii s = false) \/
  e = E_Addr_InvalidBinaryLength \/ e = E_Addr_InvalidVersion.
Proof.
  unfold addr_from_string. destruct (decode_base58h s) as [p|e'] eqn:D.
  - cbn [recatch bind]. intros H. apply addr_from_bytes_err in H as [[-> _]|[-> _]]; auto.
  - apply decode_base58h_err in D. subst. destruct (all_ascii s); cbn; intros X; injection X as <-; auto.
Qed.

(** an address whose hash is a bytearray (from a parsed script) has no text form *)
Lemma addr_to_string_bytearray n t h : known n -> length h = 20%nat ->
  exists e, addr_to_string (Address (BA h) n t) = Err e.
Proof.
  intros K L. destruct (addr_version_byte (Address (BA h) n t) K) as (v & N & C).
  unfold addr_to_string, addr_to_bytes. rewrite C. cbn [bind a_phash pyb_map].
  unfold encode_base58h, b2a_hashed_base58. cbn [pyb_bytes app]. rewrite b2a_base58_ba by discriminate.
  eexists; reflexivity.
Qed.

(** ** DER *)

Lemma sig_at_nth s i : 0 <= i < blen s -> sig_at s i = Ok (bZ (nth (Z.to_nat i) s x00)).
Proof.
  intros H. unfold sig_at. unfold blen in H.
  rewrite (nth_error_nth' s x00) by lia. reflexivity.
Qed.

Definition at_ (s : bytes) (i : Z) : Z := bZ (nth (Z.to_nat i) s x00).

(** the checks as one boolean *)
Definition der_ok (s : bytes) : bool :=
  let len := blen s in
  let lenR := at_ s 3 in
  let lenS := at_ s (5 + lenR) in
  (9 <=? len) && (len <=? 73) && (at_ s 0 =? 48) && (at_ s 1 =? len - 3) && (5 + lenR <? len)
  && (lenR + lenS + 7 =? len) && (at_ s 2 =? 2) && negb (lenR =? 0) && (at_ s 4 <? 128)
  && negb ((lenR >? 1) && (at_ s 4 =? 0) && (at_ s 5 <? 128))
  && (at_ s (lenR + 4) =? 2) && negb (lenS =? 0) && (at_ s (lenR + 6) <? 128)
  && negb ((lenS >? 1) && (at_ s (lenR + 6) =? 0) && (at_ s (lenR + 7) <? 128)).

Lemma land_at s i : (Z.land (at_ s i) 128 =? 0) = (at_ s i <? 128).
Proof. unfold at_. rewrite land_128. destruct (_ <? 128); reflexivity. Qed.

Lemma validate_signature_str s : validate_signature (Str s) = Ok (der_ok s).
Proof.
  unfold validate_signature, der_ok. cbv zeta.
  destruct (blen s <? 9) eqn:E1; [replace (9 <=? blen s) with false by lia; reflexivity|].
  replace (9 <=? blen s) with true by lia.
  destruct (blen s >? 73) eqn:E2; [replace (blen s <=? 73) with false by lia; reflexivity|].
  replace (blen s <=? 73) with true by lia. cbn [andb].
  rewrite (sig_at_nth s 0) by lia. cbn [bind]. fold (at_ s 0).
  destruct (at_ s 0 =? 48); cbn [negb andb]; [|reflexivity].
  rewrite (sig_at_nth s 1) by lia. cbn [bind]. fold (at_ s 1).
  destruct (at_ s 1 =? blen s - 3); cbn [negb andb]; [|reflexivity].
  rewrite (sig_at_nth s 3) by lia. cbn [bind]. fold (at_ s 3).
  assert (HR : 0 <= at_ s 3 < 256) by apply bZ_range.
  destruct (5 + at_ s 3 >=? blen s) eqn:E3; [replace (5 + at_ s 3 <? blen s) with false by lia; reflexivity|].
  replace (5 + at_ s 3 <? blen s) with true by lia. cbn [andb].
  rewrite (sig_at_nth s (5 + at_ s 3)) by lia. cbn [bind]. fold (at_ s (5 + at_ s 3)).
  assert (HS : 0 <= at_ s (5 + at_ s 3) < 256) by apply bZ_range.
  destruct (at_ s 3 + at_ s (5 + at_ s 3) + 7 =? blen s) eqn:E4; cbn [negb andb]; [|reflexivity].
  rewrite (sig_at_nth s 2) by lia. cbn [bind]. fold (at_ s 2).
  destruct (at_ s 2 =? 2); cbn [negb andb]; [|reflexivity].
  destruct (at_ s 3 =? 0) eqn:E5; cbn [negb andb]; [reflexivity|].
  rewrite (sig_at_nth s 4) by lia. cbn [bind]. fold (at_ s 4). rewrite land_at.
  destruct (at_ s 4 <? 128); cbn [negb andb]; [|reflexivity].
  rewrite (sig_at_nth s 5) by lia. cbn [bind]. fold (at_ s 5). rewrite land_at.
  destruct ((at_ s 3 >? 1) && (at_ s 4 =? 0) && (at_ s 5 <? 128)); cbn [negb andb]; [reflexivity|].
  rewrite (sig_at_nth s (at_ s 3 + 4)) by lia. cbn [bind]. fold (at_ s (at_ s 3 + 4)).
  destruct (at_ s (at_ s 3 + 4) =? 2); cbn [negb andb]; [|reflexivity].
  destruct (at_ s (5 + at_ s 3) =? 0) eqn:E6; cbn [negb andb]; [reflexivity|].
  rewrite (sig_at_nth s (at_ s 3 + 6)) by lia. cbn [bind]. fold (at_ s (at_ s 3 + 6)). rewrite land_at.
  destruct (at_ s (at_ s 3 + 6) <? 128); cbn [negb andb]; [|reflexivity].
  destruct (at_ s (5 + at_ s 3) >? 1) eqn:E7; cbn [andb]; [|reflexivity].
  destruct (at_ s (at_ s 3 + 6) =? 0); cbn [andb bind]; [|reflexivity].
  rewrite (sig_at_nth s (at_ s 3 + 7)) by lia. cbn [bind]. fold (at_ s (at_ s 3 + 7)). rewrite land_at.
  destruct (at_ s (at_ s 3 + 7) <? 128); reflexivity.
Qed.

Ltac blia := unfold blen in *; cbn [List.length] in *; lia.

Lemma at_app_r a b i : blen a <= i -> at_ (a ++ b) i = at_ b (i - blen a).
Proof.
  intros H. unfold at_, blen in *. rewrite app_nth2 by lia. do 2 f_equal. lia.
Qed.
Lemma at_app_l a b i : 0 <= i < blen a -> at_ (a ++ b) i = at_ a i.
Proof. intros H. unfold at_, blen in *. rewrite app_nth1 by lia. reflexivity. Qed.
Lemma at_cons_0 x l : at_ (x :: l) 0 = bZ x.
Proof. reflexivity. Qed.
Lemma at_cons_pos x l i : 0 < i -> at_ (x :: l) i = at_ l (i - 1).
Proof. intros H. change (x :: l) with ([x] ++ l). rewrite at_app_r; [reflexivity|]. change (blen [x]) with 1. lia. Qed.

Lemma bytes_split (s : bytes) k : (k <= List.length s)%nat -> exists a b, s = a ++ b /\ List.length a = k.
Proof. intros H. exists (firstn k s), (skipn k s). rewrite firstn_skipn, firstn_length. split; [reflexivity|lia]. Qed.

Lemma der_int_at r : 0 < blen r ->
  der_int r <-> at_ r 0 < 128 /\ (1 < blen r -> at_ r 0 = 0 -> 128 <= at_ r 1).
Proof.
  intros H. destruct r as [|a [|b r]]; [cbn in H; lia| |].
  - cbn [der_int]. rewrite at_cons_0. change (blen [a]) with 1. lia.
  - cbn [der_int]. rewrite at_cons_0. change (at_ (a :: b :: r) 1) with (bZ b).
    unfold blen. cbn [List.length]. split; [intros [? ?]; split; auto|intros [? G]; split; auto; intros; apply G; lia].
Qed.

Lemma der_ok_iff s : der_ok s = true <-> bip66 s.
Proof.
  split.
  - unfold der_ok. cbv zeta. intros H. repeat (apply andb_true_iff in H; destruct H as [H ?H]).
    assert (HR : 0 <= at_ s 3 < 256) by apply bZ_range.
    assert (HS : 0 <= at_ s (5 + at_ s 3) < 256) by apply bZ_range.
    unfold blen in *.
    destruct (bytes_split s 4 ltac:(lia)) as (h & s1 & -> & Lh).
    rewrite app_length, Lh in *.
    destruct h as [|h0 [|h1 [|h2 [|h3 [|? ?]]]]]; try discriminate Lh.
    set (lr := at_ ([h0; h1; h2; h3] ++ s1) 3) in *. change (bZ h3) with lr in *. change lr with (bZ h3) in *. clear lr. pose proof (bZ_range h3) as Hh3.
    destruct (bytes_split s1 (Z.to_nat (bZ h3)) ltac:(lia)) as (r & s2 & -> & Lr).
    rewrite app_length, Lr in *.
    destruct s2 as [|u [|ls s3]]; [cbn [List.length] in *; lia|cbn [List.length] in *; lia|].
    assert (A5 : at_ ([h0; h1; h2; h3] ++ r ++ u :: ls :: s3) (5 + bZ h3) = bZ ls).
    { rewrite at_app_r by blia. rewrite at_app_r by blia.
      unfold blen. rewrite Lr. cbn [List.length]. replace (5 + bZ h3 - Z.of_nat 4 - Z.of_nat (Z.to_nat (bZ h3))) with 1 by lia. reflexivity. }
    pose proof (bZ_range ls) as Hlsr.
    rewrite A5 in *. cbn [List.length] in *.
    destruct (snoc_cases s3) as [->|(t & ht & ->)]; [cbn [List.length] in *; lia|].
    rewrite app_length in *. cbn [List.length] in *.
    assert (A4 : at_ ([h0; h1; h2; h3] ++ r ++ u :: ls :: t ++ [ht]) (bZ h3 + 4) = bZ u).
    { rewrite at_app_r by blia. rewrite at_app_r by blia.
      unfold blen. rewrite Lr. cbn [List.length]. replace (bZ h3 + 4 - Z.of_nat 4 - Z.of_nat (Z.to_nat (bZ h3))) with 0 by lia. reflexivity. }
    assert (A6 : forall j, 0 <= j < blen t -> at_ ([h0; h1; h2; h3] ++ r ++ u :: ls :: t ++ [ht]) (bZ h3 + 6 + j) = at_ t j).
    { intros j Hj. rewrite at_app_r by blia. rewrite at_app_r by blia.
      unfold blen at 1 2. rewrite Lr. cbn [List.length].
      rewrite at_cons_pos by lia. rewrite at_cons_pos by lia.
      replace (bZ h3 + 6 + j - Z.of_nat 4 - Z.of_nat (Z.to_nat (bZ h3)) - 1 - 1) with j by lia.
      apply at_app_l, Hj. }
    assert (AR : forall j, 0 <= j < blen r -> at_ ([h0; h1; h2; h3] ++ r ++ u :: ls :: t ++ [ht]) (4 + j) = at_ r j).
    { intros j Hj. rewrite at_app_r by blia.
      replace (4 + j - blen [h0; h1; h2; h3]) with j by blia. apply at_app_l, Hj. }
    rewrite A4 in *. unfold blen in A6, AR.
    assert (Lt : List.length t = Z.to_nat (bZ ls)) by lia.
    exists h1, h3, ls, r, t, ht.
    assert (B0 : h0 = x30) by (apply bZ_inj; change (bZ x30) with 48; change (at_ (([h0; h1; h2; h3] ++ r ++ u :: ls :: t ++ [ht])) 0) with (bZ h0) in *; lia).
    assert (B2 : h2 = x02) by (apply bZ_inj; change (bZ x02) with 2; change (at_ (([h0; h1; h2; h3] ++ r ++ u :: ls :: t ++ [ht])) 2) with (bZ h2) in *; lia).
    assert (Bu : u = x02) by (apply bZ_inj; change (bZ x02) with 2; lia).
    assert (B1 : bZ h1 = Z.of_nat (4 + (Z.to_nat (bZ h3) + S (S (List.length t + 1)))) - 3)
      by (change (at_ (([h0; h1; h2; h3] ++ r ++ u :: ls :: t ++ [ht])) 1) with (bZ h1) in *; lia).
    pose proof (AR 0 ltac:(lia)) as AR0. change (4 + 0) with 4 in AR0.
    pose proof (A6 0 ltac:(lia)) as A60. rewrite Z.add_0_r in A60.
    split; [subst; reflexivity|]. unfold blen. rewrite !app_length. cbn [List.length]. rewrite !app_length. cbn [List.length].
    split; [lia|]. split; [lia|]. split; [lia|]. split; [|split; [|lia]].
    + apply der_int_at; [unfold blen; lia|]. split; [rewrite AR0 in *; lia|].
      intros G0 Z0. unfold blen in G0. pose proof (AR 1 ltac:(lia)) as AR1. change (4 + 1) with 5 in AR1.
      rewrite AR0, AR1 in *. lia.
    + apply der_int_at; [unfold blen; lia|]. split; [rewrite A60 in *; lia|].
      intros G0 Z0. unfold blen in G0. pose proof (A6 1 ltac:(lia)) as A61.
      replace (bZ h3 + 6 + 1) with (bZ h3 + 7) in A61 by lia.
      rewrite A60, A61 in *. lia.
  - intros (tot & lr & ls & r & t & ht & E & Htot & Hlr & Hls & Dr & Dt & Hlen).
    assert (Lr : 0 < blen r) by (destruct r; [destruct Dr|unfold blen; cbn [List.length]; lia]).
    assert (Lt : 0 < blen t) by (destruct t; [destruct Dt|unfold blen; cbn [List.length]; lia]).
    apply der_int_at in Dr; [|exact Lr]. apply der_int_at in Dt; [|exact Lt].
    assert (Hl : blen s = 7 + blen r + blen t).
    { rewrite E. unfold blen. rewrite !app_length. cbn [List.length]. rewrite ?app_length. cbn [List.length]. lia. }
    assert (AR : forall j, 0 <= j < blen r -> at_ s (4 + j) = at_ r j).
    { intros j Hj. rewrite E. rewrite at_app_r by blia.
      replace (4 + j - blen [x30; tot; x02; lr]) with j by blia. apply at_app_l, Hj. }
    assert (AS : forall j, 0 <= j < 2 + blen t + 1 -> at_ s (4 + blen r + j) = at_ ([x02; ls] ++ t ++ [ht]) j).
    { intros j Hj. rewrite E. rewrite at_app_r by blia. rewrite at_app_r by blia.
      f_equal. blia. }
    assert (AT : forall j, 0 <= j < blen t -> at_ s (blen r + 6 + j) = at_ t j).
    { intros j Hj. replace (blen r + 6 + j) with (4 + blen r + (2 + j)) by lia. rewrite AS by lia.
      rewrite at_app_r by blia. replace (2 + j - blen [x02; ls]) with j by blia. apply at_app_l, Hj. }
    assert (A3 : at_ s 3 = blen r) by (rewrite E; exact Hlr).
    assert (A5 : at_ s (5 + blen r) = blen t).
    { replace (5 + blen r) with (4 + blen r + 1) by lia. rewrite AS by lia. exact Hls. }
    assert (A4 : at_ s (blen r + 4) = 2).
    { replace (blen r + 4) with (4 + blen r + 0) by lia. rewrite AS by lia. reflexivity. }
    pose proof (AR 0 ltac:(lia)) as AR0. change (4 + 0) with 4 in AR0.
    pose proof (AT 0 ltac:(lia)) as AT0. rewrite Z.add_0_r in AT0.
    unfold der_ok. cbv zeta. rewrite A3, A5, A4, AR0, AT0.
    assert (A0 : at_ s 0 = 48) by (rewrite E; reflexivity).
    assert (A1 : at_ s 1 = blen s - 3) by (rewrite <- Htot; rewrite E; reflexivity).
    assert (A2 : at_ s 2 = 2) by (rewrite E; reflexivity).
    rewrite A0, A1, A2, !Z.eqb_refl. cbn [andb].
    assert (NR : (blen r >? 1) && (at_ r 0 =? 0) && (at_ s 5 <? 128) = false).
    { destruct (blen r >? 1) eqn:X; [|reflexivity]. destruct (at_ r 0 =? 0) eqn:Y; [|reflexivity]. cbn [andb].
      pose proof (AR 1 ltac:(lia)) as AR1. change (4 + 1) with 5 in AR1. rewrite AR1. lia. }
    assert (NT : (blen t >? 1) && (at_ t 0 =? 0) && (at_ s (blen r + 7) <? 128) = false).
    { destruct (blen t >? 1) eqn:X; [|reflexivity]. destruct (at_ t 0 =? 0) eqn:Y; [|reflexivity]. cbn [andb].
      pose proof (AT 1 ltac:(lia)) as AT1. replace (blen r + 6 + 1) with (blen r + 7) in AT1 by lia. rewrite AT1. lia. }
    rewrite NR, NT. cbn [negb].
    replace (9 <=? blen s) with true by lia. replace (blen s <=? 73) with true by lia.
    replace (5 + blen r <? blen s) with true by lia. replace (blen r + blen t + 7 =? blen s) with true by lia.
    replace (blen r =? 0) with false by lia. replace (blen t =? 0) with false by lia.
    replace (at_ r 0 <? 128) with true by lia. replace (at_ t 0 <? 128) with true by lia. reflexivity.
Qed.

Lemma validate_signature_iff s : validate_signature (Str s) = Ok true <-> bip66 s.
Proof. rewrite validate_signature_str, <- der_ok_iff. split; [congruence|intros ->; reflexivity]. Qed.
Lemma validate_signature_total s : exists b, validate_signature (Str s) = Ok b.
Proof. eexists. apply validate_signature_str. Qed.
Lemma validate_signature_ba b l : validate_signature (BA (b :: l)) = Err E_TypeError.
Proof. reflexivity. Qed.
