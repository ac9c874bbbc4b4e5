(** The helpers of bitforge/utils. *)
From Coq Require Import ZArith Lia Bool List String.
From Verif Require Import Base M_Hash M_Codec M_Keys M_EC M_HD M_Utils S_Codec S_Keys S_EC S_HD S_Utils P_Codec P_Keys P_PubKey P_PubTx P_HD.
Import ListNotations.
Open Scope Z_scope.

Lemma ascii_iff t : all_ascii t = true <-> ascii_text t.
Proof.
  unfold all_ascii, ascii_text. rewrite forallb_forall, Forall_forall. split; intros H c I; specialize (H c I); unfold is_ascii in *; lia.
Qed.
Lemma a2b_err_iff t e : a2b_hashed_base58 t = Err e <->
  no_check_text t /\ (e = E_UtilsEncodingError /\ ascii_text t \/ e = E_UnicodeDecodeError /\ ~ ascii_text t).
Proof.
  split.
  - intros H. split; [intros b C; apply a2b_iff in C; congruence|].
    assert (D : decode_base58h t = Err (if is_utils_encoding e then E_InvalidBase58h else e)).
    { unfold decode_base58h. rewrite H. cbn [recatch]. destruct (is_utils_encoding e); reflexivity. }
    apply decode_base58h_err in D. rewrite <- ascii_iff. destruct (a2b_err _ _ H) as [->| ->]; cbn [is_utils_encoding] in D; destruct (all_ascii t); try discriminate; auto.
  - intros (N & A). destruct (a2b_hashed_base58 t) as [b|e'] eqn:E; [apply a2b_iff in E; destruct (N _ E)|].
    assert (D : decode_base58h t = Err (if is_utils_encoding e' then E_InvalidBase58h else e')).
    { unfold decode_base58h. rewrite E. cbn [recatch]. destruct (is_utils_encoding e'); reflexivity. }
    apply decode_base58h_err in D. rewrite <- ascii_iff in A. f_equal.
    destruct (a2b_err _ _ E) as [->| ->]; cbn [is_utils_encoding] in D; destruct A as [(-> & A)|(-> & A)]; try reflexivity;
      [destruct (all_ascii t); [congruence|discriminate]|rewrite A in D; discriminate].
Qed.
Lemma check_or t : (exists b, check_text b t) \/ no_check_text t.
Proof.
  destruct (a2b_hashed_base58 t) as [b|e] eqn:E; [left; exists b; apply a2b_iff, E|right; apply a2b_err_iff in E; tauto].
Qed.
Lemma check_ascii b t : check_text b t -> ascii_text t.
Proof.
  intros C. apply ascii_iff. apply a2b_iff in C. unfold a2b_hashed_base58 in C. apply forallb_forall. intros c I.
  destruct (Forall_dec in58 in58_dec t) as [F|F].
  - rewrite Forall_forall in F. specialize (F c I). unfold in58 in F. destruct c; try reflexivity; exfalso; apply F; reflexivity.
  - rewrite a2b_base58_fail in C by exact F. discriminate.
Qed.
Lemma b2a_iff b t : b2a_hashed_base58 (Str b) = Ok t <-> check_text b t.
Proof.
  rewrite <- a2b_iff. change (b2a_hashed_base58 (Str b)) with (encode_base58h (Str b)). rewrite <- decode_base58h_iff.
  unfold decode_base58h, recatch. destruct (a2b_hashed_base58 t) as [p|e]; [reflexivity|]. destruct (is_utils_encoding e); split; discriminate.
Qed.
Lemma b2a_ok b : exists t, b2a_hashed_base58 (Str b) = Ok t /\ check_text b t.
Proof. destruct (check_text_total b) as (t & C). exists t. split; [apply b2a_iff, C|exact C]. Qed.

(** *** valid base58check texts *)
Lemma hashed_valid t : (is_hashed_base58_valid t = Ok true <-> exists b, check_text b t) /\
  (is_hashed_base58_valid t = Ok false <-> no_check_text t /\ ascii_text t) /\
  (forall e, is_hashed_base58_valid t = Err e <-> e = E_UnicodeDecodeError /\ ~ ascii_text t).
Proof.
  unfold is_hashed_base58_valid, succeeds. destruct (a2b_hashed_base58 t) as [b|e] eqn:E.
  - pose proof E as C. apply a2b_iff in C. pose proof (check_ascii _ _ C) as A. split; [split; [eauto|reflexivity]|].
    split; [split; [discriminate|intros (N & _); destruct (N _ C)]|intros e; split; [discriminate|intros (_ & H); contradiction]].
  - apply a2b_err_iff in E as (N & [(-> & A)|(-> & A)]); cbn [is_utils_encoding].
    + split; [split; [discriminate|intros (b & C); destruct (N _ C)]|]. split; [tauto|]. intros e. split; [discriminate|tauto].
    + split; [split; [discriminate|intros (b & C); destruct (N _ C)]|]. split; [split; [discriminate|tauto]|]. intros e. split; [intros H; injection H as <-; auto|intros (-> & _); reflexivity].
Qed.

(** *** WIF *)
Lemma to_bytes_32_neg v : v <= 0 -> to_bytes_32 v = Ok (be_bytes 32 0).
Proof.
  intros H. assert (E : from_long v 0 256 charset256 = from_long 0 0 256 charset256).
  { unfold from_long, from_long_loop. destruct v as [|p|p]; [reflexivity|lia|reflexivity]. }
  unfold to_bytes_32. rewrite E. reflexivity.
Qed.
Lemma to_bytes_32_big v : 2 ^ 256 <= v -> to_bytes_32 v = Err E_ValueError.
Proof.
  intros H. unfold to_bytes_32.
  destruct (from_long_pv 256 charset256 Zb v 0) as (ds & E & F & L & R); [lia|lia|apply charset256_ok|].
  change 0 with (Z.of_nat 0). rewrite R. cbn [bind].
  assert (B : be_val (map Zb ds) = v) by (rewrite be_val_dval, map_bZ_Zb by exact F; exact E).
  destruct (Z.leb_spec (blen (map Zb ds)) 32) as [G|G].
  - exfalso. pose proof (be_val_bound (map Zb ds)) as [_ U]. rewrite B in U. unfold blen in G.
    pose proof (Z.pow_le_mono_r 256 _ _ ltac:(lia) G) as P. change (256 ^ 32) with (2 ^ 256) in P.
    apply (Z.lt_irrefl v). eapply Z.lt_le_trans; [exact U|]. eapply Z.le_trans; [exact P|exact H].
  - replace (blen (map Zb ds) >? 32) with true by lia. reflexivity.
Qed.

Lemma to_wif_ok d c p : 0 <= d < 2 ^ 256 -> exists t b, secret_exponent_to_wif d c p = Ok t /\ wif_body p d c b /\ check_text b t.
Proof.
  intros H. unfold secret_exponent_to_wif. rewrite to_bytes_32_ok by exact H. cbn [bind].
  destruct (b2a_ok (p ++ be_bytes 32 d ++ (if c then [x01] else []))) as (t & E & C). exists t. eexists. split; [exact E|]. split; [|exact C].
  exists (be_bytes 32 d). split; [apply be_bytes_length|]. split; [|reflexivity]. rewrite be_val_be_bytes. apply Z.mod_small. exact H.
Qed.
Lemma to_wif_err d c p e : secret_exponent_to_wif d c p = Err e <-> e = E_ValueError /\ 2 ^ 256 <= d.
Proof.
  destruct (Z.le_gt_cases (2 ^ 256) d) as [B|B].
  - unfold secret_exponent_to_wif. rewrite to_bytes_32_big by exact B. cbn [bind]. split; [intros H; injection H as <-; auto|intros (-> & _); reflexivity].
  - split; [|intros (_ & H); exfalso; apply (Z.lt_irrefl d); eapply Z.lt_le_trans; [exact B|exact H]].
    intros H. exfalso. destruct (Z.le_gt_cases 0 d) as [P|P].
    + destruct (to_wif_ok d c p (conj P B)) as (t & b & E & _). rewrite E in H. discriminate.
    + unfold secret_exponent_to_wif in H. rewrite to_bytes_32_neg in H by lia. cbn [bind] in H.
      destruct (b2a_ok (p ++ be_bytes 32 0 ++ (if c then [x01] else []))) as (t & E & _). rewrite E in H. discriminate.
Qed.
Lemma to_wif_negative d c p : d < 0 -> secret_exponent_to_wif d c p = secret_exponent_to_wif 0 c p.
Proof. intros H. unfold secret_exponent_to_wif. rewrite !to_bytes_32_neg by lia. reflexivity. Qed.
Lemma to_wif_not_injective : ~ (forall d d' c p t, secret_exponent_to_wif d c p = Ok t -> secret_exponent_to_wif d' c p = Ok t -> d = d').
Proof.
  intros H. destruct (to_wif_ok 0 true [x80]) as (t & b & E & _); [split; [lia|reflexivity]|].
  assert (E' : secret_exponent_to_wif (-1) true [x80] = Ok t) by (rewrite (to_wif_negative (-1) true [x80] eq_refl); exact E).
  discriminate (H 0 (-1) true [x80] t E E').
Qed.

Lemma firstn_exact (k : nat) (a b : bytes) : length a = k -> firstn k (a ++ b) = a.
Proof. intros <-. rewrite firstn_app, firstn_all, Nat.sub_diag. apply app_nil_r. Qed.
Lemma wif_read_check b t : check_text b t -> wif_to_tuple t =
  if (length b <? 33)%nat then Err E_ValueError else Ok (firstn 1 b, be_val (firstn 32 (skipn 1 b)), (33 <? length b)%nat).
Proof.
  intros C. unfold wif_to_tuple. rewrite (proj2 (a2b_iff t b) C). cbn [bind]. cbv zeta. rewrite from_bytes_32_str. unfold blen.
  rewrite firstn_length, skipn_length. destruct (Nat.ltb_spec (length b) 33) as [L|L].
  - replace (Z.of_nat (Nat.min 32 (length b - 1)) =? 32) with false by lia. reflexivity.
  - replace (Z.of_nat (Nat.min 32 (length b - 1)) =? 32) with true by lia. cbn [bind]. do 2 f_equal.
    destruct (Nat.ltb_spec 33 (length b)); lia.
Qed.
Lemma wif_read t p d c : wif_to_tuple t = Ok (p, d, c) <-> exists b, wif_loose p d c b /\ check_text b t.
Proof.
  split.
  - intros H. destruct (check_or t) as [(b & C)|N].
    + exists b. split; [|exact C]. rewrite (wif_read_check b t C) in H. destruct (Nat.ltb_spec (length b) 33) as [L|L]; [discriminate|]. injection H as <- <- <-.
      destruct b as [|v b]; [cbn in L; lia|]. cbn [length] in *. exists v, (firstn 32 b), (skipn 32 b). split; [reflexivity|]. rewrite firstn_length. split; [lia|]. split; [reflexivity|].
      split; [|cbn [skipn]; rewrite firstn_skipn; reflexivity]. split.
      * intros G E. apply (f_equal (@length byte)) in E. rewrite skipn_length in E. cbn [length] in E. apply Nat.ltb_lt in G. lia.
      * intros NE. apply Nat.ltb_lt. destruct (Nat.le_gt_cases (length b) 32) as [Q|Q]; [destruct NE; apply skipn_all2, Q|lia].
    + exfalso. unfold wif_to_tuple in H. destruct (a2b_hashed_base58 t) as [b|e] eqn:E; [apply a2b_iff in E; exact (N _ E)|discriminate].
  - intros (b & (v & key & rest & -> & L & <- & R & ->) & C). rewrite (wif_read_check _ _ C). cbn [List.length skipn]. rewrite app_length, L.
    destruct (Nat.ltb_spec (S (32 + length rest)) 33) as [Q|Q]; [lia|]. change (firstn 1 (v :: key ++ rest)) with [v].
    rewrite (firstn_exact 32 key rest L). do 3 f_equal.
    destruct (Nat.ltb_spec 33 (S (32 + length rest))) as [G|G]; destruct c; try reflexivity.
    + destruct rest; [cbn in G; lia|]. symmetry. apply R. discriminate.
    + destruct rest; [|cbn in G; lia]. destruct (proj1 R eq_refl eq_refl).
Qed.
Lemma wif_read_err t e : wif_to_tuple t = Err e <->
  (exists b, check_text b t /\ (length b < 33)%nat /\ e = E_ValueError) \/
  no_check_text t /\ (e = E_UtilsEncodingError /\ ascii_text t \/ e = E_UnicodeDecodeError /\ ~ ascii_text t).
Proof.
  destruct (check_or t) as [(b & C)|N].
  - rewrite (wif_read_check b t C). split.
    + destruct (Nat.ltb_spec (length b) 33) as [L|L]; [|discriminate]. intros H. injection H as <-. left. eauto.
    + intros [(b' & C' & L & ->)|(N & _)]; [|destruct (N _ C)]. rewrite (check_text_fun _ _ _ C C'). apply Nat.ltb_lt in L. rewrite L. reflexivity.
  - unfold wif_to_tuple. split.
    + intros H. right. destruct (a2b_hashed_base58 t) as [b|e'] eqn:E; [apply a2b_iff in E; destruct (N _ E)|]. cbn [bind] in H. injection H as <-. apply a2b_err_iff, E.
    + intros [(b & C & _)|H]; [destruct (N _ C)|]. apply a2b_err_iff in H. rewrite H. reflexivity.
Qed.
Lemma wif_roundtrip v d c : 0 <= d < 2 ^ 256 -> exists t, secret_exponent_to_wif d c [v] = Ok t /\ wif_to_tuple t = Ok ([v], d, c).
Proof.
  intros H. destruct (to_wif_ok d c [v] H) as (t & b & E & (key & L & V & ->) & C). exists t. split; [exact E|]. apply wif_read. eexists. split; [|exact C].
  exists v, key, (if c then [x01] else []). split; [reflexivity|]. split; [exact L|]. split; [exact V|]. split; [destruct c; split; congruence|reflexivity].
Qed.

Lemma in_prefixes p l : existsb (bytes_eqb p) l = true <-> In p l.
Proof.
  rewrite existsb_exists. split; [intros (q & I & E); apply bytes_eqb_eq in E; subst; exact I|intros I; exists p; split; [exact I|apply bytes_eqb_eq; reflexivity]].
Qed.
Lemma wif_secret t ps d : wif_to_secret_exponent t ps = Ok d <-> exists p c b, wif_loose p d c b /\ check_text b t /\ In p ps.
Proof.
  unfold wif_to_secret_exponent, wif_to_secret_compressed. split.
  - intros H. destruct (wif_to_tuple t) as [[[p v] c]|e] eqn:E; [|discriminate]. cbn [bind] in H. destruct (existsb (bytes_eqb p) ps) eqn:I; [|discriminate]. cbn [bind] in H. injection H as <-.
    apply wif_read in E as (b & L & C). exists p, c, b. rewrite <- in_prefixes. auto.
  - intros (p & c & b & L & C & I). assert (E : wif_to_tuple t = Ok (p, d, c)) by (apply wif_read; eauto). rewrite E. cbn [bind]. apply in_prefixes in I. rewrite I. reflexivity.
Qed.
Lemma wif_secret_compressed t ps d c : wif_to_secret_compressed t ps = Ok (d, c) <-> exists p b, wif_loose p d c b /\ check_text b t /\ In p ps.
Proof.
  unfold wif_to_secret_compressed. split.
  - intros H. destruct (wif_to_tuple t) as [[[p v] c']|e] eqn:E; [|discriminate]. cbn [bind] in H. destruct (existsb (bytes_eqb p) ps) eqn:I; [|discriminate]. injection H as <- <-.
    apply wif_read in E as (b & L & C). exists p, b. rewrite <- in_prefixes. auto.
  - intros (p & b & L & C & I). assert (E : wif_to_tuple t = Ok (p, d, c)) by (apply wif_read; eauto). rewrite E. cbn [bind]. apply in_prefixes in I. rewrite I. reflexivity.
Qed.
Lemma wif_valid t ps : is_valid_wif t ps = Ok true <-> exists p d c b, wif_loose p d c b /\ check_text b t /\ In p ps.
Proof.
  unfold is_valid_wif, succeeds. split.
  - intros H. destruct (wif_to_secret_exponent t ps) as [d|e] eqn:E; [|destruct (is_utils_encoding e); discriminate]. apply wif_secret in E as (p & c & b & H'). eauto.
  - intros (p & d & c & b & H). assert (E : wif_to_secret_exponent t ps = Ok d) by (apply wif_secret; eauto). rewrite E. reflexivity.
Qed.
Lemma wif_invalid t ps : is_valid_wif t ps = Ok false <->
  (exists p d c b, wif_loose p d c b /\ check_text b t /\ ~ In p ps) \/ no_check_text t /\ ascii_text t.
Proof.
  unfold is_valid_wif, succeeds, wif_to_secret_exponent, wif_to_secret_compressed. destruct (wif_to_tuple t) as [[[p d] c]|e] eqn:E; cbn [bind].
  - pose proof E as E'. apply wif_read in E' as (b & L & C). destruct (existsb (bytes_eqb p) ps) eqn:I; cbn [bind is_utils_encoding].
    + apply in_prefixes in I. split; [discriminate|]. intros [(p' & d' & c' & b' & L' & C' & N)|(N & _)]; [|destruct (N _ C)].
      assert (Q : wif_to_tuple t = Ok (p', d', c')) by (apply wif_read; eauto). rewrite E in Q. injection Q as -> _ _. contradiction.
    + split; [|reflexivity]. intros _. left. exists p, d, c, b. split; [exact L|]. split; [exact C|]. rewrite <- in_prefixes. congruence.
  - split.
    + intros H. right. apply wif_read_err in E as [(b & C & L & ->)|(N & [(-> & A)|(-> & A)])]; [discriminate|auto|discriminate].
    + intros [(p & d & c & b & L & C & _)|(N & A)]; [assert (Q : wif_to_tuple t = Ok (p, d, c)) by (apply wif_read; eauto); congruence|].
      apply wif_read_err in E as [(b & C & _)|(_ & [(-> & _)|(-> & B)])]; [destruct (N _ C)|reflexivity|contradiction].
Qed.
Lemma wif_valid_err t ps e : is_valid_wif t ps = Err e <->
  (exists b, check_text b t /\ (length b < 33)%nat /\ e = E_ValueError) \/ e = E_UnicodeDecodeError /\ ~ ascii_text t.
Proof.
  unfold is_valid_wif, succeeds, wif_to_secret_exponent, wif_to_secret_compressed. destruct (wif_to_tuple t) as [[[p d] c]|e'] eqn:E; cbn [bind].
  - split; [destruct (existsb _ ps); discriminate|]. pose proof E as E'. apply wif_read in E' as (b & L & C).
    intros [(b' & C' & L' & ->)|(_ & A)]; [|destruct A; exact (check_ascii _ _ C)]. assert (Q : wif_to_tuple t = Err E_ValueError) by (apply wif_read_err; eauto). congruence.
  - apply wif_read_err in E as [(b & C & L & ->)|(N & [(-> & A)|(-> & A)])]; cbn [is_utils_encoding].
    + split; [intros H; injection H as <-; eauto|]. intros [(b' & C' & L' & ->)|(_ & B)]; [reflexivity|destruct B; exact (check_ascii _ _ C)].
    + split; [discriminate|]. intros [(b & C & _)|(_ & B)]; [destruct (N _ C)|contradiction].
    + split; [intros H; injection H as <-; auto|]. intros [(b & C & _)|(-> & _)]; [destruct (N _ C)|reflexivity].
Qed.
Lemma wif_valid_not_total : ~ (forall t ps, ascii_text t -> exists b, is_valid_wif t ps = Ok b).
Proof.
  intros H. destruct (check_text_total [x80]) as (t & C). destruct (H t [[x80]] (check_ascii _ _ C)) as (b & E).
  assert (Q : is_valid_wif t [[x80]] = Err E_ValueError) by (apply wif_valid_err; left; exists [x80]; split; [exact C|split; [cbn; lia|reflexivity]]). congruence.
Qed.
(** trailing bytes and secrets without a key *)
Lemma wif_not_canonical : ~ (forall t t' p d c, wif_to_tuple t = Ok (p, d, c) -> wif_to_tuple t' = Ok (p, d, c) -> t = t').
Proof.
  intros H. destruct (check_text_total (x80 :: be_bytes 32 5 ++ [x01])) as (t & C). destruct (check_text_total (x80 :: be_bytes 32 5 ++ [x02; x03])) as (t' & C').
  assert (E : wif_to_tuple t = Ok ([x80], 5, true)).
  { apply wif_read. eexists. split; [|exact C]. exists x80, (be_bytes 32 5), [x01]. repeat split; discriminate. }
  assert (E' : wif_to_tuple t' = Ok ([x80], 5, true)).
  { apply wif_read. eexists. split; [|exact C']. exists x80, (be_bytes 32 5), [x02; x03]. repeat split; discriminate. }
  specialize (H _ _ _ _ _ E E'). subst t'. pose proof (check_text_fun _ _ _ C C') as Q. discriminate.
Qed.
Lemma wif_valid_not_key : ~ (forall t, is_valid_wif t [[x80]] = Ok true -> exists k, priv_from_wif t = Ok k).
Proof.
  intros H. destruct (check_text_total (x80 :: be_bytes 32 0)) as (t & C). destruct (H t) as (k & E).
  { apply wif_valid. exists [x80], 0, false, (x80 :: be_bytes 32 0). split; [|split; [exact C|left; reflexivity]].
    exists x80, (be_bytes 32 0), []. rewrite app_nil_r. repeat split; try discriminate. intros N. destruct N. reflexivity. }
  apply priv_from_wif_iff in E as (V & E). destruct (priv_to_wif_payload k V) as (p & (v & _ & L & P) & E2). rewrite E in E2. symmetry in E2. apply b2a_iff in E2.
  pose proof (check_text_fun _ _ _ C E2) as Q. rewrite P in Q. injection Q as <- Q. assert (Z0 : priv_to_bytes k = be_bytes 32 0).
  { apply (f_equal (firstn 32)) in Q. rewrite (firstn_exact 32 _ _ L) in Q. symmetry. exact Q. }
  destruct V as (V & _). pose proof (priv_to_bytes_val k V) as B. rewrite Z0 in B. change (be_val (be_bytes 32 0)) with 0 in B. lia.
Qed.

(** *** against PrivateKey *)
Lemma class_wif k v : valid_key k -> network_number (k_network k) "wif_prefix" (bZ v) ->
  secret_exponent_to_wif (k_secret k) (k_compressed k) [v] = priv_to_wif k.
Proof.
  intros V N. destruct (priv_to_wif_payload k V) as (p & (w & N' & L & ->) & E). rewrite E. pose proof (network_number_fun _ _ _ _ N N') as Q. apply bZ_inj in Q as <-.
  destruct V as (V & K). unfold secret_exponent_to_wif. rewrite to_bytes_32_ok; [|unfold curve_order in V; split; [lia|]; eapply Z.lt_trans; [apply V|reflexivity]]. cbn [bind].
  rewrite priv_to_bytes_be by lia. unfold encode_base58h. cbn [app]. reflexivity.
Qed.
Lemma class_wif_read t k : priv_from_wif t = Ok k -> exists v, network_number (k_network k) "wif_prefix" (bZ v) /\ wif_to_tuple t = Ok ([v], k_secret k, k_compressed k).
Proof.
  intros H. apply priv_from_wif_iff in H as (V & E). destruct (priv_to_wif_payload k V) as (p & (w & N' & L & ->) & E2). rewrite E in E2. symmetry in E2. apply b2a_iff in E2.
  exists w. split; [exact N'|]. apply wif_read. eexists. split; [|exact E2]. exists w, (priv_to_bytes k), (if k_compressed k then [x01] else []).
  split; [reflexivity|]. split; [exact L|]. split; [apply priv_to_bytes_val, V|]. split; [destruct (k_compressed k); split; congruence|reflexivity].
Qed.
(** where the class and the helper agree on reading *)
Lemma class_wif_iff t k v : network_number (k_network k) "wif_prefix" (bZ v) ->
  (priv_from_wif t = Ok k <-> 0 < k_secret k < curve_order /\ exists b, wif_body [v] (k_secret k) (k_compressed k) b /\ check_text b t).
Proof.
  intros N. assert (K : known (k_network k)) by (eapply network_number_known, N). split.
  - intros H. apply priv_from_wif_iff in H as (V & E). split; [apply V|]. destruct (to_wif_ok (k_secret k) (k_compressed k) [v]) as (t' & b & E' & B & C).
    + destruct V as (V & _). unfold curve_order in V. split; [lia|]. eapply Z.lt_trans; [apply V|reflexivity].
    + rewrite (class_wif k v V N) in E'. assert (t' = t) by congruence. subst t'. eauto.
  - intros (R & b & (key & L & W & ->) & C). assert (V : valid_key k) by (split; assumption). apply priv_from_wif_iff. split; [exact V|].
    rewrite <- (class_wif k v V N). unfold secret_exponent_to_wif. rewrite <- W. rewrite to_bytes_32_ok by (apply be_32_bound, L). cbn [bind]. apply b2a_iff.
    replace (be_bytes 32 (be_val key)) with key; [exact C|]. apply be_val_inj; [rewrite be_bytes_length; exact L|]. rewrite be_val_be_bytes. symmetry. apply Z.mod_small. apply be_32_bound, L.
Qed.

(** *** addresses *)
Lemma to_address h p : exists t, hash160_sec_to_bitcoin_address h p = Ok t /\ check_text (p ++ h) t.
Proof. apply b2a_ok. Qed.
Lemma key_prefix_cases v : existsb (bytes_eqb [v]) [[x6f]; [x00]] = true <-> v = x6f \/ v = x00.
Proof. rewrite in_prefixes. cbn [In]. split; [intros [H|[H|[]]]; injection H as ->; auto|intros [->| ->]; auto]. Qed.
Lemma address_read_check b t : check_text b t -> address_to_hash160_prefix t =
  match b with
  | v :: h => if (length h =? 20)%nat then
      (if byte_eqb v x6f || byte_eqb v x00 then Ok (h, [v]) else Err (if bZ v <? 128 then E_UtilsEncodingError else E_UnicodeDecodeError))
      else Err E_UtilsEncodingError
  | [] => Err E_UtilsEncodingError
  end.
Proof.
  intros C. unfold address_to_hash160_prefix. rewrite (proj2 (a2b_iff t b) C). cbn [bind]. destruct b as [|v h]; [reflexivity|]. unfold blen. cbn [List.length].
  destruct (Nat.eqb_spec (List.length h) 20) as [L|L]; [replace (Z.of_nat (S (List.length h)) =? 21) with true by lia|replace (Z.of_nat (S (List.length h)) =? 21) with false by lia; reflexivity].
  cbn [negb]. change (firstn 1 (v :: h)) with [v]. change (skipn 1 (v :: h)) with h. cbn [existsb bytes_eqb]. unfold all_ascii, is_ascii. cbn [forallb].
  rewrite !andb_true_r, orb_false_r. reflexivity.
Qed.
Lemma address_read t h p : address_to_hash160_prefix t = Ok (h, p) <->
  exists v, p = [v] /\ (v = x00 \/ v = x6f) /\ exists b, address_body v h b /\ check_text b t.
Proof.
  split.
  - intros H. destruct (check_or t) as [(b & C)|N].
    + rewrite (address_read_check b t C) in H. destruct b as [|v h']; [discriminate|]. destruct (Nat.eqb_spec (List.length h') 20) as [L|L]; [|discriminate].
      destruct (byte_eqb v x6f || byte_eqb v x00) eqn:V; [|discriminate]. injection H as -> <-. exists v. split; [reflexivity|].
      split; [apply orb_true_iff in V as [V|V]; apply byte_eqb_eq in V; auto|]. exists (v :: h). split; [split; [exact L|reflexivity]|exact C].
    + exfalso. unfold address_to_hash160_prefix in H. destruct (a2b_hashed_base58 t) as [b|e] eqn:E; [apply a2b_iff in E; exact (N _ E)|discriminate].
  - intros (v & -> & V & b & (L & ->) & C). rewrite (address_read_check _ _ C), L. cbn [Nat.eqb]. destruct V as [->| ->]; reflexivity.
Qed.
Lemma address_read_err t e : address_to_hash160_prefix t = Err e <->
  (exists b, check_text b t /\ (length b <> 21%nat /\ e = E_UtilsEncodingError \/
     exists v h, address_body v h b /\ v <> x00 /\ v <> x6f /\ (bZ v < 128 /\ e = E_UtilsEncodingError \/ 128 <= bZ v /\ e = E_UnicodeDecodeError))) \/
  no_check_text t /\ (e = E_UtilsEncodingError /\ ascii_text t \/ e = E_UnicodeDecodeError /\ ~ ascii_text t).
Proof.
  destruct (check_or t) as [(b & C)|N].
  - rewrite (address_read_check b t C). split.
    + intros H. left. exists b. split; [exact C|]. destruct b as [|v h]; [injection H as <-; left; split; [discriminate|reflexivity]|].
      destruct (Nat.eqb_spec (List.length h) 20) as [L|L]; [|injection H as <-; left; cbn [List.length]; split; [lia|reflexivity]].
      destruct (byte_eqb v x6f || byte_eqb v x00) eqn:V; [discriminate|]. apply orb_false_iff in V as (V1 & V2). right. exists v, h. split; [split; [exact L|reflexivity]|].
      split; [intros ->; discriminate|]. split; [intros ->; discriminate|]. injection H as <-. destruct (Z.ltb_spec (bZ v) 128); auto.
    + intros [(b' & C' & H)|(N & _)]; [|destruct (N _ C)]. rewrite (check_text_fun _ _ _ C C'). clear b C. destruct H as [(L & ->)|(v & h & (L & ->) & V1 & V2 & H)].
      * destruct b' as [|v h]; [reflexivity|]. cbn [List.length] in L. destruct (Nat.eqb_spec (List.length h) 20); [lia|reflexivity].
      * rewrite L. cbn [Nat.eqb]. destruct (byte_eqb v x6f) eqn:Q1; [apply byte_eqb_eq in Q1; contradiction|]. destruct (byte_eqb v x00) eqn:Q2; [apply byte_eqb_eq in Q2; contradiction|].
        cbn [orb]. destruct (Z.ltb_spec (bZ v) 128); destruct H as [(Q & ->)|(Q & ->)]; try reflexivity; lia.
  - unfold address_to_hash160_prefix. split.
    + intros H. right. destruct (a2b_hashed_base58 t) as [b|e'] eqn:E; [apply a2b_iff in E; destruct (N _ E)|]. cbn [bind] in H. injection H as <-. apply a2b_err_iff, E.
    + intros [(b & C & _)|H]; [destruct (N _ C)|]. apply a2b_err_iff in H. rewrite H. reflexivity.
Qed.
Lemma address_roundtrip v h : length h = 20%nat -> v = x00 \/ v = x6f -> exists t, hash160_sec_to_bitcoin_address h [v] = Ok t /\
  address_to_hash160_prefix t = Ok (h, [v]) /\ address_to_hash160 t [v] = Ok h.
Proof.
  intros L V. destruct (to_address h [v]) as (t & E & C). exists t. split; [exact E|]. assert (R : address_to_hash160_prefix t = Ok (h, [v])).
  { apply address_read. exists v. split; [reflexivity|]. split; [exact V|]. exists (v :: h). split; [split; [exact L|reflexivity]|exact C]. }
  split; [exact R|]. unfold address_to_hash160. rewrite R. cbn [bind]. rewrite bytes_eqb_refl. reflexivity.
Qed.
Lemma address_hash t p h : address_to_hash160 t p = Ok h <->
  exists v, p = [v] /\ (v = x00 \/ v = x6f) /\ exists b, address_body v h b /\ check_text b t.
Proof.
  rewrite <- address_read. unfold address_to_hash160. destruct (address_to_hash160_prefix t) as [(h', p')|e]; cbn [bind]; [|split; discriminate].
  destruct (bytes_eqb p p') eqn:E; [apply bytes_eqb_eq in E; subst; split; congruence|apply bytes_eqb_neq in E; split; [discriminate|congruence]].
Qed.
Lemma address_hash_err t p e : address_to_hash160 t p = Err e <-> address_to_hash160_prefix t = Err e \/
  e = E_UtilsEncodingError /\ exists v h b, p <> [v] /\ (v = x00 \/ v = x6f) /\ address_body v h b /\ check_text b t.
Proof.
  assert (H : address_to_hash160 t p = Err e <-> address_to_hash160_prefix t = Err e \/ e = E_UtilsEncodingError /\ exists h p', p <> p' /\ address_to_hash160_prefix t = Ok (h, p')).
  { unfold address_to_hash160. destruct (address_to_hash160_prefix t) as [(h', p')|e']; cbn [bind].
    - destruct (bytes_eqb p p') eqn:E; [apply bytes_eqb_eq in E; subst p'|apply bytes_eqb_neq in E].
      + split; [discriminate|]. intros [X|(_ & h & p' & N & X)]; [discriminate X|]. exfalso. apply N. congruence.
      + split; [intros X; right; split; [congruence|]; eauto|]. intros [X|(X & _)]; [discriminate X|congruence].
    - split; [intros X; left; congruence|]. intros [X|(_ & h & p' & _ & X)]; [congruence|discriminate X]. }
  rewrite H. split; (intros [X|(E & X)]; [left; exact X|right; split; [exact E|]]).
  - destruct X as (h & p' & N & X). apply address_read in X. destruct X as (v & -> & V & b & B & C). exists v, h, b. auto.
  - destruct X as (v & h & b & N & V & B & C). exists h, [v]. split; [exact N|]. apply address_read. eauto 6.
Qed.
Lemma one_of v ps : existsb (fun b => bytes_eqb [v] [b]) ps = true <-> In v ps.
Proof.
  rewrite existsb_exists. split; [intros (b & I & E); apply bytes_eqb_eq in E; injection E as ->; exact I|intros I; exists v; split; [exact I|apply bytes_eqb_refl]].
Qed.
Lemma address_valid t ps : is_valid_bitcoin_address t ps = Ok true <->
  exists v h b, (v = x00 \/ v = x6f) /\ In v ps /\ address_body v h b /\ check_text b t.
Proof.
  unfold is_valid_bitcoin_address. split.
  - intros H. destruct (address_to_hash160_prefix t) as [(h, p)|e] eqn:E; [|destruct (is_utils_encoding e); discriminate].
    apply address_read in E as (v & -> & V & b & B & C). exists v, h, b. split; [exact V|]. split; [apply one_of; congruence|auto].
  - intros (v & h & b & V & I & B & C). assert (E : address_to_hash160_prefix t = Ok (h, [v])) by (apply address_read; eauto 6). rewrite E. apply one_of in I. rewrite I. reflexivity.
Qed.
Lemma address_valid_err t ps e : is_valid_bitcoin_address t ps = Err e <-> e = E_UnicodeDecodeError /\
  (~ ascii_text t \/ exists v h b, address_body v h b /\ check_text b t /\ 128 <= bZ v).
Proof.
  unfold is_valid_bitcoin_address. destruct (address_to_hash160_prefix t) as [(h, p)|e'] eqn:E.
  - split; [discriminate|]. apply address_read in E as (v & -> & V & b & (L & ->) & C). intros (-> & [A|(v' & h' & b & (_ & ->) & C' & G)]); [destruct A; exact (check_ascii _ _ C)|].
    pose proof (check_text_fun _ _ _ C C') as Q. injection Q as <- _. destruct V as [->| ->]; exfalso; revert G; vm_compute; congruence.
  - apply address_read_err in E. split.
    + intros H. destruct E as [(b & C & [(L & ->)|(v & h & B & V1 & V2 & [(Q & ->)|(Q & ->)])])|(N & [(-> & A)|(-> & A)])]; cbn [is_utils_encoding] in H; try discriminate; injection H as <-; split; try reflexivity; [right; exists v, h, b; auto|left; exact A].
    + intros (-> & H). destruct E as [(b & C & [(L & ->)|(v & h & B & V1 & V2 & [(Q & ->)|(Q & ->)])])|(N & [(-> & A)|(-> & A)])]; cbn [is_utils_encoding]; try reflexivity; exfalso.
      * destruct H as [A|(v & h & b' & (L' & ->) & C' & _)]; [exact (A (check_ascii _ _ C))|]. rewrite (check_text_fun _ _ _ C C') in L. cbn [List.length] in L. lia.
      * destruct H as [A|(v' & h' & b' & (L' & ->) & C' & G)]; [exact (A (check_ascii _ _ C))|]. destruct B as (_ & ->). pose proof (check_text_fun _ _ _ C C') as X. injection X as <- _. lia.
      * destruct H as [A'|(v' & h' & b' & _ & C' & _)]; [exact (A' A)|exact (N _ C')].
Qed.
(** every testnet script address *)
Lemma address_valid_p2sh h t ps : length h = 20%nat -> check_text (xc4 :: h) t -> is_valid_bitcoin_address t ps = Err E_UnicodeDecodeError.
Proof. intros L C. apply address_valid_err. split; [reflexivity|]. right. exists xc4, h, (xc4 :: h). split; [split; [exact L|reflexivity]|]. split; [exact C|]. vm_compute. discriminate. Qed.
Lemma address_valid_not_total : ~ (forall t ps, ascii_text t -> exists b, is_valid_bitcoin_address t ps = Ok b).
Proof.
  intros H. destruct (check_text_total (xc4 :: zeros 20)) as (t & C). destruct (H t [x00] (check_ascii _ _ C)) as (b & E).
  rewrite (address_valid_p2sh (zeros 20) t [x00] eq_refl C) in E. discriminate.
Qed.

(** *** against Address *)
Lemma class_address a h v : valid_addr a -> a_type a = T_PublicKey -> a_phash a = Str h -> network_number (a_network a) "pubkeyhash" (bZ v) ->
  hash160_sec_to_bitcoin_address h [v] = addr_to_string a.
Proof.
  intros V T P N. destruct (addr_to_bytes_payload a V) as (h' & p & P' & (w & N' & L & ->) & E). rewrite P in P'. injection P' as <-. rewrite T in N'.
  pose proof (network_number_fun _ _ _ _ N N') as Q. apply bZ_inj in Q as <-. unfold addr_to_string. rewrite E. reflexivity.
Qed.
Lemma class_address_iff t : is_valid_bitcoin_address t [x00; x6f] = Ok true <-> exists a, addr_from_string t = Ok a /\ a_type a = T_PublicKey.
Proof.
  rewrite address_valid. split.
  - intros (v & h & b & V & _ & (L & ->) & C). set (n := if byte_eqb v x00 then livenet else testnet).
    assert (N : network_number n "pubkeyhash" (bZ v)) by (destruct V as [->| ->]; constructor).
    assert (VA : valid_addr (Address (Str h) n T_PublicKey)) by (split; [eapply network_number_known, N|exists h; auto]).
    exists (Address (Str h) n T_PublicKey). split; [|reflexivity]. apply addr_string_iff. split; [exact VA|].
    rewrite <- (class_address _ h v VA eq_refl eq_refl N). apply b2a_iff. exact C.
  - intros (a & H & T). apply addr_string_iff in H as (V & E). destruct (addr_to_bytes_payload a V) as (h & p & P & (v & N & L & ->) & E2). rewrite T in N.
    assert (VV : v = x00 \/ v = x6f). { destruct (proj1 V) as [K|K]; rewrite K in N; inversion N as [| | | | | | | | | | | | |]; [left|right]; apply bZ_inj; symmetry; assumption. }
    exists v, h, (v :: h). split; [exact VV|]. split; [cbn [In]; destruct VV as [->| ->]; auto|]. split; [split; [exact L|reflexivity]|]. unfold addr_to_string in E. rewrite E2 in E. cbn [bind] in E. apply b2a_iff. exact E.
Qed.
Lemma class_public_key k v : usable_pub k -> known (pk_network k) -> network_number (pk_network k) "pubkeyhash" (bZ v) ->
  exists a, addr_from_public_key k = Ok a /\ public_pair_to_bitcoin_address (pk_pair k) (pk_compressed k) [v] = addr_to_string a.
Proof.
  intros U K N. destruct (addr_of_key k U K) as (h & (b & SO & HH) & A & V). eexists. split; [exact A|]. rewrite <- (class_address _ h v V eq_refl eq_refl N).
  destruct (usable_bytes k U) as (b' & E & SO' & _). rewrite (sec_unique _ _ _ _ _ SO' SO) in E. unfold public_pair_to_bitcoin_address, public_pair_to_hash160_sec. unfold pk_to_bytes in E. rewrite E. cbn [bind].
  unfold hash160_u. rewrite <- HH. reflexivity.
Qed.
Lemma address_invalid t ps : is_valid_bitcoin_address t ps = Ok false <-> ascii_text t /\
  (forall v h b, address_body v h b -> check_text b t -> bZ v < 128 /\ ((v = x00 \/ v = x6f) -> ~ In v ps)).
Proof.
  split.
  - intros H. assert (NE : forall e, is_valid_bitcoin_address t ps <> Err e) by congruence. assert (NT : is_valid_bitcoin_address t ps <> Ok true) by congruence.
    rewrite address_valid in NT. pose proof (NE E_UnicodeDecodeError) as NU. rewrite address_valid_err in NU. split.
    + rewrite <- ascii_iff. destruct (all_ascii t) eqn:A; [reflexivity|]. destruct NU. split; [reflexivity|]. left. rewrite <- ascii_iff. congruence.
    + intros v h b B C. split.
      * destruct (Z.lt_ge_cases (bZ v) 128) as [G|G]; [exact G|]. destruct NU. split; [reflexivity|]. right. eauto 7.
      * intros V I. destruct NT. exists v, h, b. auto.
  - intros (A & H). destruct (is_valid_bitcoin_address t ps) as [[|]|e] eqn:E; [|reflexivity|].
    + apply address_valid in E as (v & h & b & V & I & B & C). destruct (proj2 (H _ _ _ B C) V I).
    + apply address_valid_err in E as (_ & [N|(v & h & b & B & C & G)]); [contradiction|]. pose proof (proj1 (H _ _ _ B C)). lia.
Qed.

(** *** integers *)
Lemma land_255 v : Z.land v 255 = v mod 256.
Proof. change 255 with (Z.ones 8). rewrite Z.land_ones by lia. reflexivity. Qed.
Lemma ib_loop_le k : forall v, ib_loop k v = le_bytes k v.
Proof.
  induction k as [|k IH]; intros v; cbn [ib_loop le_bytes]; [reflexivity|]. rewrite IH, land_255, Z.shiftr_div_pow2 by lia. change (2 ^ 8) with 256. rewrite Zb_mod. reflexivity.
Qed.
Lemma int_encode v (k : nat) big : length (ib_encode v (Z.of_nat k) big) = k /\ denotes_int big (ib_encode v (Z.of_nat k) big) (v mod 256 ^ Z.of_nat k).
Proof.
  unfold ib_encode, denotes_int. rewrite Nat2Z.id, ib_loop_le. destruct big.
  - change (rev (le_bytes k v)) with (be_bytes k v). split; [apply be_bytes_length|apply be_val_be_bytes].
  - split; [apply le_bytes_length|apply le_val_le_bytes].
Qed.
Lemma int_encode_negative_length v n big : n < 0 -> ib_encode v n big = [].
Proof. intros H. unfold ib_encode. replace (Z.to_nat n) with 0%nat by lia. destruct big; reflexivity. Qed.
Lemma int_decode s big v : ib_decode s big false = Ok v <-> denotes_int big s v.
Proof.
  unfold ib_decode, denotes_int. destruct big; rewrite ifb_gen; [|replace (be_val (rev s)) with (le_val s) by (unfold be_val; rewrite rev_involutive; reflexivity)];
    (split; [intros H; injection H as <-; lia|intros <-; f_equal; lia]).
Qed.
Lemma int_roundtrip v (k : nat) big : 0 <= v < 256 ^ Z.of_nat k -> ib_decode (ib_encode v (Z.of_nat k) big) big false = Ok v.
Proof. intros H. apply int_decode. rewrite <- (Z.mod_small v (256 ^ Z.of_nat k) H) at 2. apply int_encode. Qed.
Lemma int_bytes_roundtrip s big v : ib_decode s big false = Ok v -> ib_encode v (blen s) big = s.
Proof.
  intros H. apply int_decode in H. destruct (int_encode v (length s) big) as (L & D). unfold blen. unfold denotes_int in *. destruct big.
  - apply be_val_inj; [exact L|]. rewrite D, <- H. apply Z.mod_small, be_val_bound.
  - apply le_val_inj; [exact L|]. rewrite D, <- H. apply Z.mod_small. rewrite <- (rev_length s). pose proof (be_val_bound (rev s)) as B. unfold be_val in B. rewrite rev_involutive in B. exact B.
Qed.
Lemma int_decode_signed s big : exists e, ib_decode s big true = Err e /\
  ((e = E_IndexError /\ s = [] /\ big = true) \/ (e = E_TypeError /\ ~ (s = [] /\ big = true))).
Proof. unfold ib_decode. destruct s; [destruct big|]; eexists; (split; [reflexivity|]); [left; auto|right|right]; (split; [reflexivity|]); intros [A B]; discriminate. Qed.
Lemma int_signed_unusable : ~ (exists s big v, ib_decode s big true = Ok v).
Proof. intros (s & big & v & H). destruct (int_decode_signed s big) as (e & E & _). congruence. Qed.

Lemma ib_min_loop_int f v : ib_min_loop f v = int_loop_f f v.
Proof. revert v. induction f as [|f IH]; intros v; [reflexivity|]. cbn [ib_min_loop int_loop_f]. destruct (v >? 0); [|reflexivity]. rewrite IH. reflexivity. Qed.
Lemma int_to_bytes_loop v : int_to_bytes v = rev (int_loop v).
Proof. unfold int_to_bytes, int_loop. rewrite ib_min_loop_int. reflexivity. Qed.
Lemma int_min v : 0 <= v -> be_val (int_to_bytes v) = v /\ minimal (int_to_bytes v).
Proof.
  intros H. rewrite int_to_bytes_loop. split; [unfold be_val; rewrite rev_involutive; apply le_val_int_loop, H|].
  destruct (Z.eq_dec v 0) as [->|N]; [exact I|]. destruct (int_loop_last v ltac:(lia)) as (l & b & -> & B). rewrite rev_app_distr. cbn [rev app minimal]. lia.
Qed.
Lemma int_min_shortest v l : 0 <= v -> be_val l = v -> (length (int_to_bytes v) <= length l)%nat.
Proof.
  intros H E. rewrite int_to_bytes_loop, rev_length. destruct (Z.eq_dec v 0) as [->|N]; [rewrite int_loop_nonpos by lia; cbn; lia|].
  rewrite <- (rev_length l). apply int_loop_shortest; [lia|exact E].
Qed.
Lemma int_min_unique v l : 0 <= v -> be_val l = v -> minimal l -> l = int_to_bytes v.
Proof.
  intros H E M. destruct (int_min v H) as (V & _). pose proof (int_min_shortest v l H E) as S1.
  assert (S2 : (length l <= length (int_to_bytes v))%nat).
  { destruct l as [|b l]; [cbn; lia|]. cbn [minimal] in M. destruct (Nat.le_gt_cases (length (b :: l)) (length (int_to_bytes v))) as [G|G]; [exact G|exfalso].
    pose proof (be_val_bound (int_to_bytes v)) as B. rewrite V in B. rewrite be_val_cons in E. pose proof (be_val_bound l) as B'. pose proof (bZ_range b). cbn [length] in G.
    assert (P : 256 ^ Z.of_nat (length (int_to_bytes v)) <= 256 ^ Z.of_nat (length l)) by (apply Z.pow_le_mono_r; lia). nia. }
  apply be_val_inj; [lia|]. rewrite V. exact E.
Qed.
Lemma int_min_nonpos v : v <= 0 -> int_to_bytes v = [].
Proof. intros H. rewrite int_to_bytes_loop, int_loop_nonpos by exact H. reflexivity. Qed.
Lemma int_min_roundtrip v : 0 <= v -> int_from_bytes (int_to_bytes v) = v.
Proof. intros H. rewrite ifb_be. apply int_min, H. Qed.
(** leading zeros are lost, nothing else *)
Lemma int_min_strip s : exists k, s = zeros k ++ int_to_bytes (int_from_bytes s).
Proof.
  rewrite ifb_be. induction s as [|b s IH]; [exists 0%nat; reflexivity|]. destruct (Z.eq_dec (bZ b) 0) as [Z0|N].
  - destruct IH as (k & IH). exists (S k). assert (b = x00) by (apply bZ_inj; exact Z0). subst b. rewrite be_val_zero_cons. cbn [zeros repeat app]. f_equal. exact IH.
  - exists 0%nat. cbn [zeros repeat app]. apply int_min_unique; [apply be_val_bound|reflexivity|exact N].
Qed.

(** *** examples *)
Lemma utils_example_wif : exists t, secret_exponent_to_wif 5 true [x80] = Ok t /\ wif_to_tuple t = Ok ([x80], 5, true) /\ is_valid_wif t [[x80]] = Ok true /\
  is_valid_wif t [[xef]] = Ok false /\ priv_to_wif (PrivateKey 5 livenet true) = Ok t.
Proof.
  destruct (wif_roundtrip x80 5 true) as (t & E & R); [split; [lia|reflexivity]|]. exists t. split; [exact E|]. split; [exact R|].
  pose proof R as W. apply wif_read in W as (b & W & C). split; [apply wif_valid; exists [x80], 5, true, b; split; [exact W|split; [exact C|left; reflexivity]]|].
  split; [apply wif_invalid; left; exists [x80], 5, true, b; split; [exact W|split; [exact C|intros [H|[]]; discriminate]]|].
  assert (V : valid_key (PrivateKey 5 livenet true)) by (split; [cbn; unfold curve_order; lia|left; reflexivity]).
  rewrite <- (class_wif _ x80 V nn_live_wif). exact E.
Qed.
Lemma utils_example_address : exists t t' t'', hash160_sec_to_bitcoin_address (zeros 20) [x6f] = Ok t /\ is_valid_bitcoin_address t [x00; x6f] = Ok true /\
  is_valid_bitcoin_address t [x00] = Ok false /\ check_text (x05 :: zeros 20) t' /\ is_valid_bitcoin_address t' [x00; x6f] = Ok false /\
  check_text (xc4 :: zeros 20) t'' /\ is_valid_bitcoin_address t'' [x00; x6f] = Err E_UnicodeDecodeError.
Proof.
  destruct (to_address (zeros 20) [x6f]) as (t & E & C). destruct (check_text_total (x05 :: zeros 20)) as (t' & C'). destruct (check_text_total (xc4 :: zeros 20)) as (t'' & C'').
  exists t, t', t''. split; [exact E|]. split.
  { apply address_valid. exists x6f, (zeros 20), (x6f :: zeros 20). split; [auto|]. split; [right; left; reflexivity|]. split; [split; reflexivity|exact C]. }
  split.
  { apply address_invalid. split; [exact (check_ascii _ _ C)|]. intros v h b (L & ->) C2. pose proof (check_text_fun _ _ _ C C2) as Q. injection Q as <- _. split; [reflexivity|].
    intros _ [H|[]]. discriminate. }
  split; [exact C'|]. split.
  { apply address_invalid. split; [exact (check_ascii _ _ C')|]. intros v h b (L & ->) C2. pose proof (check_text_fun _ _ _ C' C2) as Q. injection Q as <- _. split; [reflexivity|].
    intros [H|H]; discriminate. }
  split; [exact C''|]. exact (address_valid_p2sh (zeros 20) t'' [x00; x6f] eq_refl C'').
Qed.
