(** Proofs about the example programs. *)
From Coq Require Import ZArith Lia Bool List String.
From Verif Require Import Base M_Hash M_Codec S_Codec P_Codec M_Keys S_Keys P_Keys M_EC S_EC M_Script S_Script P_Script M_Tx S_Tx P_Tx P_TxSign P_PubKey P_PubTx M_Sign S_Sign P_Sign P_SignTx M_Obj S_Obj P_Obj M_Flow S_Flow.
Import ListNotations.
Open Scope Z_scope.

(** ** scripts *)
Lemma push_instr b : 1 <= blen b <= 75 -> to_instruction (I_Bytes (Str b)) = Ok (Instr (Zb (blen b)) (Some (Str b))).
Proof.
  intros L. cbn [to_instruction]. rewrite op_push_for_eq. replace (blen b <=? 0) with false by lia. replace (blen b <=? 75) with true by lia.
  cbn [bind]. apply new_instr_ok. split; [reflexivity|]. unfold well_formed. cbn [i_data i_op]. left. change (pyb_len (Str b)) with (blen b).
  rewrite bZ_Zb by lia. lia.
Qed.
Definition pk_script (h : bytes) : script :=
  Script (Some PayToPubkeyOut) [Instr x76 None; Instr xa9 None; Instr (Zb (blen h)) (Some (Str h)); Instr x88 None; Instr xac None].
Lemma pk_script_create h n t : List.length h = 20%nat -> p2pk_out_create (Address (Str h) n t) = Ok (pk_script h).
Proof.
  intros L. unfold p2pk_out_create, sub_create. cbn [a_phash to_instructions]. rewrite push_instr by (unfold blen; lia). reflexivity.
Qed.
Lemma plain_op o : (bZ o =? 0) || (78 <? bZ o) = true -> ~ pushes o.
Proof. unfold pushes. lia. Qed.
Lemma pk_script_wire h : List.length h = 20%nat -> wire_script (map content (s_ins (pk_script h))) (pay_to_hash h).
Proof.
  intros L. unfold pk_script, pay_to_hash. cbn [s_ins map content i_op i_data option_map pyb_bytes].
  assert (B : blen h = 20) by (unfold blen; rewrite L; reflexivity). rewrite B. change (Zb 20) with x14.
  change ([x76; xa9; x14] ++ h ++ [x88; xac]) with ([x76] ++ [xa9] ++ (x14 :: h) ++ [x88] ++ [xac] ++ []).
  repeat (apply ws_cons; [first [apply wire_plain, plain_op; reflexivity | apply wire_const; [vm_compute; split; discriminate | rewrite B; reflexivity]]|]).
  apply ws_nil.
Qed.
Lemma pk_script_len h : List.length h = 20%nat -> blen (pay_to_hash h) = 25.
Proof. intros L. unfold pay_to_hash, blen. rewrite !app_length, L. reflexivity. Qed.
Lemma wire_unique l : Forall (fun i => ~ pushdata (i_op i)) l -> forall w w', wire_script (map content l) w -> wire_script (map content l) w' -> w = w'.
Proof.
  intros N. induction N as [|i l N1 N2 IH]; cbn [map]; intros u v W W'; [inversion W; inversion W'; reflexivity|].
  inversion W as [|? w ? r W1 W2]; inversion W' as [|? w' ? r' W1' W2']; subst. rewrite (IH r r' W2 W2'). f_equal.
  unfold pushdata in N1. destruct i as [o d]. unfold content in *. cbn [i_op i_data] in *.
  inversion W1; inversion W1'; subst; unfold length_width in *; try congruence; try lia.
Qed.
Lemma small_writable s w : wire_script (map content (s_ins s)) w -> blen w < 253 -> forallb wfb (s_ins s) = true -> writable s.
Proof.
  intros W L F. rewrite forallb_forall in F.
  assert (N : Forall (fun i => ~ pushdata (i_op i)) (s_ins s)) by (apply Forall_forall; intros i I; apply wfb_ok, F, I).
  split; [apply Forall_forall; intros i I; apply wfb_ok, F, I|]. split; [exact N|]. intros w' W'. rewrite (wire_unique _ N w' w W' W).
  pose proof (blen_nonneg w). unfold u64. lia.
Qed.
Lemma pk_script_wf h : List.length h = 20%nat -> forallb wfb (s_ins (pk_script h)) = true.
Proof.
  intros L. assert (B : blen h = 20) by (unfold blen; rewrite L; reflexivity). unfold pk_script. cbn [s_ins]. rewrite B. cbn [forallb wfb i_data i_op].
  change (pyb_len (Str h)) with (blen h). rewrite B. reflexivity.
Qed.
Lemma pk_script_writable h : List.length h = 20%nat -> writable (pk_script h).
Proof. intros L. apply (small_writable _ (pay_to_hash h)); [apply pk_script_wire, L | rewrite pk_script_len by exact L; reflexivity | apply pk_script_wf, L]. Qed.
Lemma pk_script_classifiable h : List.length h = 20%nat -> classifiable (pk_script h).
Proof.
  intros L (_ & N). apply N. exists PayToPubkeyOut. assert (B : blen h = 20) by (unfold blen; rewrite L; reflexivity).
  unfold pk_script. cbn [s_ins]. rewrite B. constructor; try reflexivity. vm_compute. split; discriminate.
Qed.

(** ** transactions with one input and one output *)
Lemma one_small n : 0 <= n < 253 -> compact_size n [Zb n].
Proof. intros H. left. split; [exact H|]. exists (Zb n). split; [reflexivity|apply bZ_Zb; lia]. Qed.
Lemma le4 n : u32 n -> exists b, field 4 n b.
Proof. intros H. eexists. apply field_ok; [exact H|reflexivity]. Qed.
Lemma le8 n : u64 n -> exists b, field 8 n b.
Proof. intros H. eexists. apply field_ok; [exact H|reflexivity]. Qed.
Lemma one_tx_fits c id idb n s sb c' amt h : hex_text id idb -> List.length idb = 32%nat -> u32 n -> u64 amt -> List.length h = 20%nat ->
  wire_script (map content (s_ins s)) sb -> blen sb < 253 -> forallb wfb (s_ins s) = true ->
  tx_fits (Tx [Input c id n s 4294967295] [Output c' amt (pk_script h)] 0 1).
Proof.
  intros H L N A LH W LS F. unfold tx_fits. cbn [tx_version tx_lock_time tx_inputs tx_outputs].
  assert (U : u32 1) by (split; reflexivity || discriminate). assert (U0 : u32 0) by (split; reflexivity || discriminate). assert (U64 : u64 1) by (split; reflexivity || discriminate).
  split; [exact U|]. split; [exact U0|]. split; [discriminate|]. split; [exact U64|]. split; [|split; [discriminate|split; [exact U64|]]].
  - constructor; [|constructor]. unfold input_fits. cbn [in_tx_id in_index in_seq in_script]. split; [rewrite (hex_text_length _ _ H), L; reflexivity|].
    split; [exact (hex_text_hex _ _ H)|]. split; [exact N|]. split; [split; reflexivity || discriminate|]. exact (small_writable s sb W LS F).
  - constructor; [|constructor]. split; [exact A|]. cbn [out_script]. apply pk_script_writable, LH.
Qed.
Lemma one_tx_bytes c id idb n s sb c' amt h : hex_text id idb -> List.length idb = 32%nat -> u32 n -> u64 amt -> List.length h = 20%nat ->
  wire_script (map content (s_ins s)) sb -> blen sb < 253 -> forallb wfb (s_ins s) = true ->
  exists w, tx_to_bytes (Tx [Input c id n s 4294967295] [Output c' amt (pk_script h)] 0 1) = Ok w /\ one_to_one idb n sb amt h w.
Proof.
  intros H L N A LH W LS F. destruct (le4 n N) as (ib & IB), (le8 amt A) as (ab & AB).
  eexists. split; [|exists ib, (Zb (blen sb)), ab; split; [exact IB|]; split; [apply bZ_Zb; pose proof (blen_nonneg sb); lia|]; split; [exact LS|]; split; [exact AB|]; reflexivity].
  apply tx_write; [exact (one_tx_fits c id idb n s sb c' amt h H L N A LH W LS F)|].
  exists [x01; x00; x00; x00], [x01], (rev idb ++ ib ++ (Zb (blen sb) :: sb) ++ [xff; xff; xff; xff]), [x01], (ab ++ [x19] ++ pay_to_hash h), [x00; x00; x00; x00].
  cbn [tx_version tx_lock_time tx_inputs tx_outputs]. split; [split; reflexivity|]. split; [apply one_small; vm_compute; split; [discriminate|reflexivity]|]. split; [|split; [apply one_small; vm_compute; split; [discriminate|reflexivity]|split; [|split; [split; reflexivity|]]]].
  - rewrite <- (app_nil_r (rev idb ++ _)). apply each_cons; [|apply each_nil]. exists (rev idb), ib, (Zb (blen sb) :: sb), [xff; xff; xff; xff].
    cbn [in_tx_id in_index in_seq in_script]. rewrite rev_involutive. split; [rewrite rev_length; exact L|]. split; [exact H|]. split; [exact IB|]. split; [|split; [split; reflexivity|reflexivity]].
    exists [Zb (blen sb)], sb. split; [apply one_small; pose proof (blen_nonneg sb); lia|]. split; [exact W|reflexivity].
  - rewrite <- (app_nil_r (ab ++ _)). apply each_cons; [|apply each_nil]. exists ab, ([x19] ++ pay_to_hash h). cbn [out_amount out_script]. split; [exact AB|]. split; [|reflexivity].
    exists [x19], (pay_to_hash h). rewrite pk_script_len by exact LH. split; [apply (one_small 25); lia|]. split; [apply pk_script_wire, LH|reflexivity].
  - cbn [app]. rewrite <- !app_assoc. cbn [app]. rewrite <- !app_assoc. reflexivity.
Qed.

(** ** the wallet *)
Lemma wallet_ok pk d net : hex_text pk d -> List.length d = 32%nat -> 0 < be_val d < curve_order -> known net ->
  exists x y kb, public_point (be_val d) x y /\ sec_of x y true kb /\ pk_to_bytes (PublicKey (x, y) net true) = Ok kb /\ usable_pub (PublicKey (x, y) net true) /\
    pk_from_private_key (PrivateKey (be_val d) net true) = Ok (PublicKey (x, y) net true) /\
    open_wallet pk net = Ok (PrivateKey (be_val d) net true, PublicKey (x, y) net true, Address (Str (ripemd160 (sha256 kb))) net T_PublicKey).
Proof.
  intros H L R K. set (k := PrivateKey (be_val d) net true). assert (V : valid_key k) by (split; assumption).
  destruct (valid_key_usable k V) as (p & E & U & N & C). destruct (pk_point k p V E) as (P & _). destruct p as [(x & y) n c]. cbn in N, C. subst n c. cbn [pk_pair fst snd] in P.
  destruct (usable_bytes _ U) as (kb & B & SO & _). cbn [pk_pair fst snd pk_compressed] in SO. exists x, y, kb. split; [exact P|]. split; [exact SO|]. split; [exact B|]. split; [exact U|]. split; [exact E|].
  unfold open_wallet, priv_from_hex. apply decode_hex_iff in H. rewrite H. cbn [recatch bind].
  assert (PB : priv_from_bytes d (VNet net) true = Ok k) by (apply priv_from_bytes_ok; split; [exact L|]; exists net; split; [apply find_net|split; [exact R|reflexivity]]).
  rewrite PB. cbn [bind]. unfold priv_to_public_key. rewrite E. cbn [bind]. destruct (addr_of_key _ U K) as (h & (b & SO' & ->) & A & _). cbn [pk_pair fst snd pk_compressed pk_network] in *.
  rewrite A. rewrite (sec_unique _ _ _ _ _ SO' SO). reflexivity.
Qed.
Lemma wallet_iff pk net w : known net -> (open_wallet pk net = Ok w <-> exists d x y kb, hex_text pk d /\ List.length d = 32%nat /\ public_point (be_val d) x y /\ sec_of x y true kb /\
    w = (PrivateKey (be_val d) net true, PublicKey (x, y) net true, Address (Str (ripemd160 (sha256 kb))) net T_PublicKey)).
Proof.
  intros K. split.
  - intros W. pose proof W as W0. unfold open_wallet in W. apply bind_ok in W. destruct W as (k & E & _). unfold priv_from_hex in E.
    apply bind_ok in E. destruct E as (d & E & PB). apply priv_from_bytes_ok in PB. destruct PB as (L & n & _ & R & _).
    assert (H : hex_text pk d). { apply decode_hex_iff. destruct (decode_hex pk); cbn [recatch] in E; [congruence|]. destruct (is_invalid_hex e); discriminate. }
    destruct (wallet_ok pk d net H L R K) as (x & y & kb & P & SO & _ & _ & _ & O). exists d, x, y, kb. split; [exact H|]. split; [exact L|]. split; [exact P|]. split; [exact SO|]. congruence.
  - intros (d & x & y & kb & H & L & P & SO & ->). destruct (wallet_ok pk d net H L (proj1 P) K) as (x' & y' & kb' & P' & SO' & _ & _ & _ & O).
    destruct (pp_fun _ _ _ _ _ P P') as (-> & ->). rewrite (sec_unique _ _ _ _ _ SO SO'). exact O.
Qed.
Lemma wallet_err pk net e : known net -> (open_wallet pk net = Err e <->
   (e = E_Priv_InvalidHex /\ ~ exists d, hex_text pk d) \/
   (e = E_Priv_InvalidBinaryLength /\ exists d, hex_text pk d /\ List.length d <> 32%nat) \/
   (e = E_Priv_InvalidSecret /\ exists d, hex_text pk d /\ List.length d = 32%nat /\ ~ 0 < be_val d < curve_order)).
Proof.
  intros K. assert (X : forall e, open_wallet pk net = Err e -> 
   (e = E_Priv_InvalidHex /\ ~ exists d, hex_text pk d) \/
   (e = E_Priv_InvalidBinaryLength /\ exists d, hex_text pk d /\ List.length d <> 32%nat) \/
   (e = E_Priv_InvalidSecret /\ exists d, hex_text pk d /\ List.length d = 32%nat /\ ~ 0 < be_val d < curve_order)).
  { clear e. intros e O. destruct (decode_hex pk) as [d|e0] eqn:D.
    - pose proof D as H. apply decode_hex_iff in H.
      destruct (Nat.eq_dec (List.length d) 32) as [L|L].
      + right; right. destruct (priv_from_bytes d (VNet net) true) as [k|e1] eqn:PB.
        * apply priv_from_bytes_ok in PB. destruct PB as (_ & n & _ & R & _). destruct (wallet_ok pk d net H L R K) as (x & y & kb & _ & _ & _ & _ & _ & O'). congruence.
        * assert (e = e1) by (unfold open_wallet, priv_from_hex in O; rewrite D in O; cbn [recatch bind] in O; rewrite PB in O; cbn [bind] in O; congruence). subst e1.
          apply priv_from_bytes_err in PB. destruct PB as [(_ & X)|[(_ & X)|(-> & _ & X)]]; [contradiction|rewrite find_net in X; discriminate|]. split; [reflexivity|]. eauto.
      + right; left. destruct (priv_from_bytes d (VNet net) true) as [k|e1] eqn:PB; [apply priv_from_bytes_ok in PB; tauto|].
        assert (e = e1) by (unfold open_wallet, priv_from_hex in O; rewrite D in O; cbn [recatch bind] in O; rewrite PB in O; cbn [bind] in O; congruence). subst e1.
        apply priv_from_bytes_err in PB. destruct PB as [(-> & X)|[(_ & X)|(_ & X & _)]]; [split; [reflexivity|]; eauto|rewrite find_net in X; discriminate|contradiction].
    - left. assert (e0 = E_InvalidHex). { destruct (decode_hex_err _ _ D); auto. } subst e0.
      split; [unfold open_wallet, priv_from_hex in O; rewrite D in O; cbn in O; congruence|]. intros (d & H). apply decode_hex_iff in H. congruence. }
  split; [apply X|]. intros H. destruct (open_wallet pk net) as [w|e'] eqn:O.
  - apply (wallet_iff pk net w K) in O. destruct O as (d & x & y & kb & T & L & P & _). exfalso.
    destruct H as [(_ & N)|[(_ & d' & T' & N)|(_ & d' & T' & _ & N)]]; [apply N; eauto| |]; rewrite (hex_text_fun _ _ _ T' T) in N; [contradiction|apply N, P].
  - f_equal. specialize (X e' eq_refl). destruct X as [(-> & N)|[(-> & d & T & N)|(-> & d & T & L & N)]], H as [(-> & N')|[(-> & d' & T' & N')|(-> & d' & T' & L' & N')]]; try reflexivity; exfalso;
    try (apply N; eauto; fail); try (apply N'; eauto; fail); pose proof (hex_text_fun _ _ _ T T'); subst; auto.
Qed.

(** ** building and reading back *)
Definition flow_tx (id : bytes) (n amt : Z) (h : bytes) : tx :=
  Tx [Input C_AddressInput id n (pk_script h) 4294967295] [Output C_AddressOutput amt (pk_script h)] 0 1.
Lemma build_ok id n amt h net t : List.length h = 20%nat -> build_tx id n amt (Address (Str h) net t) = Ok (flow_tx id n amt h).
Proof.
  intros L. unfold build_tx, address_input_create, address_output_create. rewrite pk_script_create by exact L. reflexivity.
Qed.
Lemma hash_length kb : List.length (ripemd160 (sha256 kb)) = 20%nat. Proof. apply ripemd160_length. Qed.
Lemma pk_script_small h : List.length h = 20%nat -> blen (pay_to_hash h) < 253.
Proof. intros L. rewrite pk_script_len by exact L. reflexivity. Qed.
Lemma flow_fits id idb n amt h : hex_text id idb -> List.length idb = 32%nat -> u32 n -> u64 amt -> List.length h = 20%nat -> tx_fits (flow_tx id n amt h).
Proof. intros H L N A LH. exact (one_tx_fits C_AddressInput id idb n (pk_script h) (pay_to_hash h) C_AddressOutput amt h H L N A LH (pk_script_wire h LH) (pk_script_small h LH) (pk_script_wf h LH)). Qed.
Lemma flow_bytes id idb n amt h : hex_text id idb -> List.length idb = 32%nat -> u32 n -> u64 amt -> List.length h = 20%nat ->
  exists w, tx_to_bytes (flow_tx id n amt h) = Ok w /\ one_to_one idb n (pay_to_hash h) amt h w.
Proof. intros H L N A LH. exact (one_tx_bytes C_AddressInput id idb n (pk_script h) (pay_to_hash h) C_AddressOutput amt h H L N A LH (pk_script_wire h LH) (pk_script_small h LH) (pk_script_wf h LH)). Qed.
Lemma flow_classifiable id n amt h : List.length h = 20%nat -> tx_classifiable (flow_tx id n amt h).
Proof. intros L. split; (constructor; [|constructor]); apply pk_script_classifiable, L. Qed.
Lemma canon_script_bytes s : script_to_bytes (canon_script s) = script_to_bytes s.
Proof.
  unfold script_to_bytes, canon_script. cbn [s_ins]. induction (s_ins s) as [|i l IH]; [reflexivity|]. cbn [map ins_list_to_bytes]. rewrite IH.
  replace (ins_to_bytes (ba_instr (content i))) with (ins_to_bytes i); [reflexivity|]. destruct i as [o [[d|d]|]]; reflexivity.
Qed.
Lemma canon_tx_bytes t : Forall (fun i => exists d, hex_text (in_tx_id i) d) (tx_inputs t) -> tx_to_bytes (canon_tx t) = tx_to_bytes t.
Proof.
  intros H. unfold tx_to_bytes. cbn [canon_tx tx_inputs tx_outputs tx_version tx_lock_time]. rewrite !blen_map.
  assert (I : concat_bytes input_to_bytes (map canon_input (tx_inputs t)) = concat_bytes input_to_bytes (tx_inputs t)).
  { induction H as [|i l (d & D) F IH]; [reflexivity|]. cbn [map concat_bytes]. rewrite IH. replace (input_to_bytes (canon_input i)) with (input_to_bytes i); [reflexivity|].
    unfold input_to_bytes. cbn [canon_input in_script in_tx_id in_index in_seq]. rewrite canon_script_bytes. pose proof (hex_text_lower _ _ D) as D'. apply decode_hex_iff in D, D'. rewrite D, D'. reflexivity. }
  rewrite I. replace (concat_bytes output_to_bytes (map canon_output (tx_outputs t))) with (concat_bytes output_to_bytes (tx_outputs t)); [reflexivity|].
  induction (tx_outputs t) as [|o l IH]; [reflexivity|]. cbn [map concat_bytes]. rewrite <- IH. unfold output_to_bytes. cbn [canon_output out_script out_amount]. rewrite canon_script_bytes. reflexivity.
Qed.
Lemma read_canon t w : tx_fits t -> tx_classifiable t -> blen (tx_inputs t) < 2 ^ 60 -> blen (tx_outputs t) < 2 ^ 60 -> tx_to_bytes t = Ok w -> tx_from_bytes w = Ok (canon_tx t).
Proof.
  intros F C BI BO E. apply (tx_write _ _ F) in E. destruct F as (_ & _ & NI & _ & _ & NO & _ & _). destruct (canon_tx_ok t w E C NI NO BI BO) as [W P].
  apply tx_from_bytes_ok. exists w, []. rewrite app_nil_r. auto.
Qed.
Lemma hex_ascii h d : hex_text h d -> ascii h.
Proof.
  induction 1 as [|a b x h d A B E H IH]; [constructor|]. assert (X : forall c, is_hex c -> bZ c < 128) by (unfold is_hex; intros; lia). constructor; [apply X, A|]. constructor; [apply X, B|exact IH].
Qed.
Theorem serial_ok pk d net id idb n amt : hex_text pk d -> List.length d = 32%nat -> 0 < be_val d < curve_order -> known net ->
  hex_text id idb -> List.length idb = 32%nat -> u32 n -> u64 amt ->
  exists x y kb t1 t2 w, public_point (be_val d) x y /\ sec_of x y true kb /\ example_serial pk id n amt net = Ok (t1, t2) /\
    one_to_one idb n (pay_to_hash (ripemd160 (sha256 kb))) amt (ripemd160 (sha256 kb)) w /\
    tx_to_hex t1 = Ok (encode_hex w) /\ tx_to_hex t2 = Ok (encode_hex w) /\
    forall u v, is_tx u t1 -> is_tx v t2 -> decides (py_eq u v) (map lower id = id).
Proof.
  intros H L R K HI LI N A. destruct (wallet_ok pk d net H L R K) as (x & y & kb & P & SO & _ & _ & _ & O). set (h := ripemd160 (sha256 kb)) in *.
  assert (LH : List.length h = 20%nat) by apply hash_length. destruct (flow_bytes id idb n amt h HI LI N A LH) as (w & E & W).
  assert (RD : tx_from_bytes w = Ok (canon_tx (flow_tx id n amt h))).
  { apply read_canon; [exact (flow_fits id idb n amt h HI LI N A LH)|apply flow_classifiable, LH|reflexivity|reflexivity|exact E]. }
  exists x, y, kb, (flow_tx id n amt h), (canon_tx (flow_tx id n amt h)), w. split; [exact P|]. split; [exact SO|]. split.
  { unfold example_serial. rewrite O. cbn [bind snd]. rewrite build_ok by exact LH. cbn [bind]. rewrite E. cbn [bind]. rewrite RD. reflexivity. }
  split; [exact W|]. split; [unfold tx_to_hex; rewrite E; reflexivity|]. split.
  { unfold tx_to_hex. rewrite canon_tx_bytes; [rewrite E; reflexivity|]. constructor; [exists idb; exact HI|constructor]. }
  intros u v U V. assert (AS : ascii_ids (flow_tx id n amt h)) by (constructor; [exact (hex_ascii _ _ HI)|constructor]).
  eapply decides_iff; [exact (eq_tx u v _ _ U V AS)|]. unfold same_tx. cbn [flow_tx canon_tx tx_inputs tx_outputs tx_lock_time tx_version map]. split.
  - intros (F & _). inversion F as [|? ? ? ? (E1 & _) _]; subst. cbn [canon_input in_tx_id] in E1. symmetry. exact E1.
  - intros EI. split; [constructor; [|constructor]|split; [constructor; [|constructor]|auto]]; split; cbn [canon_input canon_output in_tx_id in_index in_seq in_script out_amount out_script]; auto.
    + split; [reflexivity|]. split; [|reflexivity]. unfold same_script. rewrite content_canon. reflexivity.
    + unfold same_script. rewrite content_canon. reflexivity.
Qed.

(** ** signing *)
Definition signed_script (sg kb : bytes) : script := Script (Some PayToPubkeyIn) [Instr (Zb (blen sg)) (Some (Str sg)); Instr (Zb (blen kb)) (Some (Str kb))].
Lemma signed_script_create p kb sg : pk_to_bytes p = Ok kb -> 1 <= blen sg <= 75 -> 1 <= blen kb <= 75 -> p2pk_in_create p (Str sg) = Ok (signed_script sg kb).
Proof. intros B S K. unfold p2pk_in_create. rewrite B. cbn [bind]. unfold sub_create. cbn [to_instructions]. rewrite !push_instr by assumption. reflexivity. Qed.
Lemma signed_script_wire sg kb : 1 <= blen sg <= 75 -> 1 <= blen kb <= 75 -> wire_script (map content (s_ins (signed_script sg kb))) (Zb (blen sg) :: sg ++ Zb (blen kb) :: kb).
Proof.
  intros S K. unfold signed_script. cbn [s_ins map content i_op i_data option_map pyb_bytes].
  replace (Zb (blen sg) :: sg ++ Zb (blen kb) :: kb) with ((Zb (blen sg) :: sg) ++ (Zb (blen kb) :: kb) ++ []) by (rewrite app_nil_r; reflexivity).
  apply ws_cons; [|apply ws_cons; [|apply ws_nil]]; apply wire_const; rewrite bZ_Zb by lia; lia.
Qed.
Lemma signed_script_wf sg kb : 1 <= blen sg <= 75 -> 1 <= blen kb <= 75 -> forallb wfb (s_ins (signed_script sg kb)) = true.
Proof.
  intros S K. unfold signed_script. cbn [s_ins forallb wfb i_data i_op]. change (pyb_len (Str sg)) with (blen sg). change (pyb_len (Str kb)) with (blen kb).
  rewrite !bZ_Zb by lia. lia.
Qed.
Lemma flow_preimage id n amt h w st : tx_to_bytes (flow_tx id n amt h) = Ok w -> tx_preimage (flow_tx id n amt h) 0 st = Ok (w ++ encode_int st false (Some 4%nat)).
Proof.
  intros E. unfold tx_preimage, tx_replace_inputs. cbn [flow_tx tx_inputs tx_outputs tx_lock_time tx_version mapi_from map].
  change (negb (0 =? 0)) with false. cbv iota. 
  change (new_tx _ _ _ _) with (Ok (flow_tx id n amt h)). cbn [bind]. rewrite E. reflexivity.
Qed.
Theorem pubkey_ok pk d net id idb n amt fee nonce r yr : hex_text pk d -> List.length d = 32%nat -> 0 < be_val d < curve_order -> known net ->
  hex_text id idb -> List.length idb = 32%nat -> u32 n -> u64 (amt - fee) ->
  (forall x y, public_point (be_val d) x y -> x < curve_order /\ y < curve_order) -> public_point nonce r yr -> r < curve_order ->
  exists x y kb m, public_point (be_val d) x y /\ sec_of x y true kb /\
    one_to_one idb n (pay_to_hash (ripemd160 (sha256 kb))) (amt - fee) (ripemd160 (sha256 kb)) m /\
    let digest := sha256 (sha256 (m ++ [x01; x00; x00; x00])) in
    ((be_val digest + be_val d * r) mod curve_order <> 0 ->
     exists sg script addr w, example_pubkey (real_signer (fun _ => nonce)) pk id n amt fee net = Ok (encode_hex d, encode_hex kb, addr, encode_hex w) /\
       addr_from_string addr = Ok (Address (Str (ripemd160 (sha256 kb))) net T_PublicKey) /\
       accepts digest 1 x y sg /\ sig_and_key sg kb script /\ one_to_one idb n script (amt - fee) (ripemd160 (sha256 kb)) w /\ blen w <= 193).
Proof.
  intros H L R K HI LI N A BD Q RN. destruct (wallet_ok pk d net H L R K) as (x & y & kb & P & SO & PB & U & PK & O). set (h := ripemd160 (sha256 kb)) in *.
  assert (LH : List.length h = 20%nat) by apply hash_length. destruct (flow_bytes id idb n (amt - fee) h HI LI N A LH) as (m & E & W).
  exists x, y, kb, m. split; [exact P|]. split; [exact SO|]. split; [exact W|]. intros digest SG. destruct (BD x y P) as (X & Y).
  set (k := PrivateKey (be_val d) net true) in *.
  destruct (real_signed k x y nonce r yr (fun _ => nonce) 0%nat digest P X Y (proj1 Q) Q SG) as (S & LS); [unfold digest; rewrite sha256_blen; lia|reflexivity|].
  set (b := real_signer (fun _ => nonce) 0%nat (k_secret k) digest) in *.
  assert (LKN : List.length kb = 33%nat) by (inversion SO; subst; cbn [List.length]; congruence). assert (LK : blen kb = 33) by (unfold blen; rewrite LKN; reflexivity).
  assert (LB : blen (b ++ [x01]) = blen b + 1) by (unfold blen; rewrite app_length; cbn [List.length]; lia). pose proof (blen_nonneg b) as NB.
  destruct (one_tx_bytes C_Input id idb n (signed_script (b ++ [x01]) kb) (Zb (blen (b ++ [x01])) :: (b ++ [x01]) ++ Zb (blen kb) :: kb) C_AddressOutput (amt - fee) h HI LI N A LH) as (w & EW & WW).
  { apply signed_script_wire; lia. }
  { unfold blen. cbn [List.length]. rewrite app_length. cbn [List.length]. unfold blen in *. lia. }
  { apply signed_script_wf; lia. }
  assert (VA : valid_addr (Address (Str h) net T_PublicKey)) by (split; [exact K|exists h; auto]).
  destruct (addr_string_roundtrip _ VA) as (addr & EA & RA).
  exists (b ++ [x01]), (Zb (blen (b ++ [x01])) :: (b ++ [x01]) ++ Zb (blen kb) :: kb), addr, w. split; [|split; [exact RA|split; [|split; [|split; [exact WW|]]]]].
  - unfold example_pubkey. rewrite O. cbn [bind]. rewrite build_ok by exact LH. cbn [bind].
    pose proof (flow_preimage id n (amt - fee) h m 1 E) as PM. change (encode_int 1 false (Some 4%nat)) with [x01; x00; x00; x00] in PM.
    assert (IS : input_sign (real_signer (fun _ => nonce)) (Input C_AddressInput id n (pk_script h) 4294967295) [k] digest 1 = Ok (Input C_Input id n (signed_script (b ++ [x01]) kb) 4294967295)).
    { unfold input_sign. cbn [in_class_of]. unfold priv_to_public_key. rewrite PK. cbn [bind]. change (py_chr 1) with (Ok [x01]). cbn [bind]. fold b.
      rewrite (signed_script_create _ kb) by (assumption || lia). reflexivity. }
    rewrite (tx_sign_intro _ (flow_tx id n (amt - fee) h) [k] 0 1 _ _ _ PM eq_refl IS); [|discriminate|discriminate|split; reflexivity || discriminate].
    cbn [bind flow_tx tx_inputs tx_outputs tx_lock_time tx_version mapi_from]. change (0 =? 0) with true. cbv iota. unfold tx_to_hex. rewrite EW. cbn [bind].
    unfold pk_to_hex. rewrite PB. cbn [bind]. rewrite EA. cbn [bind]. unfold priv_to_hex.
    assert (PD : priv_to_bytes k = d). { destruct (priv_from_bytes_back d (VNet net) true k) as (Z0 & _); [|exact Z0]. apply priv_from_bytes_ok. split; [exact L|]. exists net. split; [apply find_net|split; [exact R|reflexivity]]. }
    rewrite PD. reflexivity.
  - apply (sign_accepts k x y nonce digest b 1 P (proj1 Q) S). intros r' yr' Q'. destruct (pp_fun _ _ _ _ _ Q Q') as (<- & _). exact RN.
  - exists (Zb (blen (b ++ [x01]))), (Zb (blen kb)). rewrite !bZ_Zb by lia. repeat split; lia.
  - destruct WW as (ib & lb & ab & (LIB & _) & _ & _ & (LAB & _) & ->). unfold blen. repeat rewrite app_length; cbn [List.length]; repeat rewrite app_length; cbn [List.length].
    unfold pay_to_hash. repeat rewrite app_length; cbn [List.length]. rewrite rev_length. rewrite LI, LIB, LAB, LH, LKN. unfold blen in LS. lia.
Qed.

(** ** example *)
Definition ex_d : bytes := repeat x00 31 ++ [x01].
Lemma ex_two digest : (be_val digest + be_val ex_d * secp_gx) mod curve_order <> 0 \/ (be_val digest + be_val ex_d * twice_x) mod curve_order <> 0.
Proof. exact (ex_two_nonces digest). Qed.
Lemma flow_ex : exists pk d id idb nonce r yr, hex_text pk d /\ List.length d = 32%nat /\ be_val d = 1 /\ 0 < be_val d < curve_order /\ known testnet /\
  hex_text id idb /\ List.length idb = 32%nat /\ u32 0 /\ u64 (11000 - 1000) /\ map lower id = id /\
  (forall x y, public_point (be_val d) x y -> x < curve_order /\ y < curve_order) /\ public_point nonce r yr /\ r < curve_order /\
  exists h k a w, example_pubkey (real_signer (fun _ => nonce)) pk id 0 11000 1000 testnet = Ok (h, k, a, w) /\ h = pk.
Proof.
  set (pk := encode_hex ex_d). set (id := encode_hex (repeat xab 32)). set (idb := repeat xab 32).
  assert (H : hex_text pk ex_d) by apply encode_hex_text. assert (HI : hex_text id idb) by apply encode_hex_text.
  assert (R : 0 < be_val ex_d < curve_order) by (split; reflexivity). assert (K : known testnet) by (right; reflexivity).
  assert (U : u32 0) by (split; reflexivity || discriminate). assert (A : u64 (11000 - 1000)) by (split; reflexivity || discriminate).
  assert (BD : forall x y, public_point (be_val ex_d) x y -> x < curve_order /\ y < curve_order).
  { intros x y P. change (be_val ex_d) with 1 in P. apply pp_one_is in P. destruct P as (-> & ->). exact G_below. }
  destruct (pubkey_ok pk ex_d testnet id idb 0 11000 1000 1 _ _ H eq_refl R K HI eq_refl U A BD pp_one (proj1 G_below)) as (x & y & kb & m & P & SO & W & F).
  destruct (pubkey_ok pk ex_d testnet id idb 0 11000 1000 2 _ _ H eq_refl R K HI eq_refl U A BD pp_two (proj1 twice_below)) as (x' & y' & kb' & m' & P' & SO' & W' & F').
  assert (X : (exists h k a w, example_pubkey (real_signer (fun _ => 1)) pk id 0 11000 1000 testnet = Ok (h, k, a, w) /\ h = pk) \/
              (exists h k a w, example_pubkey (real_signer (fun _ => 2)) pk id 0 11000 1000 testnet = Ok (h, k, a, w) /\ h = pk)).
  { destruct (pp_fun _ _ _ _ _ P P') as (-> & ->). pose proof (sec_unique _ _ _ _ _ SO SO'). subst kb'.
    assert (m' = m).
    { destruct W as (ib & lb & ab & I & B & _ & J & ->), W' as (ib' & lb' & ab' & I' & B' & _ & J' & ->).
      apply field_ok in I, I', J, J'; try (split; reflexivity || discriminate). assert (lb = lb') by (apply bZ_inj; congruence). congruence. }
    subst m'. destruct (ex_two (sha256 (sha256 (m ++ [x01; x00; x00; x00])))) as [S|S].
    - left. destruct (F S) as (sg & sc & a & w & E & _). eauto 8.
    - right. destruct (F' S) as (sg & sc & a & w & E & _). eauto 8. }
  destruct X as [X|X]; [exists pk, ex_d, id, idb, 1, secp_gx, secp_gy|exists pk, ex_d, id, idb, 2, twice_x, twice_y];
    (split; [exact H|]; split; [reflexivity|]; split; [reflexivity|]; split; [exact R|]; split; [exact K|]; split; [exact HI|]; split; [reflexivity|]; split; [exact U|]; split; [exact A|];
     split; [reflexivity|]; split; [exact BD|]); [split; [exact pp_one|]; split; [exact (proj1 G_below)|exact X]|split; [exact pp_two|]; split; [exact (proj1 twice_below)|exact X]].
Qed.
