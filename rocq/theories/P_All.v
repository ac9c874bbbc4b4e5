(** Signing all the inputs of a transaction. *)
From Coq Require Import ZArith Lia Bool List Permutation.
From Verif Require Import Base M_Hash M_Codec S_Codec P_Codec M_Keys S_Keys P_Keys M_EC S_EC M_Script S_Script P_Script M_Tx S_Tx P_Tx P_TxSign P_PubKey P_PubTx
  M_Sign S_Sign P_Sign P_SignTx P_Twin S_All.
Import ListNotations.
Open Scope Z_scope.

Lemma same_refl t : same_but_scripts t t.
Proof. repeat split. induction (tx_inputs t); constructor; [repeat split|assumption]. Qed.
Lemma same_trans a b c : same_but_scripts a b -> same_but_scripts b c -> same_but_scripts a c.
Proof.
  intros (O & L & V & F) (O' & L' & V' & F'). split; [congruence|]. split; [congruence|]. split; [congruence|]. revert F'. generalize (tx_inputs c). clear -F. intros l.
  revert l. induction F as [|x y l l' XY F IH]; intros r G; inversion G; subst; constructor; [|apply IH; assumption]. unfold same_but_script in *. intuition congruence.
Qed.
Lemma run_same t j t' : 0 <= j_index j -> run_job t j = Ok t' -> same_but_scripts t t' /\ equal_but (Z.to_nat (j_index j)) (tx_inputs t) (tx_inputs t').
Proof.
  intros P E. destruct (sign_frame _ _ _ _ _ _ P E) as (O & L & V & (LN & EQ) & i & i' & N & N' & S & _). split; [|split; assumption]. split; [exact O|]. split; [exact L|]. split; [exact V|].
  apply Forall2_of_nth; [exact LN|]. intros k a b A B. destruct (Nat.eq_dec k (Z.to_nat (j_index j))) as [->|K].
  - rewrite N in A. rewrite N' in B. injection A as <-. injection B as <-. exact S.
  - rewrite <- (EQ k K), A in B. injection B as <-. repeat split.
Qed.
Lemma same_sym a b : same_but_scripts a b -> same_but_scripts b a.
Proof.
  intros (O & L & V & F). split; [congruence|]. split; [congruence|]. split; [congruence|]. clear -F. induction F as [|x y l l' XY F IH]; constructor; [apply same_but_sym, XY|exact IH].
Qed.
(** signing an input does the same in a transaction with other scripts in the other inputs *)
Lemma run_other t u j t' : 0 <= j_index j -> same_but_scripts t u -> nth_error (tx_inputs u) (Z.to_nat (j_index j)) = nth_error (tx_inputs t) (Z.to_nat (j_index j)) -> run_job t j = Ok t' ->
  exists u', run_job u j = Ok u' /\ nth_error (tx_inputs u') (Z.to_nat (j_index j)) = nth_error (tx_inputs t') (Z.to_nat (j_index j)).
Proof.
  intros P (O & L & V & F) N E. destruct (tx_sign_inv _ _ _ _ _ _ E) as (m & i & i' & M & X & S & NI & NO & U & ->).
  assert (NU : tx_inputs u <> []) by (intros Z0; apply NI; rewrite Z0 in F; inversion F; reflexivity).
  assert (MU : tx_preimage u (j_index j) (j_type j) = Ok m) by (rewrite <- M; apply preimage_other_scripts; try assumption; intros _; symmetry; exact N).
  assert (XU : py_index (tx_inputs u) (j_index j) = Ok i) by (rewrite py_index_pos in X |- * by exact P; rewrite N; exact X).
  eexists. split; [eapply tx_sign_intro; try eassumption; rewrite ?O, ?L; assumption|]. cbn [tx_inputs]. rewrite !mapi_nth, N. reflexivity.
Qed.
Lemma distinct_cons j l : distinct (j :: l) -> 0 <= j_index j /\ distinct l /\ forall j', In j' l -> 0 <= j_index j' /\ Z.to_nat (j_index j') <> Z.to_nat (j_index j).
Proof.
  intros (ND & F). cbn [map] in ND. apply NoDup_cons_iff in ND. destruct ND as (NI & ND). inversion F as [|x y P F']; subst. split; [exact P|]. split; [split; assumption|]. intros j' I.
  pose proof (proj1 (Forall_forall _ _) F' j' I) as P'. cbn beta in P'. split; [exact P'|]. intros E. apply NI. replace (j_index j) with (j_index j') by lia. apply in_map, I.
Qed.
Lemma all_result l : forall t t', distinct l -> sign_all t l = Ok t' -> same_but_scripts t t' /\
  (forall k, (forall j, In j l -> j_index j <> Z.of_nat k) -> nth_error (tx_inputs t') k = nth_error (tx_inputs t) k) /\
  forall j, In j l -> exists u, run_job t j = Ok u /\ nth_error (tx_inputs t') (Z.to_nat (j_index j)) = nth_error (tx_inputs u) (Z.to_nat (j_index j)).
Proof.
  induction l as [|j l IH]; intros t t' D H; cbn [sign_all] in H.
  - injection H as <-. split; [apply same_refl|]. split; [reflexivity|intros j []].
  - apply bind_ok in H. destruct H as (t1 & E & H). destruct (distinct_cons j l D) as (P & D' & DI). destruct (run_same t j t1 P E) as (SB & LN & EQ). destruct (IH t1 t' D' H) as (SB' & K & J).
    split; [exact (same_trans _ _ _ SB SB')|]. split.
    + intros k NK. rewrite K by (intros j' I; apply NK; right; exact I). symmetry. apply EQ. intros ->. apply (NK j (or_introl eq_refl)). lia.
    + intros j' [<-|I].
      * exists t1. split; [exact E|]. apply K. intros j' I. destruct (DI j' I) as (P' & NE). lia.
      * destruct (DI j' I) as (P' & NE). destruct (J j' I) as (u & RU & NU).
        destruct (run_other t1 t j' u P' (same_sym _ _ SB) (EQ _ NE) RU) as (u' & RU' & NU'). exists u'. split; [exact RU'|congruence].
Qed.
Lemma all_ok l : forall t, distinct l -> ((exists t', sign_all t l = Ok t') <-> Forall (fun j => exists t', run_job t j = Ok t') l).
Proof.
  intros t D. split.
  - intros (t' & H). apply Forall_forall. intros j I. destruct (all_result l t t' D H) as (_ & _ & J). destruct (J j I) as (u & E & _). eauto.
  - revert t. induction l as [|j l IH]; intros t F; cbn [sign_all]; [eauto|]. inversion F as [|x y (t1 & E) F']; subst. destruct (distinct_cons j l D) as (P & D' & DI).
    rewrite E. cbn [bind]. apply (IH D'). apply Forall_forall. intros j' I. destruct (DI j' I) as (P' & NE). destruct (proj1 (Forall_forall _ _) F' j' I) as (u & RU).
    destruct (run_same t j t1 P E) as (SB & LN & EQ). destruct (run_other t t1 j' u P' SB (eq_sym (EQ _ NE)) RU) as (u' & RU' & _). eauto.
Qed.
Lemma all_order l l' t t' : distinct l -> Permutation l l' -> sign_all t l = Ok t' -> sign_all t l' = Ok t'.
Proof.
  intros D PM H. assert (D' : distinct l') by (destruct D as (ND & F); split; [exact (Permutation_NoDup (Permutation_map j_index PM) ND)|exact (Permutation_Forall PM F)]).
  destruct (proj2 (all_ok l' t D')) as (t2 & H2); [apply (Permutation_Forall PM), (proj1 (all_ok l t D)); eauto|]. rewrite H2. f_equal.
  destruct (all_result l t t' D H) as ((O & L & V & F) & K & J). destruct (all_result l' t t2 D' H2) as ((O2 & L2 & V2 & F2) & K2 & J2).
  assert (IE : tx_inputs t2 = tx_inputs t').
  { apply nth_error_ext. intros k. destruct (in_dec Z.eq_dec (Z.of_nat k) (map j_index l)) as [I|I].
    - apply in_map_iff in I. destruct I as (j & EJ & I). destruct (J j I) as (u & RU & NU). destruct (J2 j (Permutation_in _ PM I)) as (u2 & RU2 & NU2). rewrite EJ, Nat2Z.id in NU, NU2. congruence.
    - rewrite K, K2; [reflexivity| |]; intros j IJ E; apply I; rewrite <- E; apply in_map; [exact (Permutation_in _ (Permutation_sym PM) IJ)|exact IJ]. }
  destruct t2 as [a1 a2 a3 a4], t' as [b1 b2 b3 b4]. cbn [tx_inputs tx_outputs tx_lock_time tx_version] in *. congruence.
Qed.

(** ** the message *)
Lemma F2_length {A B} (R : A -> B -> Prop) l l' : Forall2 R l l' -> length l = length l'.
Proof. intros F. induction F; [reflexivity|cbn [length]; congruence]. Qed.
Lemma each_concat {A} (R : A -> bytes -> Prop) l w : each R l w -> exists ws, w = concat ws /\ Forall2 R l ws.
Proof. intros E. induction E as [|a w l r X E (ws & -> & F)]; [exists []; split; [reflexivity|constructor]|]. exists (w :: ws). split; [reflexivity|constructor; assumption]. Qed.
Lemma to_network t t' j i st m : signing_message t j st m -> same_but_scripts t t' -> nth_error (tx_inputs t) j = Some i ->
  exists code, wire_script (map content (s_ins (in_script i))) code /\ network_message t' j code st m.
Proof.
  intros (l & w & tb & (LN & ST) & (vb & nb & iw & mb & ow & lb & FV & SN & EI & SM & EO & FL & EW) & FT & EM) (O & L & V & F) N. cbn [tx_inputs tx_outputs tx_lock_time tx_version] in *.
  destruct (each_concat _ _ _ EI) as (ws & -> & FW). pose proof (ST j i N) as NJ. rewrite Nat.eqb_refl in NJ.
  destruct (Forall2_nth _ _ _ FW j i NJ) as (wj & WJ & id & ib & sb & qb & LI & HI & FI & (nb' & code & SC & WC & ES) & FQ & EWJ).
  exists code. split; [exact WC|]. exists vb, nb, ws, mb, ow, lb, tb. rewrite V, O, L.
  assert (LL : length (tx_inputs t') = length (tx_inputs t)) by (symmetry; exact (F2_length _ _ _ F)).
  split; [exact FV|]. split; [replace (blen (tx_inputs t')) with (blen l) by (unfold blen; congruence); exact SN|]. split; [rewrite <- (F2_length _ _ _ FW); congruence|].
  split; [|split; [exact SM|split; [exact EO|split; [exact FL|split; [exact FT|]]]]].
  - intros k x wk X WK. destruct (nth_error (tx_inputs t) k) as [y|] eqn:Y.
    2:{ exfalso. apply nth_error_None in Y. assert (k < length (tx_inputs t'))%nat by (apply nth_error_Some; congruence). lia. }
    destruct (Forall2_nth _ _ _ F k y Y) as (x' & X' & S1 & S2 & S3). rewrite X in X'. injection X' as <-.
    pose proof (ST k y Y) as NK. destruct (Forall2_nth _ _ _ FW k _ NK) as (w' & W' & R). rewrite WK in W'. injection W' as <-.
    destruct (Nat.eqb_spec k j) as [->|K].
    + rewrite N in Y. injection Y as <-. rewrite WK in WJ. injection WJ as ->. exists id, ib, nb', qb. rewrite <- S1, <- S2, <- S3. rewrite EWJ, ES, <- !app_assoc. auto 8.
    + destruct R as (id' & ib' & sb' & qb' & LI' & HI' & FI' & (nb2 & c2 & SC2 & WC2 & ES2) & FQ' & EW'). cbn [strip_script in_tx_id in_index in_script in_seq s_ins map] in *. inversion WC2; subst c2.
      exists id', ib', nb2, qb'. rewrite <- S1, <- S2, <- S3. split; [exact LI'|]. split; [exact HI'|]. split; [exact FI'|]. split; [exact SC2|]. split; [exact FQ'|]. rewrite EW', ES2, <- !app_assoc. reflexivity.
  - rewrite EM, EW, <- !app_assoc. reflexivity.
Qed.
(** what is signed, for every input of every kind *)
Lemma all_signed_ok l t t' j : distinct l -> tx_fits t -> sign_all t l = Ok t' -> In j l -> u32 (j_type j) ->
  exists i i' m code, nth_error (tx_inputs t) (Z.to_nat (j_index j)) = Some i /\ nth_error (tx_inputs t') (Z.to_nat (j_index j)) = Some i' /\
    signing_message t (Z.to_nat (j_index j)) (j_type j) m /\ wire_script (map content (s_ins (in_script i))) code /\ network_message t' (Z.to_nat (j_index j)) code (j_type j) m /\
    input_sign (j_signer j) i (j_keys j) (sha256 (sha256 m)) (j_type j) = Ok i'.
Proof.
  intros D F H I U. destruct (all_result l t t' D H) as (SB & _ & J). destruct (J j I) as (u & RU & NU). pose proof (proj1 (Forall_forall _ _) (proj2 D) j I) as P. cbn beta in P.
  destruct (tx_sign_inv _ _ _ _ _ _ RU) as (m & i & i' & M & X & S & NI & NO & UL & EU). rewrite py_index_pos in X by exact P.
  destruct (nth_error (tx_inputs t) (Z.to_nat (j_index j))) as [i0|] eqn:N; [|discriminate X]. injection X as ->.
  assert (SM : signing_message t (Z.to_nat (j_index j)) (j_type j) m) by (apply (preimage_message t _ _ m F U); rewrite Z2Nat.id by exact P; exact M).
  destruct (to_network t t' _ i _ m SM SB N) as (code & WC & NM). exists i, i', m, code. split; [reflexivity|]. split; [|auto].
  rewrite NU, EU. cbn [tx_inputs]. rewrite mapi_nth, N. cbn [option_map]. rewrite Z.add_0_l, Z2Nat.id, Z.eqb_refl by exact P. reflexivity.
Qed.
Lemma wire_det c w w' : wire c w -> wire c w' -> w = w'.
Proof.
  intros H H'. destruct H as [o P|o d O D|o k lb d LW LB LV]; inversion H' as [o' P' E1 E2|o' d' O' D' E1 E2|o' k' lb' d' LW' LB' LV' E1 E2]; subst; try reflexivity.
  - exfalso. unfold length_width in LW'. lia.
  - exfalso. unfold length_width in LW. lia.
  - assert (L : List.length lb = List.length lb') by (unfold length_width in *; lia). rewrite (le_val_inj lb lb' L) by congruence. reflexivity.
Qed.
Lemma wire_script_det c w w' : wire_script c w -> wire_script c w' -> w = w'.
Proof.
  intros H. revert w'. induction H as [|i w l r W H IH]; intros w' H'; inversion H' as [|? u ? r' W' H2]; subst; [reflexivity|]. rewrite (wire_det _ _ _ W W'), (IH _ H2). reflexivity.
Qed.

(** ** address inputs *)
Lemma address_code id n a q i : address_input_create id n a q = Ok i -> blen (pyb_bytes (a_phash a)) = 20 ->
  wire_script (map content (s_ins (in_script i))) (key_hash_code (pyb_bytes (a_phash a))).
Proof.
  intros H L. unfold address_input_create in H. apply bind_ok in H. destruct H as (s & PS & H). injection H as <-. cbn [in_script]. unfold p2pk_out_create in PS. apply sub_create_inv in PS. destruct PS as (_ & F).
  inversion F as [|x1 i1 y1 l1 H1 F1 X1 Y1]; subst. inversion F1 as [|x2 i2 y2 l2 H2 F2 X2 Y2]; subst. inversion F2 as [|x3 i3 y3 l3 H3 F3 X3 Y3]; subst. inversion F3 as [|x4 i4 y4 l4 H4 F4 X4 Y4]; subst.
  inversion F4 as [|x5 i5 y5 l5 H5 F5 X5 Y5]; subst. inversion F5; subst.
  apply to_instruction_op in H1, H2, H4, H5. destruct H1 as (-> & N1), H2 as (-> & N2), H4 as (-> & N4), H5 as (-> & N5).
  destruct (to_instruction_bytes _ _ H3) as (b & EB & _ & D & _ & _).
  rewrite EB in *. cbn [to_instruction] in H3. apply bind_ok in H3. destruct H3 as (o & O & H3). cbn [pyb_bytes] in L. rewrite L in O. apply op_push_for_ok in O. apply new_instr_ok in H3. destruct H3 as (-> & _).
  assert (o = x14) as -> by (apply bZ_eq_iff; change (bZ x14) with 20; lia). cbn [pyb_bytes map].
  change (key_hash_code b) with ([x76] ++ [xa9] ++ (x14 :: b ++ [x88; xac])). change (x14 :: b ++ [x88; xac]) with ((x14 :: b) ++ [x88] ++ [xac] ++ []).
  repeat apply ws_cons; [apply wire_plain; exact N1|apply wire_plain; exact N2|apply wire_const; [split; discriminate|exact L]|apply wire_plain; exact N4|apply wire_plain; exact N5|apply ws_nil].
Qed.
Lemma can_sign_20 id n a q i k : address_input_create id n a q = Ok i -> valid_key k -> address_can_sign i [k] = Ok true -> blen (pyb_bytes (a_phash a)) = 20.
Proof.
  intros A V C. destruct (address_can_sign_spec id n a q i k A V) as (p & h & b & _ & (kb & _ & KH) & C' & I). rewrite C in C'. injection C' as <-. rewrite <- (proj1 I eq_refl), KH. unfold blen. rewrite ripemd160_length. reflexivity.
Qed.
Lemma all_address l t t' sg k j st id n a q i nonce : distinct l -> tx_fits t -> sign_all t l = Ok t' -> In (Job sg [k] (Z.of_nat j) st) l ->
  address_input_create id n a q = Ok i -> nth_error (tx_inputs t) j = Some i -> valid_key k -> address_can_sign i [k] = Ok true ->
  0 < nonce < curve_order -> (forall r yr, public_point nonce r yr -> r < curve_order) ->
  (forall m, signing_message t j st m -> priv_sign k nonce (sha256 (sha256 m)) = SOk (sg 0%nat (k_secret k) (sha256 (sha256 m)))) ->
  exists m i', network_message t' j (key_hash_code (pyb_bytes (a_phash a))) st m /\ nth_error (tx_inputs t') j = Some i' /\ same_but_script i i' /\
    redeems_hash (pyb_bytes (a_phash a)) (sha256 (sha256 m)) st (s_ins (in_script i')).
Proof.
  intros D F H I A N V C NC RN E. destruct (address_create_ok _ _ _ _ _ A) as (CL & _).
  assert (U : u32 st).
  { destruct (all_result l t t' D H) as (_ & _ & J). destruct (J _ I) as (u & RU & _). destruct (tx_sign_inv _ _ _ _ _ _ RU) as (m & i0 & i' & _ & X & S & _). cbn [j_index j_signer j_keys j_type] in *.
    apply py_index_nat in X. rewrite N in X. injection X as <-. destruct (address_sign_ok _ _ _ _ _ _ CL S) as (? & ? & _ & _ & B & _). unfold u32. clear -B. lia. }
  destruct (all_signed_ok l t t' _ D F H I U) as (i0 & i' & m & code & N0 & N' & SM & WC & NM & S). cbn [j_index j_signer j_keys j_type] in *. rewrite Nat2Z.id in *. rewrite N in N0. injection N0 as <-.
  exists m, i'. rewrite (wire_script_det _ _ _ WC (address_code id n a q i A (can_sign_20 id n a q i k A V C))) in NM. split; [exact NM|]. split; [exact N'|].
  split; [exact (proj2 (proj2 (input_sign_ok _ _ _ _ _ _ S)))|]. exact (address_redeems id n a q i k nonce _ sg st i' A V C NC RN (E m SM) S).
Qed.
(** ** script inputs *)
Lemma all_script l t t' sg keys ks j st i nonces : distinct l -> tx_fits t -> sign_all t l = Ok t' -> In (Job sg keys (Z.of_nat j) st) l ->
  nth_error (tx_inputs t) j = Some i -> in_class_of i = C_ScriptInput \/ in_class_of i = C_MultisigInput -> keys <> [] -> in_order keys ks ->
  (forall m, signing_message t j st m -> all_signed sg nonces (sha256 (sha256 m)) keys) ->
  exists rb m i', script_to_bytes (in_script i) = Ok rb /\ network_message t' j rb st m /\ nth_error (tx_inputs t') j = Some i' /\ same_but_script i i' /\
    List.length (get_signatures (in_script i')) = List.length keys /\ multi_match (sha256 (sha256 m)) st (get_signatures (in_script i')) ks /\ get_script (in_script i') = script_from_bytes rb.
Proof.
  intros D F H I N CL NE O E.
  assert (U : u32 st).
  { destruct (all_result l t t' D H) as (_ & _ & J). destruct (J _ I) as (u & RU & _). destruct (tx_sign_inv _ _ _ _ _ _ RU) as (m & i0 & i' & _ & X & S & _). cbn [j_index j_signer j_keys j_type] in *.
    apply py_index_nat in X. rewrite N in X. injection X as <-. destruct (script_sign_ok _ _ _ _ _ _ CL NE S) as (? & ? & _ & B & _). unfold u32. clear -B. lia. }
  destruct (all_signed_ok l t t' _ D F H I U) as (i0 & i' & m & code & N0 & N' & SM & WC & NM & S). cbn [j_index j_signer j_keys j_type] in *. rewrite Nat2Z.id in *. rewrite N in N0. injection N0 as <-.
  destruct (script_sign_ok _ _ _ _ _ _ CL NE S) as (rb & sigs & ER & _ & _ & _ & _ & _ & _ & GS). exists rb, m, i'. split; [exact ER|].
  assert (WR : wire_script (map content (s_ins (in_script i))) rb).
  { unfold script_to_bytes in ER. destruct F as (_ & _ & _ & _ & FI & _). destruct (nth_Forall _ _ _ _ FI N) as (_ & _ & _ & _ & W & _). exact (proj2 (to_bytes_inv _ _ W ER)). }
  rewrite (wire_script_det _ _ _ WC WR) in NM. split; [exact NM|]. split; [exact N'|]. split; [exact (proj2 (proj2 (input_sign_ok _ _ _ _ _ _ S)))|].
  destruct (multisig_matches sg nonces i keys ks _ st i' CL NE O (E m SM) S) as (A & B). auto.
Qed.
(** there is only one such message *)
Lemma field_unique k n w w' : field k n w -> field k n w' -> w = w'.
Proof. intros (L & V) (L' & V'). apply le_val_inj; congruence. Qed.
Lemma each_unique {A} (R : A -> bytes -> Prop) l : (forall a w w', R a w -> R a w' -> w = w') -> forall w w', each R l w -> each R l w' -> w = w'.
Proof. intros U. induction l as [|a l IH]; intros w w' E E'; inversion E; inversion E'; subst; [reflexivity|]. f_equal; [eapply U; eassumption|apply IH; assumption]. Qed.
Lemma output_wire_unique o w w' : output_wire compact_size o w -> output_wire compact_size o w' -> w = w'.
Proof.
  intros (ab & sb & A & (lb & c & L & W & ->) & ->) (ab' & sb' & A' & (lb' & c' & L' & W' & ->) & ->). rewrite (field_unique _ _ _ _ A A'), (wire_script_det _ _ _ W W') in *. rewrite (compact_size_unique _ _ _ L L'). reflexivity.
Qed.
Lemma network_unique t j code st m m' : network_message t j code st m -> network_message t j code st m' -> m = m'.
Proof.
  intros (vb & nb & ws & mb & ow & lb & tb & FV & SN & LW & W & SM & EO & FL & FT & ->) (vb' & nb' & ws' & mb' & ow' & lb' & tb' & FV' & SN' & LW' & W' & SM' & EO' & FL' & FT' & ->).
  rewrite (field_unique _ _ _ _ FV FV'), (compact_size_unique _ _ _ SN SN'), (compact_size_unique _ _ _ SM SM'), (each_unique _ _ output_wire_unique _ _ EO EO'), (field_unique _ _ _ _ FL FL'), (field_unique _ _ _ _ FT FT').
  replace ws' with ws; [reflexivity|]. apply nth_error_ext. intros k. destruct (nth_error (tx_inputs t) k) as [i|] eqn:N.
  - destruct (nth_error ws k) as [w|] eqn:E; [|exfalso; apply nth_error_None in E; assert (k < length (tx_inputs t))%nat by (apply nth_error_Some; congruence); lia].
    destruct (nth_error ws' k) as [w'|] eqn:E'; [|exfalso; apply nth_error_None in E'; assert (k < length (tx_inputs t))%nat by (apply nth_error_Some; congruence); lia].
    f_equal. destruct (W k i w N E) as (id & ib & n1 & qb & LI & HI & FI & SC & FQ & ->), (W' k i w' N E') as (id' & ib' & n1' & qb' & LI' & HI' & FI' & SC' & FQ' & ->).
    rewrite (field_unique _ _ _ _ FI FI'), (field_unique _ _ _ _ FQ FQ'), (compact_size_unique _ _ _ SC SC'). f_equal.
    rewrite <- (rev_involutive id), <- (rev_involutive id'). f_equal. apply decode_hex_iff in HI, HI'. congruence.
  - apply nth_error_None in N. rewrite !(proj2 (nth_error_None _ _)) by lia. reflexivity.
Qed.

(** ** an example: two inputs, both signed *)
Lemma create_index id n a q i n' : address_input_create id n a q = Ok i -> address_input_create id n' a q = Ok (Input C_AddressInput id n' (in_script i) q).
Proof. unfold address_input_create. intros H. apply bind_ok in H. destruct H as (s & -> & H). injection H as <-. reflexivity. Qed.
Lemma can_sign_index id n a q i n' keys : address_input_create id n a q = Ok i -> address_can_sign (Input C_AddressInput id n' (in_script i) q) keys = address_can_sign i keys.
Proof. intros _. reflexivity. Qed.
Lemma ex_all : let a := Address (Str (ripemd160 (sha256 (x02 :: be_bytes 32 secp_gx)))) livenet T_PublicKey in
  exists i0 i1 t n0 n1 t', address_input_create (repeat x61 64) 0 a 4294967295 = Ok i0 /\ address_input_create (repeat x61 64) 1 a 4294967295 = Ok i1 /\
    t = Tx [i0; i1] [Output C_Output 5 (Script None [])] 0 1 /\ tx_fits t /\ valid_key w_k1 /\ address_can_sign i0 [w_k1] = Ok true /\ address_can_sign i1 [w_k1] = Ok true /\
    (exists r yr, public_point n0 r yr /\ r < curve_order) /\ (exists r yr, public_point n1 r yr /\ r < curve_order) /\
    (forall m, signing_message t 0 1 m -> priv_sign w_k1 n0 (sha256 (sha256 m)) = SOk (real_signer (fun _ => n0) 0%nat (k_secret w_k1) (sha256 (sha256 m)))) /\
    (forall m, signing_message t 1 1 m -> priv_sign w_k1 n1 (sha256 (sha256 m)) = SOk (real_signer (fun _ => n1) 0%nat (k_secret w_k1) (sha256 (sha256 m)))) /\
    distinct [Job (real_signer (fun _ => n1)) [w_k1] 1 1; Job (real_signer (fun _ => n0)) [w_k1] 0 1] /\
    sign_all t [Job (real_signer (fun _ => n1)) [w_k1] 1 1; Job (real_signer (fun _ => n0)) [w_k1] 0 1] = Ok t'.
Proof.
  intros a. destruct G_below as (GX & GY), twice_below as (TX & TY). destruct w_facts as (V1 & _). destruct ex_spend as (i & u & _ & _ & _ & _ & C & EU & FU & CS & _). fold a in C.
  set (i1 := Input C_AddressInput (repeat x61 64) 1 (in_script i) 4294967295). pose proof (create_index _ _ _ _ _ 1 C : _ = Ok i1) as C1.
  assert (CS1 : address_can_sign i1 [w_k1] = Ok true) by exact CS.
  set (t := Tx [i; i1] [Output C_Output 5 (Script None [])] 0 1).
  assert (F : tx_fits t).
  { rewrite EU in FU. destruct FU as (V & L & _ & _ & FI & NO & LO & FO). cbn [tx_version tx_lock_time tx_inputs tx_outputs] in *. split; [exact V|]. split; [exact L|]. split; [discriminate|]. split; [split; reflexivity || discriminate|].
    split; [|auto]. inversion FI as [|x y X _]; subst. constructor; [exact X|]. constructor; [|constructor]. destruct X as (X1 & X2 & X3 & X4 & X5). destruct (address_create_ok _ _ _ _ _ C) as (_ & E1 & _ & E3 & _).
    unfold input_fits. cbn [in_tx_id in_index in_seq in_script i1]. rewrite E1 in *. rewrite E3 in X4. split; [exact X1|]. split; [exact X2|]. split; [split; reflexivity || discriminate|]. split; [exact X4|exact X5]. }
  assert (ST : 0 <= 1 <= 255) by (split; discriminate). assert (U1 : u32 1) by (split; reflexivity || discriminate).
  assert (H : forall j ij n, nth_error (tx_inputs t) j = Some ij -> address_input_create (repeat x61 64) n a 4294967295 = Ok ij -> address_can_sign ij [w_k1] = Ok true ->
    exists nonce, (exists r yr, public_point nonce r yr /\ r < curve_order) /\
      (forall m, signing_message t j 1 m -> priv_sign w_k1 nonce (sha256 (sha256 m)) = SOk (real_signer (fun _ => nonce) 0%nat (k_secret w_k1) (sha256 (sha256 m)))) /\
      exists t', run_job t (Job (real_signer (fun _ => nonce)) [w_k1] (Z.of_nat j) 1) = Ok t').
  { intros j ij n NJ CJ CSJ. destruct (preimage_total t (Z.of_nat j) 1 F) as (m & M).
    assert (UM : forall m', signing_message t j 1 m' -> m' = m) by (intros m' SM; apply (preimage_message t j 1 m' F U1) in SM; congruence).
    assert (L : 1 <= blen (sha256 (sha256 m)) <= 32) by (rewrite sha256_blen; split; discriminate).
    assert (X : forall nonce r yr, public_point nonce r yr -> r < curve_order -> signable w_k1 r (sha256 (sha256 m)) -> exists nonce, (exists r yr, public_point nonce r yr /\ r < curve_order) /\
      (forall m, signing_message t j 1 m -> priv_sign w_k1 nonce (sha256 (sha256 m)) = SOk (real_signer (fun _ => nonce) 0%nat (k_secret w_k1) (sha256 (sha256 m)))) /\
      exists t', run_job t (Job (real_signer (fun _ => nonce)) [w_k1] (Z.of_nat j) 1) = Ok t').
    { intros nonce r yr P R S. exists nonce. split; [eauto|]. split.
      - intros m' SM. rewrite (UM _ SM). exact (proj1 (real_signed w_k1 _ _ nonce r yr (fun _ => nonce) 0%nat _ pp_one GX GY (proj1 P) P S L eq_refl)).
      - destruct (tx_spends _ _ _ _ t j w_k1 ij _ _ nonce _ _ 1 CJ NJ F V1 CSJ pp_one GX GY (proj1 P) P R ST) as (m1 & SM1 & H1). rewrite (UM _ SM1) in H1. destruct (H1 S) as (t' & _ & T & _). exists t'. exact T. }
    destruct (ex_two_nonces (sha256 (sha256 m))) as [S|S]; [exact (X 1 _ _ pp_one GX S)|exact (X 2 _ _ pp_two TX S)]. }
  destruct (H 0%nat i 0 eq_refl C CS) as (n0 & P0 & E0 & R0). destruct (H 1%nat i1 1 eq_refl C1 CS1) as (n1 & P1 & E1 & R1). change (Z.of_nat 0) with 0 in R0. change (Z.of_nat 1) with 1 in R1.
  set (l := [Job (real_signer (fun _ => n1)) [w_k1] 1 1; Job (real_signer (fun _ => n0)) [w_k1] 0 1]).
  assert (D : distinct l). { split; cbn [map l j_index]; [repeat constructor; cbn [In]; intros X; repeat destruct X as [X|X]; try discriminate X; assumption|repeat constructor; discriminate]. }
  destruct (proj2 (all_ok l t D)) as (t' & T); [repeat constructor; assumption|].
  exists i, i1, t, n0, n1, t'. split; [exact C|]. split; [exact C1|]. split; [reflexivity|]. split; [exact F|]. split; [exact V1|]. split; [exact CS|]. split; [exact CS1|]. split; [exact P0|]. split; [exact P1|].
  split; [exact E0|]. split; [exact E1|]. split; [exact D|exact T].
Qed.

(** which keys an address input accepts, for any script it may hold *)
Lemma can_sign_iff i k : valid_key k -> (address_can_sign i [k] = Ok true <->
  s_class (in_script i) = Some PayToPubkeyOut /\ exists p d, pk_from_private_key k = Ok p /\ get_address_hash (in_script i) = Ok (Some d) /\ key_hash p (pyb_bytes d)).
Proof.
  intros V. destruct (priv_address k V) as (p & h & E & KH & A). unfold address_can_sign. rewrite A. cbn [bind a_phash]. split.
  - destruct (s_class (in_script i)) as [[]|]; try discriminate. intros H. split; [reflexivity|]. destruct (get_address_hash (in_script i)) as [[d|]|]; cbn [bind] in H; try discriminate.
    injection H as H. unfold pyb_eqb in H. cbn [pyb_bytes] in H. apply bytes_eqb_eq in H. exists p, d. rewrite <- H. auto.
  - intros (-> & p' & d & E' & -> & KH'). rewrite E in E'. injection E' as <-. cbn [bind]. f_equal. unfold pyb_eqb. cbn [pyb_bytes]. apply bytes_eqb_eq. exact (key_hash_fun _ _ _ KH KH').
Qed.
Lemma multisig_can_sign_other i keys : s_class (in_script i) <> Some RedeemMultisig -> multisig_can_sign i keys = Err E_AttributeError.
Proof. intros N. unfold multisig_can_sign. destruct (s_class (in_script i)) as [[]|]; try reflexivity. congruence. Qed.
Lemma can_sign_other i keys : (List.length keys <> 1%nat -> address_can_sign i keys = Ok false) /\
  forall k, valid_key k -> s_class (in_script i) <> Some PayToPubkeyOut -> address_can_sign i [k] = Err E_AttributeError.
Proof.
  split.
  - destruct keys as [|k [|k' l]]; cbn [List.length]; intros N; [reflexivity|lia|reflexivity].
  - intros k V N. destruct (priv_address k V) as (p & h & _ & _ & A). unfold address_can_sign. rewrite A. cbn [bind]. destruct (s_class (in_script i)) as [[]|]; try reflexivity. congruence.
Qed.
