(** Proofs about transactions whose fields do not fit the wire format. *)
From Coq Require Import String ZArith Lia List Bool.
From Verif Require Import Base M_Hash M_Codec S_Codec P_Codec M_Keys S_Keys P_Keys M_EC M_Script S_Script P_Script M_Tx S_Tx P_Tx P_TxSign S_Wide.
Import ListNotations.
Open Scope Z_scope.

Lemma stored_range k n : 0 <= stored k n < 256 ^ Z.of_nat k.
Proof. unfold stored. pose proof (Z.pow_pos_nonneg 256 (Z.of_nat k) ltac:(lia) ltac:(lia)). destruct (Z.ltb_spec n 0); [lia|]. apply Z.mod_pos_bound. lia. Qed.
Lemma stored_same k n : stored k n = n <-> 0 <= n < 256 ^ Z.of_nat k.
Proof.
  split; [intros <-; apply stored_range|]. intros H. unfold stored. destruct (Z.ltb_spec n 0); [lia|]. apply Z.mod_small, H.
Qed.
Lemma encode_stored k n : encode_int n false (Some k) = encode_int (stored k n) false (Some k).
Proof.
  unfold stored. destruct (Z.ltb_spec n 0) as [H|H].
  - rewrite encode_int_neg by exact H. reflexivity.
  - pose proof (Z.pow_pos_nonneg 256 (Z.of_nat k) ltac:(lia) ltac:(lia)) as P. pose proof (Z.mod_pos_bound n _ P).
    rewrite !encode_int_fixed_le by lia. apply le_val_inj; [rewrite !le_bytes_length; reflexivity|]. rewrite !le_val_le_bytes, Zmod_mod. reflexivity.
Qed.
Lemma input_stored i : input_to_bytes i = input_to_bytes (stored_input i).
Proof. unfold input_to_bytes, stored_input. cbn [in_script in_tx_id in_index in_seq]. rewrite (encode_stored 4 (in_index i)), (encode_stored 4 (in_seq i)). reflexivity. Qed.
Lemma output_stored o : output_to_bytes o = output_to_bytes (stored_output o).
Proof. unfold output_to_bytes, stored_output. cbn [out_script out_amount]. rewrite (encode_stored 8 (out_amount o)). reflexivity. Qed.
Lemma concat_map {A B} (f : A -> res bytes) (g : B -> res bytes) (h : A -> B) l : (forall a, f a = g (h a)) -> concat_bytes f l = concat_bytes g (map h l).
Proof. intros H. induction l as [|a l IH]; [reflexivity|]. cbn [map concat_bytes]. rewrite H, IH. reflexivity. Qed.
Lemma blen_map {A B} (h : A -> B) l : blen (map h l) = blen l.
Proof. unfold blen. rewrite map_length. reflexivity. Qed.
Lemma tx_stored t : tx_to_bytes t = tx_to_bytes (stored_tx t).
Proof.
  unfold tx_to_bytes, stored_tx. cbn [tx_inputs tx_outputs tx_lock_time tx_version].
  rewrite !blen_map, (encode_stored 4 (tx_version t)), (encode_stored 4 (tx_lock_time t)), (concat_map _ _ _ (tx_inputs t) input_stored), (concat_map _ _ _ (tx_outputs t) output_stored). reflexivity.
Qed.
Lemma u32_stored n : u32 n <-> stored 4 n = n.
Proof. rewrite stored_same. reflexivity. Qed.
Lemma u64_stored n : u64 n <-> stored 8 n = n.
Proof. rewrite stored_same. reflexivity. Qed.
Lemma map_fix {A} (h : A -> A) l : map h l = l <-> Forall (fun a => h a = a) l.
Proof.
  induction l as [|a l IH]; [split; auto|]. cbn [map]. split.
  - intros H. injection H as H1 H2. constructor; [exact H1|apply IH, H2].
  - intros H. inversion H; subst. f_equal; [assumption|apply IH; assumption].
Qed.
Lemma fit_stored t : numbers_fit t <-> stored_tx t = t.
Proof.
  destruct t as [ins outs lt v]. unfold numbers_fit, stored_tx. cbn [tx_inputs tx_outputs tx_lock_time tx_version]. rewrite !u32_stored. split.
  - intros (-> & -> & I & O). f_equal; apply map_fix.
    + eapply Forall_impl; [|exact I]. intros [c id ix s q]. cbn. intros [X Y]. unfold stored_input. cbn [in_class_of in_tx_id in_index in_script in_seq]. apply u32_stored in X, Y. rewrite X, Y. reflexivity.
    + eapply Forall_impl; [|exact O]. intros [c a s]. cbn. intros X. unfold stored_output. cbn [out_class_of out_amount out_script]. apply u64_stored in X. rewrite X. reflexivity.
  - intros H. injection H as I O L V. split; [exact V|]. split; [exact L|]. apply map_fix in I, O. split.
    + eapply Forall_impl; [|exact I]. intros [c id ix s q] E. injection E as E1 E2. cbn [in_index in_seq]. split; apply u32_stored; assumption.
    + eapply Forall_impl; [|exact O]. intros [c a s] E. injection E as E. cbn [out_amount]. apply u64_stored, E.
Qed.
Lemma stored_fits t : numbers_fit (stored_tx t).
Proof.
  unfold numbers_fit, stored_tx, u32, u64. cbn [tx_inputs tx_outputs tx_lock_time tx_version]. split; [apply (stored_range 4)|]. split; [apply (stored_range 4)|]. split.
  - apply Forall_forall. intros i H. apply in_map_iff in H. destruct H as (j & <- & _). split; apply (stored_range 4).
  - apply Forall_forall. intros i H. apply in_map_iff in H. destruct H as (j & <- & _). apply (stored_range 8).
Qed.
Lemma shape_tx_fits t : shape_fits t -> tx_fits (stored_tx t).
Proof.
  intros (NI & UI & FI & NO & UO & FO). pose proof (stored_fits t) as (V & L & _). unfold tx_fits. split; [exact V|]. split; [exact L|].
  unfold stored_tx. cbn [tx_inputs tx_outputs]. rewrite !blen_map.
  split; [destruct (tx_inputs t); [contradiction|discriminate]|]. split; [exact UI|]. split.
  { apply Forall_forall. intros i H. apply in_map_iff in H. destruct H as (j & <- & H). rewrite Forall_forall in FI. destruct (FI j H) as (A & B & C).
    unfold input_fits, stored_input. cbn [in_tx_id in_index in_seq in_script]. split; [exact A|]. split; [exact B|]. split; [apply (stored_range 4)|]. split; [apply (stored_range 4)|exact C]. }
  split; [destruct (tx_outputs t); [contradiction|discriminate]|]. split; [exact UO|].
  apply Forall_forall. intros i H. apply in_map_iff in H. destruct H as (j & <- & H). rewrite Forall_forall in FO. split; [apply (stored_range 8)|exact (FO j H)].
Qed.
Lemma stored_readback t : shape_fits t -> tx_classifiable t -> blen (tx_inputs t) < 2 ^ 60 -> blen (tx_outputs t) < 2 ^ 60 ->
  exists w t', tx_to_bytes t = Ok w /\ tx_from_bytes w = Ok t' /\ same_tx t' (lower_ids (stored_tx t)).
Proof.
  intros F [CI CO] BI BO. destruct (tx_roundtrip (stored_tx t)) as (w & t' & W & R & S & _).
  - apply shape_tx_fits, F.
  - unfold tx_classifiable, stored_tx. cbn [tx_inputs tx_outputs]. split; apply Forall_forall; intros i H; apply in_map_iff in H; destruct H as (j & <- & H); [rewrite Forall_forall in CI; apply (CI j H)|rewrite Forall_forall in CO; apply (CO j H)].
  - unfold stored_tx. cbn [tx_inputs]. rewrite blen_map. exact BI.
  - unfold stored_tx. cbn [tx_outputs]. rewrite blen_map. exact BO.
  - exists w, t'. rewrite tx_stored. auto.
Qed.

(** ** errors *)
Lemma ins_error i e : ins_to_bytes i = Err e <-> e = E_TypeError /\ unwritable i.
Proof.
  unfold ins_to_bytes, unwritable, pushdata, compat_chr, is_const_push, is_var_push, op_eqb. pose proof (bZ_range (i_op i)) as R.
  replace ((0 <=? bZ (i_op i)) && (bZ (i_op i) <? 256)) with true by lia.
  change (bZ OP_PUSHDATA1) with 76. change (bZ OP_PUSHDATA2) with 77. change (bZ OP_PUSHDATA4) with 78. cbn [bind].
  destruct ((1 <=? bZ (i_op i)) && (bZ (i_op i) <=? 75)) eqn:C.
  - destruct (i_data i); split; try discriminate; intros H.
    + destruct H as [_ [H|[_ H]]]; [lia|discriminate].
    + injection H as <-. split; [reflexivity|]. right. split; [lia|reflexivity].
    + destruct H as [-> _]. reflexivity.
  - destruct ((bZ (i_op i) =? 76) || (bZ (i_op i) =? 77) || (bZ (i_op i) =? 78)) eqn:V.
    + split; [intros H; injection H as <-; split; [reflexivity|left; lia]|intros [-> _]; reflexivity].
    + split; [discriminate|]. intros [_ [H|[H _]]]; lia.
Qed.
Lemma ins_list_error l : forall e, ins_list_to_bytes l = Err e <-> e = E_TypeError /\ Exists unwritable l.
Proof.
  induction l as [|i l IH]; intros e; cbn [ins_list_to_bytes].
  - split; [discriminate|]. intros [_ H]. inversion H.
  - destruct (ins_to_bytes i) as [a|e1] eqn:E; cbn [bind].
    + assert (N : ~ unwritable i) by (intros U; assert (ins_to_bytes i = Err E_TypeError) by (apply ins_error; auto); congruence).
      rewrite Exists_cons. destruct (ins_list_to_bytes l) as [b|e2] eqn:L; cbn [bind].
      * split; [discriminate|]. intros [-> [H|H]]; [contradiction|]. assert (X : Ok b = Err E_TypeError) by (apply IH; auto). discriminate.
      * split; [intros H; injection H as <-; destruct (proj1 (IH e2) eq_refl); auto|]. intros [-> [H|H]]; [contradiction|]. assert (X : @Err bytes e2 = Err E_TypeError) by (apply IH; auto). congruence.
    + apply ins_error in E. destruct E as [-> U]. split; [intros H; injection H as <-; split; [reflexivity|apply Exists_cons_hd, U]|intros [-> _]; reflexivity].
Qed.
Lemma script_error s e : script_to_bytes s = Err e <-> e = E_TypeError /\ bad_script s.
Proof. apply ins_list_error. Qed.
Lemma script_good s : (exists b, script_to_bytes s = Ok b) <-> ~ bad_script s.
Proof.
  destruct (script_to_bytes s) as [b|e] eqn:E.
  - split; [|eauto]. intros _ B. assert (X : script_to_bytes s = Err E_TypeError) by (apply script_error; auto). congruence.
  - split; [intros [b H]; discriminate|]. intros N. apply script_error in E. tauto.
Qed.
Lemma hex_error h e : decode_hex h = Err e <-> e = E_InvalidHex /\ ~ exists d, hex_text h d.
Proof.
  destruct (decode_hex h) as [d|e1] eqn:E.
  - split; [discriminate|]. intros [_ N]. exfalso. apply N. exists d. apply decode_hex_iff, E.
  - assert (e1 = E_InvalidHex) as -> by (unfold decode_hex in E; destruct (unhex_loop h); [discriminate|congruence]). split.
    + intros H. injection H as <-. split; [reflexivity|]. intros [d H]. apply decode_hex_iff in H. congruence.
    + intros [-> _]. reflexivity.
Qed.
Lemma input_err i e : input_to_bytes i = Err e <-> input_error i e.
Proof.
  unfold input_to_bytes, input_error. destruct (script_to_bytes (in_script i)) as [b|e1] eqn:S; cbn [bind].
  - assert (G : ~ bad_script (in_script i)) by (apply script_good; eauto). destruct (decode_hex (in_tx_id i)) as [d|e2] eqn:H; cbn [bind].
    + apply decode_hex_iff in H. split; [discriminate|]. intros [[_ B]|(_ & _ & N)]; [contradiction|]. exfalso. eauto.
    + apply hex_error in H. destruct H as [-> N]. split; [intros H; injection H as <-; right; auto|]. intros [[_ B]|(-> & _)]; [contradiction|reflexivity].
  - apply script_error in S. destruct S as [-> B]. split; [intros H; injection H as <-; left; auto|]. intros [[-> _]|(_ & N & _)]; [reflexivity|contradiction].
Qed.
Lemma input_ok i : (exists w, input_to_bytes i = Ok w) <-> input_good i.
Proof.
  unfold input_good. rewrite <- script_good. unfold input_to_bytes. destruct (script_to_bytes (in_script i)) as [b|e1]; cbn [bind].
  - destruct (decode_hex (in_tx_id i)) as [d|e2] eqn:H; cbn [bind].
    + apply decode_hex_iff in H. split; [intros _; split; eauto|eauto].
    + apply hex_error in H. split; [intros [w E]; discriminate|]. intros [_ N]. tauto.
  - split; [intros [w E]; discriminate|]. intros [[w E] _]. discriminate.
Qed.
Lemma output_err o e : output_to_bytes o = Err e <-> e = E_TypeError /\ bad_script (out_script o).
Proof. rewrite <- script_error. unfold output_to_bytes. destruct (script_to_bytes (out_script o)); cbn [bind]; [split; discriminate|reflexivity]. Qed.
Lemma output_ok o : (exists w, output_to_bytes o = Ok w) <-> ~ bad_script (out_script o).
Proof. rewrite <- script_good. unfold output_to_bytes. destruct (script_to_bytes (out_script o)); cbn [bind]; [split; eauto|split; intros [w E]; discriminate]. Qed.
Lemma concat_err {A} (f : A -> res bytes) l e : concat_bytes f l = Err e <->
  exists a x r, l = a ++ x :: r /\ Forall (fun y => exists w, f y = Ok w) a /\ f x = Err e.
Proof.
  induction l as [|y l IH]; cbn [concat_bytes].
  - split; [discriminate|]. intros ([|? ?] & ? & ? & E & _); discriminate.
  - destruct (f y) as [w|e1] eqn:F; cbn [bind].
    + transitivity (concat_bytes f l = Err e); [destruct (concat_bytes f l); cbn [bind]; [split; discriminate|reflexivity]|]. rewrite IH. split.
      * intros (a & x & r & -> & H & E). exists (y :: a), x, r. split; [reflexivity|]. split; [constructor; eauto|exact E].
      * intros ([|y' a] & x & r & E & H & X); cbn [app] in E; injection E as <- E; [congruence|]. inversion H; subst. eauto 6.
    + split.
      * intros H. injection H as <-. exists [], y, l. auto.
      * intros ([|y' a] & x & r & E & H & X); cbn [app] in E; injection E as <- E; [congruence|]. inversion H as [|? ? [w W] ?]; subst. congruence.
Qed.
Lemma concat_ok {A} (f : A -> res bytes) l : (exists w, concat_bytes f l = Ok w) <-> Forall (fun y => exists w, f y = Ok w) l.
Proof.
  induction l as [|y l IH]; cbn [concat_bytes]; [split; [constructor|eauto]|]. rewrite Forall_cons_iff, <- IH. destruct (f y) as [w|e1]; cbn [bind].
  - destruct (concat_bytes f l) as [v|e]; cbn [bind]; [split; [split; eauto|eauto]|]. split; [intros [v E]; discriminate|intros [_ [v E]]; discriminate].
  - split; [intros [v E]; discriminate|intros [[v E] _]; discriminate].
Qed.
Lemma forall_iff {A} (P Q : A -> Prop) l : (forall a, P a <-> Q a) -> (Forall P l <-> Forall Q l).
Proof. intros H. split; apply Forall_impl; intros a; apply H. Qed.
Lemma tx_err t e : tx_to_bytes t = Err e <->
  (exists a i r, tx_inputs t = a ++ i :: r /\ Forall input_good a /\ input_error i e) \/
  (Forall input_good (tx_inputs t) /\ e = E_TypeError /\ Exists (fun o => bad_script (out_script o)) (tx_outputs t)).
Proof.
  unfold tx_to_bytes. cbv zeta. pose proof (concat_ok input_to_bytes (tx_inputs t)) as CI. pose proof (fun e => concat_err input_to_bytes (tx_inputs t) e) as EI.
  destruct (concat_bytes input_to_bytes (tx_inputs t)) as [iw|e1] eqn:I; cbn [bind].
  - assert (G : Forall input_good (tx_inputs t)) by (apply (forall_iff _ _ _ input_ok), CI; eauto).
    pose proof (fun e => concat_err output_to_bytes (tx_outputs t) e) as EO. destruct (concat_bytes output_to_bytes (tx_outputs t)) as [ow|e2] eqn:O; cbn [bind].
    + split; [discriminate|]. intros [(a & i & r & E & H & X)|(_ & -> & X)].
      * assert (Y : Ok iw = Err e) by (apply EI; exists a, i, r; split; [exact E|]; split; [apply (forall_iff _ _ _ input_ok), H|apply input_err, X]). discriminate.
      * apply Exists_exists in X. destruct X as (o & IN & B). assert (Y : exists w, concat_bytes output_to_bytes (tx_outputs t) = Ok w) by eauto.
        apply concat_ok in Y. rewrite Forall_forall in Y. apply Y, output_ok in IN. contradiction.
    + destruct (proj1 (EO e2) eq_refl) as (a & o & r & E & H & X). apply output_err in X. destruct X as [-> X]. split.
      * intros Z. injection Z as <-. right. split; [exact G|]. split; [reflexivity|]. rewrite E. apply Exists_exists. exists o. split; [apply in_elt|exact X].
      * intros [(a' & i & r' & E' & H' & X')|(_ & -> & _)]; [|reflexivity].
        assert (Y : Ok iw = Err e) by (apply EI; exists a', i, r'; split; [exact E'|]; split; [apply (forall_iff _ _ _ input_ok), H'|apply input_err, X']). discriminate.
  - split.
    + intros Z. injection Z as <-. left. destruct (proj1 (EI e1) eq_refl) as (a & i & r & E & H & X). exists a, i, r. split; [exact E|]. split; [apply (forall_iff _ _ _ input_ok), H|apply input_err, X].
    + intros [(a & i & r & E & H & X)|(G & _)].
      * assert (Y : @Err bytes e1 = Err e) by (apply EI; exists a, i, r; split; [exact E|]; split; [apply (forall_iff _ _ _ input_ok), H|apply input_err, X]). congruence.
      * assert (Y : exists w, @Err bytes e1 = Ok w) by (apply CI, (forall_iff _ _ _ input_ok), G). destruct Y; discriminate.
Qed.

(** ** what is signed *)
Lemma mapi_stored (f : Z -> input -> input) l : forall k, (forall j i, f j (stored_input i) = stored_input (f j i)) ->
  mapi_from f k (map stored_input l) = map stored_input (mapi_from f k l).
Proof. induction l as [|a l IH]; intros k H; [reflexivity|]. cbn [map mapi_from]. rewrite H, IH by exact H. reflexivity. Qed.
Lemma new_tx_objs i o lt v : i <> [] -> o <> [] -> u32 lt -> new_tx (map O_In i) (map O_Out o) lt v = Ok (Tx i o lt v).
Proof. intros I O L. apply new_tx_ok. exists i, o. auto 8. Qed.
Lemma tx_replace_eq t ins : tx_outputs t <> [] -> u32 (tx_lock_time t) -> ins <> [] -> tx_replace_inputs t ins = Ok (Tx ins (tx_outputs t) (tx_lock_time t) (tx_version t)).
Proof. intros O L I. unfold tx_replace_inputs. apply new_tx_objs; assumption. Qed.
Lemma mapi_nil {A B} (f : Z -> A -> B) k l : l <> [] -> mapi_from f k l <> [].
Proof. destruct l; [contradiction|discriminate]. Qed.
Lemma preimage_stored t k st : u32 (tx_lock_time t) -> tx_inputs t <> [] -> tx_outputs t <> [] ->
  tx_preimage t k st = tx_preimage (stored_tx t) k (stored 4 st).
Proof.
  intros L I O. unfold tx_preimage. rewrite tx_replace_eq by (first [assumption | apply mapi_nil, I]).
  rewrite tx_replace_eq.
  2:{ unfold stored_tx. cbn [tx_outputs]. destruct (tx_outputs t); [contradiction|discriminate]. }
  2:{ apply (stored_range 4). }
  2:{ apply mapi_nil. unfold stored_tx. cbn [tx_inputs]. destruct (tx_inputs t); [contradiction|discriminate]. }
  cbn [bind]. rewrite (encode_stored 4 st), tx_stored. unfold stored_tx at 2 3 4 5. cbn [tx_inputs tx_outputs tx_lock_time tx_version].
  rewrite mapi_stored; [reflexivity|]. intros j i. destruct (negb (j =? k)); reflexivity.
Qed.

(** ** witnesses *)
Definition w_out (a : Z) : output := Output C_Output a (Script None [Instr OP_1 None]).
Definition w_in (id : bytes) (n q : Z) : input := Input C_Input id n (Script None []) q.
Definition w_amount (a : Z) : tx := Tx [w_in (repeat x30 64) 0 4294967295] [w_out a] 0 1.
Definition w_id (a b : bytes) (n q : Z) : tx := Tx [w_in a n q; w_in b 0 4294967295] [w_out 5] 0 1.
Definition w_long : tx := w_id (repeat x37 66) (repeat x33 62) 1 0xff000000.
Definition w_fair : tx := w_id (repeat x37 64) (repeat x33 62 ++ [x66; x66]) 0x0177 0.
Lemma ids_shift : exists w, tx_to_bytes w_long = Ok w /\ tx_to_bytes w_fair = Ok w /\ tx_from_bytes w = Ok (Tx (tx_inputs w_fair) [Output C_Output 5 (Script None [Instr OP_1 None])] 0 1).
Proof. eexists. split; [vm_compute; reflexivity|]. split; vm_compute; reflexivity. Qed.
Lemma fits_shape t : tx_fits t -> shape_fits t.
Proof.
  intros (_ & _ & NI & UI & FI & NO & UO & FO). unfold shape_fits. split; [exact NI|]. split; [exact UI|]. split.
  { eapply Forall_impl; [|exact FI]. intros i (A & B & _ & _ & C). auto. }
  split; [exact NO|]. split; [exact UO|]. eapply Forall_impl; [|exact FO]. intros o (_ & C). exact C.
Qed.
Lemma w_amount_ok a : shape_fits (w_amount a) /\ tx_classifiable (w_amount a).
Proof.
  split.
  - assert (F : shape_fits (w_amount 0)) by (apply fits_shape, tx_fitsb_ok; vm_compute; reflexivity). destruct F as (NI & UI & FI & NO & UO & FO).
    unfold shape_fits. split; [exact NI|]. split; [exact UI|]. split; [exact FI|]. split; [discriminate|]. split; [exact UO|]. inversion FO; subst. constructor; [assumption|constructor].
  - assert (F : tx_classifiable (w_amount 0)) by (apply tx_classifiableb_ok; vm_compute; reflexivity). destruct F as [FI FO]. split; [exact FI|]. inversion FO; subst. constructor; [assumption|constructor].
Qed.
Lemma w_long_fits : numbers_fit w_long.
Proof. apply fit_stored. vm_compute. reflexivity. Qed.
