(** Proofs about byte formats that show where they end. *)
From Coq Require Import ZArith List Lia.
From Verif Require Import Base M_Codec S_Codec P_Codec M_Keys S_Keys M_EC S_EC M_Script S_Script P_Script M_Tx S_Tx P_Tx P_TxSign S_Wide P_Wide S_Sign S_Stream.
Import ListNotations.
Open Scope Z_scope.

Lemma delim_size : self_delimiting any_size eq.
Proof. intros n n' l l' r r'. apply size_prefix. Qed.
Lemma delim_script : self_delimiting (sized_script any_size) same_script.
Proof. intros s s' w w' r r'. apply sized_prefix. exact size_prefix. Qed.
Lemma delim_input : self_delimiting (input_wire any_size) (fun i i' => same_input (lower_input i) (lower_input i')).
Proof. intros s s' w w' r r'. apply input_prefix. exact size_prefix. Qed.
Lemma delim_output : self_delimiting (output_wire any_size) same_output.
Proof. intros s s' w w' r r'. apply output_prefix. exact size_prefix. Qed.
Lemma delim_tx : self_delimiting (tx_wire any_size) (fun t t' => same_tx (lower_ids t) (lower_ids t')).
Proof. intros s s' w w' r r'. apply tx_prefix. exact size_prefix. Qed.

Lemma len_app {A} (a b a' b' : list A) : List.length a = List.length a' -> a ++ b = a' ++ b' -> a = a' /\ b = b'.
Proof. intros L E. split; [|revert E]; [apply (f_equal (firstn (List.length a))) in E; rewrite firstn_app, firstn_all, Nat.sub_diag, L, firstn_app, firstn_all, Nat.sub_diag in E; cbn [firstn] in E; rewrite !app_nil_r in E; exact E|].
  intros E. apply (f_equal (skipn (List.length a))) in E. rewrite skipn_app, skipn_all, Nat.sub_diag, L, skipn_app, skipn_all, Nat.sub_diag in E. exact E.
Qed.

(** public keys *)
Lemma delim_sec : self_delimiting (fun k b => sec_of (fst (fst k)) (snd (fst k)) (snd k) b)
  (fun k k' => fst (fst k) = fst (fst k') /\ snd k = snd k' /\ (if snd k then Z.even (snd (fst k)) = Z.even (snd (fst k')) else snd (fst k) = snd (fst k'))).
Proof.
  intros [[x y] c] [[x' y'] c'] w w' r r' H H' E. cbn [fst snd] in *.
  destruct H as [xs ys L1 L2 V1 V2|xs L1 V1 P|xs L1 V1 P]; destruct H' as [xs' ys' L1' L2' V1' V2'|xs' L1' V1' P'|xs' L1' V1' P']; cbn [app] in E; try discriminate E.
  - assert (E0 : xs ++ ys ++ r = xs' ++ ys' ++ r') by (rewrite <- !app_assoc in E; congruence).
    apply len_app in E0; [|congruence]. destruct E0 as [-> E0]. apply len_app in E0; [|congruence]. destruct E0 as [-> ->]. subst. auto.
  - assert (E0 : xs ++ r = xs' ++ r') by congruence. apply len_app in E0; [|congruence]. destruct E0 as [-> ->]. subst. split; [|auto]. split; [reflexivity|]. split; [reflexivity|].
    rewrite (proj2 (Z.even_spec _) P), (proj2 (Z.even_spec _) P'). reflexivity.
  - assert (E0 : xs ++ r = xs' ++ r') by congruence. apply len_app in E0; [|congruence]. destruct E0 as [-> ->]. subst. split; [|auto]. split; [reflexivity|]. split; [reflexivity|].
    rewrite <- !Z.negb_odd, (proj2 (Z.odd_spec _) P), (proj2 (Z.odd_spec _) P'). reflexivity.
Qed.
(** signatures *)
Lemma delim_der : self_delimiting (fun rs b => der_sig (fst rs) (snd rs) b) eq.
Proof.
  intros [r s] [r' s'] w w' u u' (rb & sb & t & lr & ls & D1 & D2 & V1 & V2 & L1 & L2 & T & TS & ->) (rb' & sb' & t' & lr' & ls' & D1' & D2' & V1' & V2' & L1' & L2' & T' & TS' & ->) E. cbn [fst snd] in *.
  cbn [app] in E. injection E as E0 E1 E. subst t' lr'. rewrite <- !app_assoc in E. cbn [app] in E. apply len_app in E; [|unfold blen in *; lia]. destruct E as [-> E].
  injection E as E2 E. subst ls'. apply len_app in E; [|unfold blen in *; lia]. destruct E as [-> ->]. subst. auto.
Qed.

(** ** streams *)
Lemma stream_unique {A} (R : A -> bytes -> Prop) same : self_delimiting R same -> (forall a, ~ R a []) ->
  forall l w l', each R l w -> each R l' w -> Forall2 same l l'.
Proof.
  intros D N l w l' E. revert l'. induction E as [|a w l r Ra E IH]; intros l' E'.
  - inversion E' as [|a' w' l2 r' Ra' E2 X Y]; [constructor|]. subst. apply app_eq_nil in Y. destruct Y as [-> _]. destruct (N _ Ra').
  - inversion E' as [X Y|a' w' l2 r' Ra' E2 X Y].
    + symmetry in Y. apply app_eq_nil in Y. destruct Y as [-> _]. destruct (N _ Ra).
    + subst. destruct (D _ _ _ _ _ _ Ra Ra' (eq_sym Y)) as (S & _ & EQ). subst r'. constructor; [exact S|apply IH; exact E2].
Qed.
Lemma stream_prefix {A} (R : A -> bytes -> Prop) same : self_delimiting R same -> (forall a, ~ R a []) ->
  forall l w l' rest, each R l w -> each R l' (w ++ rest) -> exists l1 l2, l' = l1 ++ l2 /\ Forall2 same l l1 /\ each R l2 rest.
Proof.
  intros D N l w l' rest E. revert l'. induction E as [|a w l r Ra E IH]; intros l' E'.
  - exists [], l'. split; [reflexivity|]. split; [constructor|exact E'].
  - inversion E' as [X Y|a' w' l2 r' Ra' E2 X Y].
    + rewrite <- app_assoc in Y. symmetry in Y. apply app_eq_nil in Y. destruct Y as [-> _]. destruct (N _ Ra).
    + subst. rewrite <- app_assoc in Y. destruct (D _ _ _ _ _ _ Ra Ra' (eq_sym Y)) as (S & _ & EQ). subst r'. destruct (IH _ E2) as (l1 & l3 & -> & F & E3).
      exists (a' :: l1), l3. split; [reflexivity|]. split; [constructor; assumption|exact E3].
Qed.
Lemma tx_wire_nonempty size t : ~ tx_wire size t [].
Proof.
  intros (vb & nb & iw & mb & ow & lb & [L _] & _ & _ & _ & _ & _ & E). destruct vb; [discriminate L|discriminate E].
Qed.
Lemma input_wire_nonempty size t : ~ input_wire size t [].
Proof. intros (id & ib & sb & qb & L & _ & _ & _ & _ & E). destruct id; [discriminate L|discriminate E]. Qed.
Lemma output_wire_nonempty size t : ~ output_wire size t [].
Proof. intros (ab & sb & [L _] & _ & E). destruct ab; [discriminate L|discriminate E]. Qed.
Lemma tx_stream l l' w : each (tx_wire any_size) l w -> each (tx_wire any_size) l' w -> Forall2 (fun t t' => same_tx (lower_ids t) (lower_ids t')) l l'.
Proof. apply (stream_unique _ _ delim_tx). apply tx_wire_nonempty. Qed.
Lemma tx_stream_prefix l l' w rest : each (tx_wire any_size) l w -> each (tx_wire any_size) l' (w ++ rest) ->
  exists l1 l2, l' = l1 ++ l2 /\ Forall2 (fun t t' => same_tx (lower_ids t) (lower_ids t')) l l1 /\ each (tx_wire any_size) l2 rest.
Proof. apply (stream_prefix _ _ delim_tx). apply tx_wire_nonempty. Qed.

(** reading a sequence of inputs or outputs from one buffer *)
Lemma read_inputs cls n b l rest : read_times (input_from_buffer cls) n b = (Ok l, rest) <->
  exists w, b = w ++ rest /\ List.length l = n /\ each (input_wire any_size) l w /\ Forall (fun i => in_class_of i = cls /\ map lower (in_tx_id i) = in_tx_id i /\ parsed_script (in_script i)) l.
Proof.
  split.
  - intros H. apply (read_times_inv _ (fun i w => input_wire any_size i w /\ (in_class_of i = cls /\ map lower (in_tx_id i) = in_tx_id i /\ parsed_script (in_script i)))) in H.
    + destruct H as (w & -> & E & L). apply each_forall in E. destruct E as [E F]. eauto 6.
    + intros s a r X. apply input_reader_inv in X. destruct X as (w & -> & X). eauto.
  - intros (w & -> & <- & E & F). apply (read_times_parses (input_from_buffer cls) (input_wire any_size) l w E).
    intros a v I W. rewrite Forall_forall in F. destruct (F a I) as (<- & Lo & P). apply input_reader_parses; assumption.
Qed.
Lemma read_outputs n b l rest : read_times output_from_buffer n b = (Ok l, rest) <->
  exists w, b = w ++ rest /\ List.length l = n /\ each (output_wire any_size) l w /\ Forall parsed_output l.
Proof.
  split.
  - intros H. apply (read_times_inv _ (fun i w => output_wire any_size i w /\ parsed_output i)) in H.
    + destruct H as (w & -> & E & L). apply each_forall in E. destruct E as [E F]. eauto 6.
    + intros s a r X. apply output_reader_inv in X. destruct X as (w & -> & X). eauto.
  - intros (w & -> & <- & E & F). apply (read_times_parses output_from_buffer (output_wire any_size) l w E).
    intros a v I W. rewrite Forall_forall in F. apply output_reader_parses; [exact W|exact (F a I)].
Qed.

(** ** messages and transactions *)
Lemma shape_wire t w : shape_fits t -> tx_to_bytes t = Ok w -> tx_wire compact_size (stored_tx t) w.
Proof. intros F H. apply tx_write; [apply shape_tx_fits; exact F|]. rewrite <- tx_stored. exact H. Qed.
Lemma empty_writable : writable (Script None []).
Proof. split; [constructor|]. split; [constructor|]. intros w W. inversion W. unfold u64. cbn. lia. Qed.
Lemma preimage_shape t k st m : shape_fits t -> tx_preimage t k st = Ok m ->
  exists t' w tb, shape_fits t' /\ tx_to_bytes t' = Ok w /\ List.length tb = 4%nat /\ m = w ++ tb.
Proof.
  intros F H. unfold tx_preimage in H. apply bind_ok in H. destruct H as (s & S & H). apply bind_ok in H. destruct H as (w & W & H). injection H as <-.
  exists s, w, (encode_int st false (Some 4%nat)). split; [|split; [exact W|split; [|reflexivity]]].
  - unfold tx_replace_inputs in S. apply new_tx_ok in S. destruct S as (ins & outs & EI & EO & NI & NO & _ & ->).
    assert (INJ : forall l l' : list input, map O_In l = map O_In l' -> l = l') by (induction l as [|a l IH]; intros [|b l'] Q; try discriminate Q; [reflexivity|injection Q as -> Q; f_equal; auto]).
    assert (INJ2 : forall l l' : list output, map O_Out l = map O_Out l' -> l = l') by (induction l as [|a l IH]; intros [|b l'] Q; try discriminate Q; [reflexivity|injection Q as -> Q; f_equal; auto]).
    apply INJ in EI. apply INJ2 in EO. subst ins outs.
    destruct F as (_ & U & FI & _ & UO & FO). unfold shape_fits. cbn [tx_inputs tx_outputs]. split; [exact NI|].
    assert (G : forall l j, Forall (fun i => List.length (in_tx_id i) = 64%nat /\ Forall is_hex (in_tx_id i) /\ writable (in_script i)) l ->
      blen (mapi_from (fun i inp => if negb (i =? k) then input_remove_script inp else inp) j l) = blen l /\
      Forall (fun i => List.length (in_tx_id i) = 64%nat /\ Forall is_hex (in_tx_id i) /\ writable (in_script i)) (mapi_from (fun i inp => if negb (i =? k) then input_remove_script inp else inp) j l)).
    { clear. induction l as [|a l IH]; intros j F; [split; [reflexivity|constructor]|]. inversion F as [|? ? (A & B & C) F']; subst. cbn [mapi_from]. destruct (IH (j + 1) F') as [L X]. split.
      - unfold blen in *. cbn [List.length]. lia.
      - constructor; [|exact X]. destruct (negb (j =? k)); [|auto]. split; [exact A|]. split; [exact B|apply empty_writable]. }
    destruct (G (tx_inputs t) 0 FI) as [L X]. rewrite L. auto 8.
  - apply encode_int_length.
Qed.
Lemma domain t t' k st w m : shape_fits t -> shape_fits t' -> tx_to_bytes t = Ok w -> tx_preimage t' k st = Ok m -> m <> w.
Proof.
  intros F F' H M E. destruct (preimage_shape _ _ _ _ F' M) as (t2 & w2 & tb & F2 & W2 & L & ->). apply (shape_wire _ _ F) in H. apply (shape_wire _ _ F2) in W2.
  rewrite <- (app_nil_r w) in E. destruct (tx_prefix compact_size compact_prefix _ _ _ _ _ _ W2 H E) as (_ & _ & N). subst tb. discriminate L.
Qed.
Lemma domain_rest t t' k st w m r : shape_fits t -> shape_fits t' -> tx_to_bytes t = Ok w -> tx_preimage t' k st = Ok m -> m = w ++ r ->
  r = encode_int st false (Some 4%nat).
Proof.
  intros F F' H M E. unfold tx_preimage in M. pose proof M as M0. apply bind_ok in M. destruct M as (s & S & M). apply bind_ok in M. destruct M as (w2 & W2 & M). injection M as <-.
  destruct (preimage_shape _ _ _ _ F' M0) as (t2 & w3 & tb & F2 & W3 & L & E2).
  assert (Q : w3 = w2 /\ tb = encode_int st false (Some 4%nat)).
  { assert (N : List.length w3 = List.length w2) by (apply (f_equal (@List.length byte)) in E2; rewrite !app_length, encode_int_length in E2; lia).
    apply len_app in E2; [|congruence]. destruct E2. auto. }
  destruct Q as [-> ->]. apply (shape_wire _ _ F) in H. apply (shape_wire _ _ F2) in W3.
  destruct (tx_prefix compact_size compact_prefix _ _ _ _ _ _ W3 H E) as (_ & _ & N). congruence.
Qed.

(** an id of the wrong length makes a "transaction" out of a message *)
Definition d_script : script := Script None ([Instr OP_1 None; Instr OP_1 None; Instr OP_1 None; Instr OP_1 None; Instr x00 None; Instr OP_1 None; Instr OP_1 None; Instr OP_1 None; Instr OP_1 None; Instr x01 (Some (Str [x51])); Instr OP_1 None; Instr OP_1 None; Instr OP_1 None; Instr OP_1 None]).
Definition d_signed : tx := Tx [Input C_Input (repeat x31 64) 0 (Script None []) 4294967295] [Output C_Output 5 d_script] 0 1.
Definition d_id : bytes := encode_hex (rev (repeat x11 32 ++ [x00; x00; x00; x00; x00; xff; xff; xff; xff; x01; x05; x00; x00; x00; x00; x00; x00; x00; x0f])).
Definition d_fake : tx := Tx [Input C_Input d_id 0x51515151 (Script None []) 0x51515151] [Output C_Output 0x5151515151 (Script None [])] 1 1.
Lemma domain_open : exists m, tx_preimage d_signed 0 1 = Ok m /\ tx_to_bytes d_fake = Ok m /\ numbers_fit d_fake /\ tx_fits d_signed.
Proof.
  eexists. split; [vm_compute; reflexivity|]. split; [vm_compute; reflexivity|].
  split; [apply fit_stored; vm_compute; reflexivity|apply tx_fitsb_ok; vm_compute; reflexivity].
Qed.
(** a script without its length does not show where it ends *)
Lemma bare_script_open : ~ self_delimiting (fun s w => wire_script (map content (s_ins s)) w) same_script.
Proof.
  intros D. destruct (D (Script None []) (Script None [Instr OP_1 None]) [] [OP_1] [OP_1] []) as (_ & X & _); [constructor| |reflexivity|discriminate X].
  cbn [s_ins map]. change [OP_1] with ([OP_1] ++ []). constructor; [|constructor]. apply wire_plain. unfold pushes. replace (bZ OP_1) with 81 by reflexivity. lia.
Qed.
(** transactions written one after the other *)
Lemma written_stream l w : Forall tx_fits l -> concat_bytes tx_to_bytes l = Ok w -> each (tx_wire compact_size) l w.
Proof.
  intros F. revert w. induction F as [|t l Ft F IH]; intros w H; cbn [concat_bytes] in H.
  - injection H as <-. constructor.
  - apply bind_ok in H. destruct H as (a & A & H). apply bind_ok in H. destruct H as (b & B & H). injection H as <-.
    constructor; [|apply IH; exact B]. apply tx_write; assumption.
Qed.
Lemma written_same l l' w : Forall tx_fits l -> Forall tx_fits l' -> concat_bytes tx_to_bytes l = Ok w -> concat_bytes tx_to_bytes l' = Ok w ->
  Forall2 (fun t t' => same_tx (lower_ids t) (lower_ids t')) l l'.
Proof.
  intros F F' H H'. apply written_stream in H, H'; [|assumption..]. refine (stream_unique (tx_wire compact_size) _ _ _ l w l' H H').
  - intros s s' v v' r r'. apply tx_prefix. exact compact_prefix.
  - apply tx_wire_nonempty.
Qed.
Lemma read_txs n b l rest : read_times tx_from_buffer n b = (Ok l, rest) <->
  exists w, b = w ++ rest /\ List.length l = n /\ each (tx_wire any_size) l w /\ Forall parsed_tx l.
Proof.
  split.
  - intros H. apply (read_times_inv _ (fun i w => tx_wire any_size i w /\ parsed_tx i)) in H.
    + destruct H as (w & -> & E & L). apply each_forall in E. destruct E as [E F]. eauto 6.
    + intros s a r X. apply tx_reader_inv in X. destruct X as (w & -> & X). eauto.
  - intros (w & -> & <- & E & F). apply (read_times_parses tx_from_buffer (tx_wire any_size) l w E).
    intros a v I W. rewrite Forall_forall in F. apply tx_reader_parses; [exact W|exact (F a I)].
Qed.
(** each of the transactions of a stream is read by one call, one after the other *)
Lemma reread l w rest : Forall tx_fits l -> Forall tx_classifiable l -> Forall (fun t => blen (tx_inputs t) < 2 ^ 60 /\ blen (tx_outputs t) < 2 ^ 60) l ->
  concat_bytes tx_to_bytes l = Ok w ->
  exists l', read_times tx_from_buffer (List.length l) (w ++ rest) = (Ok l', rest) /\ Forall2 (fun t t' => same_tx t' (lower_ids t)) l l'.
Proof.
  intros F C B H. apply (written_stream _ _ F) in H.
  assert (G : each (tx_wire any_size) (map canon_tx l) w /\ Forall parsed_tx (map canon_tx l)).
  { revert F C B. induction H as [|t w l r T E IH]; intros F C B; [split; constructor|]. inversion F as [|? ? F1 F2]; inversion C as [|? ? C1 C2]; inversion B as [|? ? [B1 B3] B2]; subst.
    destruct F1 as (_ & _ & NI & _ & _ & NO & _). destruct (canon_tx_ok t w T C1 NI NO B1 B3) as [W P]. destruct (IH F2 C2 B2) as [X Y]. cbn [map]. split; constructor; assumption. }
  exists (map canon_tx l). split.
  - apply read_txs. exists w. rewrite map_length. tauto.
  - clear. induction l as [|t l IH]; cbn [map]; constructor; [apply canon_same|exact IH].
Qed.
