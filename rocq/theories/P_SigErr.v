(** How signing fails (lemmas). *)
From Coq Require Import ZArith Lia Bool List.
From Verif Require Import Base M_Hash M_Codec M_Keys S_Keys M_Script S_Script P_Script M_Tx S_Tx P_Tx P_TxSign M_EC S_EC P_PubKey P_PubTx P_SignTx.
Import ListNotations.
Open Scope Z_scope.

Lemma sign_errors sg t keys k st m i e : tx_fits t -> 0 <= k -> nth_error (tx_inputs t) (Z.to_nat k) = Some i -> u32 st -> signing_message t (Z.to_nat k) st m ->
  (tx_sign sg t keys k st = Err e <-> input_sign sg i keys (sha256 (sha256 m)) st = Err e).
Proof.
  intros F K N U M. apply (preimage_message t _ st m F U) in M. rewrite Z2Nat.id in M by exact K.
  assert (I : py_index (tx_inputs t) k = Ok i) by (rewrite py_index_pos by exact K; rewrite N; reflexivity).
  pose proof F as (_ & UL & NI & _ & _ & NO & _). destruct (input_sign sg i keys (sha256 (sha256 m)) st) as [i'|e'] eqn:S.
  - rewrite (tx_sign_intro sg t keys k st m i i' M I S NI NO UL). split; discriminate.
  - unfold tx_sign. rewrite M. cbn [bind]. rewrite I. cbn [bind]. rewrite S. cbn [bind]. split; intros H; congruence.
Qed.
Lemma address_sign_errors sg i k p st e : in_class_of i = C_AddressInput -> valid_key k -> blen (sg 0%nat (k_secret k) p) < 4294967295 ->
  (input_sign sg i [k] p st = Err e <-> ~ 0 <= st <= 255 /\ e = E_ValueError).
Proof.
  intros C V L. destruct (Z_le_dec 0 st) as [A|A], (Z_le_dec st 255) as [B|B].
  - destruct (address_sign_total sg i k p st C V ltac:(lia) L) as (i' & E). rewrite E. split; [discriminate|]. intros (H & _). lia.
  - unfold input_sign. rewrite C. destruct (valid_key_usable k V) as (pub & E & _). unfold priv_to_public_key. rewrite E. cbn [bind].
    unfold py_chr. replace ((0 <=? st) && (st <? 256)) with false by lia. cbn [bind]. split; [intros H; split; [lia|congruence]|intros (_ & ->); reflexivity].
  - unfold input_sign. rewrite C. destruct (valid_key_usable k V) as (pub & E & _). unfold priv_to_public_key. rewrite E. cbn [bind].
    unfold py_chr. replace ((0 <=? st) && (st <? 256)) with false by lia. cbn [bind]. split; [intros H; split; [lia|congruence]|intros (_ & ->); reflexivity].
  - lia.
Qed.
Lemma signatures_range sg p st k keys n : ~ 0 <= st <= 255 -> signatures sg n (k :: keys) p st = Err E_ValueError.
Proof. intros R. cbn [signatures]. unfold py_chr. replace ((0 <=? st) && (st <? 256)) with false by lia. reflexivity. Qed.
Lemma signatures_short sg p st keys : 0 <= st <= 255 -> (forall n s, blen (sg n s p) < 4294967295) -> forall n,
  exists l, signatures sg n keys p st = Ok (map Str l) /\ Forall (fun b => 1 <= blen b <= 4294967295) l.
Proof.
  intros R L. induction keys as [|k keys IH]; intros n; [exists []; split; [reflexivity|constructor]|]. cbn [signatures]. unfold py_chr. replace ((0 <=? st) && (st <? 256)) with true by lia. cbn [bind].
  destruct (IH (S n)) as (l & E & F). rewrite E. cbn [bind]. exists ((sg n (k_secret k) p ++ [Zb st]) :: l). split; [reflexivity|]. constructor; [|exact F].
  specialize (L n (k_secret k)). unfold blen in *. rewrite app_length. cbn [List.length]. lia.
Qed.
Lemma some_bytes s rb : Forall well_formed (s_ins s) -> script_to_bytes s = Ok rb -> s_ins s <> [] -> 1 <= blen rb.
Proof.
  intros W E N. unfold script_to_bytes in E. destruct (s_ins s) as [|i l]; [contradiction|]. cbn [ins_list_to_bytes] in E. apply bind_ok in E. destruct E as (a & A & E). apply bind_ok in E. destruct E as (b & B & E).
  assert (rb = a ++ b) as -> by congruence. unfold ins_to_bytes, compat_chr in A. destruct ((0 <=? bZ (i_op i)) && (bZ (i_op i) <? 256)); [|discriminate A]. cbn [bind] in A.
  assert (L : 1 <= blen a).
  { destruct (is_const_push (i_op i)); [destruct (i_data i) as [d|]; [|discriminate A]|destruct (is_var_push (i_op i)); [discriminate A|]]; injection A as <-; unfold blen; cbn [app List.length]; lia. }
  unfold blen in *. rewrite app_length. lia.
Qed.
Lemma prefix_items l r e : (exists ins, to_instructions l = Ok ins) -> to_instructions r = Err e -> to_instructions (l ++ r) = Err e.
Proof.
  induction l as [|x l IH]; intros (ins & H) R; [exact R|]. cbn [to_instructions app] in *. apply bind_ok in H. destruct H as (i & A & H). apply bind_ok in H. destruct H as (t & B & _).
  rewrite A. cbn [bind]. rewrite IH; [reflexivity|eauto|exact R].
Qed.
Lemma script_sign_errors sg i keys p st e : in_class_of i = C_ScriptInput \/ in_class_of i = C_MultisigInput -> Forall well_formed (s_ins (in_script i)) ->
  (forall n s, blen (sg n s p) < 4294967295) -> (forall rb, script_to_bytes (in_script i) = Ok rb -> blen rb <= 4294967295) ->
  (input_sign sg i keys p st = Err e <->
   (keys <> [] /\ ~ 0 <= st <= 255 /\ e = E_ValueError) \/
   ((keys = [] \/ 0 <= st <= 255) /\ Exists (fun x => pushdata (i_op x)) (s_ins (in_script i)) /\ e = E_TypeError) \/
   ((keys = [] \/ 0 <= st <= 255) /\ s_ins (in_script i) = [] /\ e = E_Op_InvalidConstPushLength)).
Proof.
  intros C W L LB.
  assert (IS : input_sign sg i keys p st = (let! sigs := signatures sg 0 keys p st in let! s := p2sh_in_create (in_script i) sigs in Ok (input_replace_script i s))) by (unfold input_sign; destruct C as [C|C]; rewrite C; reflexivity).
  rewrite IS. clear IS. assert (R : (keys <> [] /\ ~ 0 <= st <= 255) \/ (keys = [] \/ 0 <= st <= 255)).
  { destruct keys; [right; left; reflexivity|]. assert (D : 0 <= st <= 255 \/ ~ 0 <= st <= 255) by lia. destruct D as [D|D]; [right; right; exact D|left; split; [discriminate|exact D]]. }
  destruct R as [(N & R)|R].
  - destruct keys as [|k keys]; [contradiction|]. rewrite signatures_range by exact R. cbn [bind]. split.
    + intros H. left. split; [exact N|]. split; [exact R|congruence].
    + intros [(_ & _ & ->)|[([X|X] & _)|([X|X] & _)]]; [reflexivity|discriminate X|contradiction|discriminate X|contradiction].
  - assert (S : exists l, signatures sg 0 keys p st = Ok (map Str l) /\ Forall (fun b => 1 <= blen b <= 4294967295) l).
    { destruct R as [->|R]; [exists []; split; [reflexivity|constructor]|exact (signatures_short sg p st keys R L 0)]. }
    destruct S as (l & -> & F). cbn [bind]. assert (NR : ~ (keys <> [] /\ ~ 0 <= st <= 255 /\ e = E_ValueError)) by (destruct R as [->|R]; tauto).
    destruct (Exists_dec (fun x => pushdata (i_op x)) (s_ins (in_script i)) (fun x => pushdata_dec (i_op x))) as [P|P].
    + unfold p2sh_in_create, script_to_bytes. rewrite (to_bytes_pushdata _ W P). cbn [bind]. split.
      * intros H. right. left. split; [exact R|]. split; [exact P|congruence].
      * intros [H|[(_ & _ & ->)|(_ & X & _)]]; [contradiction|reflexivity|]. rewrite X in P. inversion P.
    + assert (P' : Forall (fun x => ~ pushdata (i_op x)) (s_ins (in_script i))) by (apply Forall_Exists_neg, P).
      destruct (to_bytes_ok _ W P') as (rb & E & _). fold (script_to_bytes (in_script i)) in E. destruct (s_ins (in_script i)) as [|x xs] eqn:SI.
      * assert (RB : rb = []) by (unfold script_to_bytes in E; rewrite SI in E; cbn [ins_list_to_bytes] in E; congruence). subst rb.
        assert (PC : p2sh_in_create (in_script i) (map Str l) = Err E_Op_InvalidConstPushLength).
        { unfold p2sh_in_create. rewrite E. cbn [bind]. unfold sub_create. rewrite app_assoc. rewrite (prefix_items _ [I_Bytes (Str [])] E_Op_InvalidConstPushLength).
          - reflexivity.
          - destruct (p2sh_in_total (Script None [Instr x51 None]) [x51] l eq_refl ltac:(vm_compute; intuition discriminate) F) as (s & H). unfold p2sh_in_create in H.
            change (script_to_bytes (Script None [Instr x51 None])) with (Ok [x51] : res bytes) in H. cbn [bind] in H. unfold sub_create in H. apply bind_ok in H. destruct H as (ins & H & _).
            rewrite app_assoc in H. revert H. generalize ([I_Op OP_0] ++ map I_Bytes (map Str l)). clear. intros it. revert ins. induction it as [|y it IH]; intros ins H; [exists []; reflexivity|].
            cbn [app to_instructions] in *. apply bind_ok in H. destruct H as (j & A & H). apply bind_ok in H. destruct H as (t & B & _). destruct (IH t B) as (u & U). rewrite A, U. cbn [bind]. eauto.
          - vm_compute. reflexivity. }
        rewrite PC. cbn [bind]. split.
        -- intros H. right. right. split; [exact R|]. split; [reflexivity|congruence].
        -- intros [H|[(_ & X & _)|(_ & _ & ->)]]; [contradiction|inversion X|reflexivity].
      * assert (LL : 1 <= blen rb) by (apply (some_bytes (in_script i)); [rewrite SI; exact W|exact E|rewrite SI; discriminate]).
        destruct (p2sh_in_total (in_script i) rb l E (conj LL (LB rb E)) F) as (s & ->). cbn [bind]. split; [discriminate|].
        intros [H|[(_ & X & _)|(_ & X & _)]]; [contradiction|contradiction|discriminate X].
Qed.
