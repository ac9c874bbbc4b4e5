(** Proofs about sizes. *)
From Coq Require Import ZArith Lia List Bool.
From Verif Require Import Base M_Hash M_Codec S_Codec P_Codec M_Keys S_Keys P_Keys M_EC S_EC M_Script S_Script P_Script M_Tx S_Tx P_Tx P_Wide P_TxSign S_Wide S_Size.
Import ListNotations.
Open Scope Z_scope.

Lemma total_app {A} (f : A -> Z) l r : total f (l ++ r) = total f l + total f r.
Proof. unfold total. induction l as [|a l IH]; cbn [app fold_right]; [lia|]. rewrite IH. lia. Qed.
Lemma total_nonneg {A} (f : A -> Z) l : (forall a, 0 <= f a) -> 0 <= total f l.
Proof. intros H. unfold total. induction l as [|a l IH]; cbn [fold_right]; [lia|]. specialize (H a). lia. Qed.
Lemma total_le {A} (f : A -> Z) c l : Forall (fun a => f a <= c) l -> total f l <= c * blen l.
Proof. induction 1 as [|a l H _ IH]; [unfold blen; cbn; lia|]. change (total f (a :: l)) with (f a + total f l). rewrite blen_cons. lia. Qed.
Lemma total_eq {A} (f : A -> Z) c l : Forall (fun a => f a = c) l -> total f l = c * blen l.
Proof. induction 1 as [|a l H _ IH]; [unfold blen; cbn; lia|]. change (total f (a :: l)) with (f a + total f l). rewrite blen_cons. lia. Qed.

Lemma fixed_length n k : blen (encode_int n false (Some k)) = Z.of_nat k.
Proof.
  destruct (Z.ltb_spec n 0) as [H|H].
  - rewrite encode_int_neg by exact H. unfold blen, zeros. rewrite repeat_length. reflexivity.
  - rewrite encode_int_fixed_le by exact H. unfold blen. rewrite le_bytes_length. reflexivity.
Qed.
Lemma varint_length n : 0 <= n -> blen (encode_varint n) = int_size n.
Proof.
  intros H. unfold int_size. destruct (Z.ltb_spec n 253) as [L|L].
  - destruct (varint_spec n ltac:(lia)) as [(_ & b & -> & _)|[|[|]]]; [reflexivity|lia..].
  - unfold encode_varint. replace (n <? 253) with false by lia. change (2 ^ 16) with 65536. change (2 ^ 32) with 4294967296.
    destruct (Z.leb_spec n 65535); [replace (n <? 65536) with true by lia|replace (n <? 65536) with false by lia];
      [|destruct (Z.leb_spec n 4294967295); [replace (n <? 4294967296) with true by lia|replace (n <? 4294967296) with false by lia]];
      rewrite blen_cons, fixed_length; reflexivity.
Qed.
Lemma ins_size i w : ins_to_bytes i = Ok w -> blen w = instr_size i.
Proof.
  unfold ins_to_bytes, instr_size. intros H. apply bind_ok in H. destruct H as (c & C & H).
  assert (L : blen c = 1). { unfold compat_chr in C. destruct (_ && _) in C; [|discriminate]. injection C as <-. reflexivity. }
  unfold is_const_push in H. destruct (_ && _).
  - destruct (i_data i) as [d|]; [|discriminate]. injection H as <-. rewrite blen_app, L. reflexivity.
  - destruct (is_var_push _); [discriminate|]. injection H as <-. rewrite L. reflexivity.
Qed.
Lemma ins_list_size l : forall w, ins_list_to_bytes l = Ok w -> blen w = total instr_size l.
Proof.
  induction l as [|i l IH]; intros w; cbn [ins_list_to_bytes].
  - intros H. injection H as <-. reflexivity.
  - intros H. apply bind_ok in H. destruct H as (a & A & H). apply bind_ok in H. destruct H as (b & B & H). injection H as <-.
    rewrite blen_app, (ins_size _ _ A), (IH _ B). reflexivity.
Qed.
Lemma script_size_ok s w : script_to_bytes s = Ok w -> blen w = script_size s.
Proof. apply ins_list_size. Qed.
Lemma hex_size h d : decode_hex h = Ok d -> blen d = blen h / 2.
Proof. intros H. apply decode_hex_iff, hex_text_length in H. unfold blen. rewrite H, Nat2Z.inj_mul, Z.mul_comm. change (Z.of_nat 2) with 2. rewrite Z.div_mul by lia. reflexivity. Qed.
Lemma blen_rev {A} (l : list A) : blen (rev l) = blen l.
Proof. unfold blen. rewrite rev_length. reflexivity. Qed.
Lemma input_size_ok i w : input_to_bytes i = Ok w -> blen w = input_size i.
Proof.
  unfold input_to_bytes, input_size, block_size, buf_write. intros H. apply bind_ok in H. destruct H as (s & S & H). apply bind_ok in H. destruct H as (d & D & H). injection H as <-.
  rewrite ?blen_app, !fixed_length, varint_length, blen_rev, (hex_size _ _ D), (script_size_ok _ _ S) by apply blen_nonneg. change (blen (@nil byte)) with 0. lia.
Qed.
Lemma output_size_ok o w : output_to_bytes o = Ok w -> blen w = output_size o.
Proof.
  unfold output_to_bytes, output_size, block_size, buf_write. intros H. apply bind_ok in H. destruct H as (s & S & H). injection H as <-.
  rewrite ?blen_app, !fixed_length, varint_length, (script_size_ok _ _ S) by apply blen_nonneg. change (blen (@nil byte)) with 0. lia.
Qed.
Lemma concat_size {A} (f : A -> res bytes) (g : A -> Z) l : (forall a w, f a = Ok w -> blen w = g a) -> forall w, concat_bytes f l = Ok w -> blen w = total g l.
Proof.
  intros FG. induction l as [|a l IH]; intros w; cbn [concat_bytes].
  - intros H. injection H as <-. reflexivity.
  - intros H. apply bind_ok in H. destruct H as (x & X & H). apply bind_ok in H. destruct H as (y & Y & H). injection H as <-.
    rewrite blen_app, (FG _ _ X), (IH _ Y). reflexivity.
Qed.
Lemma tx_size_ok t w : tx_to_bytes t = Ok w -> blen w = tx_size t.
Proof.
  unfold tx_to_bytes, tx_size, buf_write. intros H. apply bind_ok in H. destruct H as (a & A & H). apply bind_ok in H. destruct H as (b & B & H). injection H as <-.
  rewrite ?blen_app, !fixed_length, !varint_length, (concat_size _ _ _ input_size_ok _ A), (concat_size _ _ _ output_size_ok _ B) by apply blen_nonneg.
  change (blen (@nil byte)) with 0. lia.
Qed.

(** ** templates *)
Lemma size_op o : ~ pushes o -> instr_size (Instr o None) = 1.
Proof. intros _. unfold instr_size. cbn [i_op i_data]. destruct (_ && _); reflexivity. Qed.
Lemma size_bytes b i : to_instruction (I_Bytes (Str b)) = Ok i -> blen b <= 75 -> instr_size i = 1 + blen b /\ ~ unwritable i.
Proof.
  cbn [to_instruction]. intros H L. apply bind_ok in H. destruct H as (o & P & H). apply new_instr_ok in H. destruct H as [-> _].
  apply op_push_for_ok in P. destruct P as [(R & E)|P]; [|lia]. unfold instr_size, unwritable, pushdata. cbn [i_op i_data]. rewrite E.
  replace ((1 <=? blen b) && (blen b <=? 75)) with true by lia. split; [reflexivity|]. intros [U|[_ U]]; [lia|discriminate].
Qed.
Lemma long_bytes b i : to_instruction (I_Bytes (Str b)) = Ok i -> 75 < blen b -> unwritable i.
Proof.
  cbn [to_instruction]. intros H L. apply bind_ok in H. destruct H as (o & P & H). apply new_instr_ok in H. destruct H as [-> _].
  apply op_push_for_ok in P. left. unfold pushdata. cbn [i_op]. lia.
Qed.
Lemma op_writable o : ~ pushes o -> ~ unwritable (Instr o None).
Proof. unfold unwritable, pushes, pushdata. cbn [i_op i_data]. intros N [U|[U _]]; lia. Qed.

(** items as they are compiled: opcodes and byte strings *)
Definition item_size (it : item) : Z := match it with I_Bytes d => 1 + pyb_len d | _ => 1 end.
Definition plain_item (it : item) : Prop := match it with I_Op _ | I_Bytes _ => True | _ => False end.
Definition short_item (it : item) : Prop := match it with I_Bytes d => pyb_len d <= 75 | _ => True end.
Lemma item_size_ok it i : plain_item it -> to_instruction it = Ok i -> short_item it -> instr_size i = item_size it /\ ~ unwritable i.
Proof.
  destruct it as [o|z|[b|b]|o d|z d]; cbn [plain_item short_item item_size]; try tauto; intros _ H.
  - apply to_instruction_op in H. destruct H as [-> N]. intros _. split; [exact (size_op o N)|exact (op_writable o N)].
  - exact (size_bytes b i H).
  - discriminate.
Qed.
Lemma item_long it i : plain_item it -> to_instruction it = Ok i -> ~ short_item it -> unwritable i.
Proof.
  destruct it as [o|z|[b|b]|o d|z d]; cbn [plain_item short_item]; try tauto; intros _ H N; [|discriminate].
  apply (long_bytes b i H). change (pyb_len (Str b)) with (blen b) in N. lia.
Qed.
Lemma sub_size c l s : sub_create c l = Ok s -> Forall plain_item l -> Forall short_item l -> script_size s = total item_size l /\ exists w, script_to_bytes s = Ok w.
Proof.
  unfold sub_create. intros H P S. apply bind_ok in H. destruct H as (ins & I & H). injection H as <-. apply to_instructions_inv in I.
  assert (G : total instr_size ins = total item_size l /\ Forall (fun i => ~ unwritable i) ins).
  { revert P S. induction I as [|it i l' ins' E _ IH]; intros P S; [split; [reflexivity|constructor]|]. inversion P; inversion S; subst.
    destruct IH as [T F]; [assumption..|]. destruct (item_size_ok it i) as [Z W]; [assumption..|].
    change (instr_size i + total instr_size ins' = item_size it + total item_size l' /\ Forall (fun i => ~ unwritable i) (i :: ins')). split; [lia|constructor; assumption]. }
  split; [exact (proj1 G)|]. apply script_good. unfold bad_script. cbn [s_ins]. intros X. apply Exists_exists in X. destruct X as (i & I' & U).
  destruct G as [_ F]. rewrite Forall_forall in F. exact (F i I' U).
Qed.
Lemma sub_long c l s : sub_create c l = Ok s -> Forall plain_item l -> ~ Forall short_item l -> script_to_bytes s = Err E_TypeError.
Proof.
  unfold sub_create. intros H P S. apply bind_ok in H. destruct H as (ins & I & H). injection H as <-. apply to_instructions_inv in I.
  apply script_error. split; [reflexivity|]. unfold bad_script. cbn [s_ins]. revert P S. induction I as [|it i l' ins' E _ IH]; intros P S; [destruct S; constructor|].
  inversion P; subst. destruct (Z_le_dec (match it with I_Bytes d => pyb_len d | _ => 0 end) 75) as [L|L].
  - right. apply IH; [assumption|]. intros F. apply S. constructor; [|exact F]. destruct it; cbn [short_item]; try exact I; exact L.
  - left. apply (item_long it i); [assumption..|]. destruct it; cbn [short_item]; lia.
Qed.
Lemma p2pkh_size a s : valid_addr a -> p2pk_out_create a = Ok s -> script_size s = 25 /\ exists w, script_to_bytes s = Ok w.
Proof.
  intros (_ & h & E & L) H. assert (B : pyb_len (Str h) = 20) by (unfold pyb_len, blen; cbn [pyb_bytes]; rewrite L; reflexivity).
  unfold p2pk_out_create in H. rewrite E in H. apply sub_size in H.
  - destruct H as [T W]. split; [|exact W]. rewrite T. unfold total. cbn [fold_right item_size]. rewrite B. reflexivity.
  - repeat constructor.
  - repeat constructor. cbn [short_item]. rewrite B. lia.
Qed.
Lemma hash160_size b : pyb_len (Str (ripemd160 b)) = 20.
Proof. unfold pyb_len, blen. cbn [pyb_bytes]. rewrite ripemd160_length. reflexivity. Qed.
Lemma p2sh_size r s : p2sh_out_create r = Ok s -> script_size s = 23 /\ exists w, script_to_bytes s = Ok w.
Proof.
  unfold p2sh_out_create. intros H. apply bind_ok in H. destruct H as (h & E & H). unfold script_to_hash in E. apply bind_ok in E. destruct E as (rb & _ & E). injection E as <-.
  apply sub_size in H.
  - destruct H as [T W]. split; [|exact W]. rewrite T. unfold total. cbn [fold_right item_size]. rewrite hash160_size. reflexivity.
  - repeat constructor.
  - repeat constructor. cbn [short_item]. rewrite hash160_size. lia.
Qed.
Lemma op_return_size d s : op_return_create d = Ok s ->
  (pyb_len d <= 75 -> script_size s = 2 + pyb_len d /\ exists w, script_to_bytes s = Ok w) /\ (75 < pyb_len d -> script_to_bytes s = Err E_TypeError).
Proof.
  unfold op_return_create. intros H. split; intros L.
  - apply sub_size in H; [|repeat constructor|repeat constructor; exact L]. destruct H as [T W]. split; [|exact W]. rewrite T. unfold total. cbn [fold_right item_size]. lia.
  - apply (sub_long _ _ _ H); [repeat constructor|]. intros F. inversion F as [|? ? _ F']. inversion F' as [|? ? B _]. subst. cbn [short_item] in B. lia.
Qed.
Lemma bytes_32_size v b : to_bytes_32 v = Ok b -> blen b = 32.
Proof.
  unfold to_bytes_32. intros H. apply bind_ok in H. destruct H as (s & _ & H). destruct (_ >? _); [discriminate|]. assert (b = last_n 32 (zeros 32 ++ s)) as -> by congruence.
  unfold blen. rewrite last_n_length; [reflexivity|]. rewrite app_length, zeros_length. lia.
Qed.
Lemma key_size_ok k b : pk_to_bytes k = Ok b -> blen b = key_size k.
Proof.
  unfold pk_to_bytes, public_pair_to_sec, key_size. intros H. apply bind_ok in H. destruct H as (xs & X & H). apply bytes_32_size in X. destruct (pk_compressed k).
  - injection H as <-. rewrite blen_cons, X. reflexivity.
  - apply bind_ok in H. destruct H as (ys & Y & H). apply bytes_32_size in Y. injection H as <-. rewrite blen_cons, blen_app, X, Y. reflexivity.
Qed.
Lemma key_size_range k : key_size k = 33 \/ key_size k = 65.
Proof. unfold key_size. destruct (pk_compressed k); auto. Qed.
Lemma keys_size ks : forall bs, pubkeys_bytes ks = Ok bs -> total (fun b => 1 + blen b) bs = total (fun k => 1 + key_size k) ks /\ Forall (fun b => blen b <= 75) bs.
Proof.
  induction ks as [|k ks IH]; intros bs; cbn [pubkeys_bytes].
  - intros H. injection H as <-. split; [reflexivity|constructor].
  - intros H. apply bind_ok in H. destruct H as (b & B & H). apply bind_ok in H. destruct H as (t & T & H). injection H as <-. destruct (IH t T) as [E F].
    apply key_size_ok in B. pose proof (key_size_range k). change (1 + blen b + total (fun b => 1 + blen b) t = 1 + key_size k + total (fun k => 1 + key_size k) ks /\ Forall (fun b => blen b <= 75) (b :: t)).
    split; [lia|]. constructor; [lia|exact F].
Qed.
Lemma total_map {A B} (f : B -> Z) (g : A -> B) l : total f (map g l) = total (fun a => f (g a)) l.
Proof. unfold total. induction l as [|a l IH]; [reflexivity|]. cbn [map fold_right]. rewrite IH. reflexivity. Qed.
Lemma multisig_size ks m s : multisig_create ks m = Ok s -> script_size s = 3 + total (fun k => 1 + key_size k) ks /\ exists w, script_to_bytes s = Ok w.
Proof.
  unfold multisig_create. intros H. apply bind_ok in H. destruct H as (mo & _ & H). apply bind_ok in H. destruct H as (bs & B & H). apply bind_ok in H. destruct H as (no & _ & H).
  destruct (keys_size ks bs B) as [T F]. apply sub_size in H.
  - destruct H as [T' W]. split; [|exact W]. rewrite T', <- T, !total_app, total_map.
    change (1 + (total (fun b => 1 + blen b) bs + (1 + 1)) = 3 + total (fun b => 1 + blen b) bs). lia.
  - rewrite !Forall_app. repeat split; try (repeat constructor). apply Forall_map. apply Forall_forall. intros b _. exact I.
  - rewrite !Forall_app. repeat split; try (repeat constructor). apply Forall_map. exact F.
Qed.
Lemma p2pk_in_size k sig s : p2pk_in_create k sig = Ok s ->
  (pyb_len sig <= 75 -> script_size s = 2 + pyb_len sig + key_size k /\ exists w, script_to_bytes s = Ok w) /\ (75 < pyb_len sig -> script_to_bytes s = Err E_TypeError).
Proof.
  unfold p2pk_in_create. intros H. apply bind_ok in H. destruct H as (kb & K & H). apply key_size_ok in K. pose proof (key_size_range k) as R. split; intros L.
  - apply sub_size in H; [|repeat constructor|].
    + destruct H as [T W]. split; [|exact W]. rewrite T. unfold total. cbn [fold_right item_size]. change (pyb_len (Str kb)) with (blen kb). lia.
    + constructor; [exact L|]. constructor; [|constructor]. cbn [short_item]. change (pyb_len (Str kb)) with (blen kb). lia.
  - apply (sub_long _ _ _ H); [repeat constructor|]. intros F. inversion F as [|? ? B _]. subst. cbn [short_item] in B. lia.
Qed.
Lemma p2sh_in_size r sigs s : p2sh_in_create r sigs = Ok s ->
  (script_size r <= 75 -> Forall (fun b => pyb_len b <= 75) sigs ->
     script_size s = 2 + script_size r + total (fun b => 1 + pyb_len b) sigs /\ exists w, script_to_bytes s = Ok w) /\
  (75 < script_size r -> script_to_bytes s = Err E_TypeError).
Proof.
  unfold p2sh_in_create. intros H. apply bind_ok in H. destruct H as (rb & R & H). apply script_size_ok in R.
  assert (P : Forall plain_item ([I_Op OP_0] ++ map I_Bytes sigs ++ [I_Bytes (Str rb)])).
  { rewrite !Forall_app. repeat split; try (repeat constructor). apply Forall_map. apply Forall_forall. intros b _. exact I. }
  split; intros L.
  - intros F. apply sub_size in H; [|exact P|].
    + destruct H as [T W]. split; [|exact W]. rewrite T, !total_app, total_map, <- R.
      change (1 + (total (fun b => 1 + pyb_len b) sigs + (1 + blen rb + 0)) = 2 + blen rb + total (fun b => 1 + pyb_len b) sigs). lia.
    + rewrite !Forall_app. repeat split; try (repeat constructor); [apply Forall_map; exact F|]. cbn [short_item]. change (pyb_len (Str rb)) with (blen rb). lia.
  - apply (sub_long _ _ _ H P). rewrite !Forall_app. intros (_ & _ & F). inversion F as [|? ? B _]. subst. cbn [short_item] in B. change (pyb_len (Str rb)) with (blen rb) in B. lia.
Qed.

(** ** outputs and inputs *)
Lemma int_size_mono n m : n <= m -> int_size n <= int_size m.
Proof. unfold int_size. change (2 ^ 16) with 65536. change (2 ^ 32) with 4294967296. intros H. repeat match goal with |- context[if ?c then _ else _] => destruct c eqn:? end; lia. Qed.
Lemma small_block s n : script_size s = n -> n < 253 -> block_size s = 1 + n.
Proof. intros <- H. unfold block_size, int_size. replace (script_size s <? 253) with true by lia. reflexivity. Qed.
Lemma write_output o w : script_to_bytes (out_script o) = Ok w -> exists b, output_to_bytes o = Ok b.
Proof. intros H. unfold output_to_bytes. rewrite H. cbn [bind]. eauto. Qed.
Lemma address_output_size amt a o : valid_addr a -> address_output_create amt a = Ok o -> exists w, output_to_bytes o = Ok w /\ blen w = 34.
Proof.
  unfold address_output_create. intros V H. apply bind_ok in H. destruct H as (s & S & H). injection H as <-. destruct (p2pkh_size a s V S) as [Z (w & W)].
  destruct (write_output (Output C_AddressOutput amt s) w W) as (b & B). exists b. split; [exact B|]. rewrite (output_size_ok _ _ B). unfold output_size. cbn [out_script].
  rewrite (small_block _ _ Z) by lia. reflexivity.
Qed.
Lemma script_output_size amt r o : script_output_create amt r = Ok o -> exists w, output_to_bytes o = Ok w /\ blen w = 32.
Proof.
  unfold script_output_create. intros H. apply bind_ok in H. destruct H as (s & S & H). injection H as <-. destruct (p2sh_size r s S) as [Z (w & W)].
  destruct (write_output (Output C_ScriptOutput amt s) w W) as (b & B). exists b. split; [exact B|]. rewrite (output_size_ok _ _ B). unfold output_size. cbn [out_script].
  rewrite (small_block _ _ Z) by lia. reflexivity.
Qed.
Lemma data_output_size d o : data_output_create d = Ok o ->
  (pyb_len d <= 75 -> exists w, output_to_bytes o = Ok w /\ blen w = 11 + pyb_len d) /\ (75 < pyb_len d -> output_to_bytes o = Err E_TypeError).
Proof.
  unfold data_output_create. intros H. destruct (_ >? 80); [discriminate|]. apply bind_ok in H. destruct H as (s & S & H). injection H as <-. destruct (op_return_size d s S) as [A B]. split; intros L.
  - destruct (A L) as [Z (w & W)]. destruct (write_output (Output C_DataOutput 0 s) w W) as (b & B'). exists b. split; [exact B'|]. rewrite (output_size_ok _ _ B'). unfold output_size. cbn [out_script].
    rewrite (small_block _ _ Z) by lia. lia.
  - unfold output_to_bytes. cbn [out_script]. rewrite (B L). reflexivity.
Qed.
Lemma multisig_output_size amt ks m o : multisig_output_create amt ks m = Ok o ->
  exists w, output_to_bytes o = Ok w /\ blen w = let n := 3 + total (fun k => 1 + key_size k) ks in 8 + int_size n + n.
Proof.
  unfold multisig_output_create. intros H. apply bind_ok in H. destruct H as (s & S & H). injection H as <-. destruct (multisig_size ks m s S) as [Z (w & W)].
  destruct (write_output (Output C_MultisigOutput amt s) w W) as (b & B). exists b. split; [exact B|]. rewrite (output_size_ok _ _ B). unfold output_size, block_size. cbn [out_script].
  rewrite Z. cbv zeta. lia.
Qed.
Lemma write_input i w d : script_to_bytes (in_script i) = Ok w -> hex_text (in_tx_id i) d -> exists b, input_to_bytes i = Ok b.
Proof. intros H D. apply decode_hex_iff in D. unfold input_to_bytes. rewrite H, D. cbn [bind]. eauto. Qed.
Lemma id_half h d : hex_text h d -> blen h / 2 = blen d.
Proof. intros H. apply decode_hex_iff, hex_size in H. lia. Qed.
Lemma chr_one st c : py_chr st = Ok c -> blen c = 1.
Proof. unfold py_chr. destruct (_ && _); [|discriminate]. intros H. injection H as <-. reflexivity. Qed.
(** an address input after signing *)
Lemma signed_input_size sg i k p st i' d : in_class_of i = C_AddressInput -> input_sign sg i [k] p st = Ok i' -> hex_text (in_tx_id i) d -> blen d = 32 -> blen (sg 0%nat (k_secret k) p) <= 72 ->
  exists w, input_to_bytes i' = Ok w /\ blen w = 44 + blen (sg 0%nat (k_secret k) p) + (if k_compressed k then 33 else 65).
Proof.
  unfold input_sign. intros -> H D L S. apply bind_ok in H. destruct H as (pub & PU & H). apply bind_ok in H. destruct H as (c & C & H). apply bind_ok in H. destruct H as (s & P & H).
  injection H as <-. apply chr_one in C. pose proof (blen_nonneg (sg 0%nat (k_secret k) p)) as NN. destruct (p2pk_in_size _ _ _ P) as [A _].
  assert (E : pyb_len (Str (sg 0%nat (k_secret k) p ++ c)) = blen (sg 0%nat (k_secret k) p) + 1). { change (blen (sg 0%nat (k_secret k) p ++ c) = blen (sg 0%nat (k_secret k) p) + 1). rewrite blen_app, C. reflexivity. }
  rewrite E in A. destruct (A ltac:(lia)) as [Z (w & W)]. destruct (write_input (input_replace_script i s) w d W D) as (b & B). exists b. split; [exact B|].
  assert (K : key_size pub = if k_compressed k then 33 else 65).
  { unfold priv_to_public_key, pk_from_private_key in PU. apply bind_ok in PU. destruct PU as ([pr|] & _ & PU); [|discriminate]. unfold new_pubkey in PU.
    apply bind_ok in PU. destruct PU as (n & _ & PU). destruct (negb _); [discriminate|]. injection PU as <-. reflexivity. }
  rewrite (input_size_ok _ _ B). unfold input_size, input_replace_script. cbn [in_tx_id in_script]. rewrite (id_half _ _ D), L, (small_block _ _ Z); rewrite K; destruct (k_compressed k); lia.
Qed.
(** a multisig input after signing: the redeem script has to fit one push *)
Lemma sigs_size sg p st : forall keys n sigs, signatures sg n keys p st = Ok sigs -> (forall j k, nth_error keys j = Some k -> blen (sg (n + j)%nat (k_secret k) p) <= 72) ->
  total (fun b => 1 + pyb_len b) sigs <= 74 * blen keys /\ Forall (fun b => pyb_len b <= 75) sigs.
Proof.
  induction keys as [|k keys IH]; intros n sigs; cbn [signatures].
  - intros H _. injection H as <-. split; [reflexivity|constructor].
  - intros H L. apply bind_ok in H. destruct H as (c & C & H). apply chr_one in C. apply bind_ok in H. destruct H as (t & T & H). injection H as <-.
    destruct (IH (S n) t T) as [A B]. { intros j k' J. replace (S n + j)%nat with (n + S j)%nat by lia. exact (L (S j) k' J). }
    pose proof (L 0%nat k eq_refl) as L0. rewrite Nat.add_0_r in L0.
    assert (E : pyb_len (Str (sg n (k_secret k) p ++ c)) = blen (sg n (k_secret k) p) + 1). { change (blen (sg n (k_secret k) p ++ c) = blen (sg n (k_secret k) p) + 1). rewrite blen_app, C. reflexivity. }
    split; [|constructor; [lia|exact B]]. change (1 + pyb_len (Str (sg n (k_secret k) p ++ c)) + total (fun b => 1 + pyb_len b) t <= 74 * blen (k :: keys)). rewrite blen_cons. lia.
Qed.
Lemma script_sign sg i keys p st i' : in_class_of i = C_ScriptInput \/ in_class_of i = C_MultisigInput -> input_sign sg i keys p st = Ok i' ->
  exists sigs s, signatures sg 0 keys p st = Ok sigs /\ p2sh_in_create (in_script i) sigs = Ok s /\ i' = input_replace_script i s.
Proof.
  unfold input_sign. intros C H. destruct C as [C | C]; rewrite C in H; apply bind_ok in H; destruct H as (sigs & G & H); apply bind_ok in H; destruct H as (s & P & H); injection H as <-; eauto.
Qed.
Lemma script_signed_size sg i keys p st i' d : in_class_of i = C_ScriptInput \/ in_class_of i = C_MultisigInput -> input_sign sg i keys p st = Ok i' ->
  hex_text (in_tx_id i) d -> blen d = 32 -> (forall j k, nth_error keys j = Some k -> blen (sg j (k_secret k) p) <= 72) ->
  (script_size (in_script i) <= 75 -> exists w, input_to_bytes i' = Ok w /\ blen w <= let n := 2 + script_size (in_script i) + 74 * blen keys in 40 + int_size n + n) /\
  (75 < script_size (in_script i) -> input_to_bytes i' = Err E_TypeError).
Proof.
  intros C H D L S. destruct (script_sign _ _ _ _ _ _ C H) as (sigs & s & G & P & ->). destruct (sigs_size _ _ _ _ _ _ G S) as [T F].
  destruct (p2sh_in_size _ _ _ P) as [A B]. split; intros R.
  - destruct (A R F) as [Z (w & W)]. destruct (write_input (input_replace_script i s) w d W D) as (b & E). exists b. split; [exact E|].
    rewrite (input_size_ok _ _ E). unfold input_size, input_replace_script. cbn [in_tx_id in_script]. rewrite (id_half _ _ D), L. unfold block_size. rewrite Z.
    cbv zeta. pose proof (int_size_mono (2 + script_size (in_script i) + total (fun b => 1 + pyb_len b) sigs) (2 + script_size (in_script i) + 74 * blen keys) ltac:(lia)). lia.
  - unfold input_to_bytes. cbn [input_replace_script in_script]. rewrite (B R). reflexivity.
Qed.
Lemma three_keys ks : 3 <= blen ks -> 75 < 3 + total (fun k => 1 + key_size k) ks.
Proof.
  intros H. assert (G : 34 * blen ks <= total (fun k => 1 + key_size k) ks); [|lia]. clear H. induction ks as [|k ks IH]; [unfold blen; cbn; lia|]. rewrite blen_cons.
  change (34 * (1 + blen ks) <= 1 + key_size k + total (fun k => 1 + key_size k) ks). pose proof (key_size_range k). lia.
Qed.
Lemma multisig_input_unwritable id n ks m q i sg keys p st i' : multisig_input_create id n ks m q = Ok i -> 3 <= blen ks -> input_sign sg i keys p st = Ok i' ->
  input_to_bytes i' = Err E_TypeError /\ forall t w, In i' (tx_inputs t) -> tx_to_bytes t <> Ok w.
Proof.
  unfold multisig_input_create. intros H L G. apply bind_ok in H. destruct H as (s & S & H). injection H as <-. destruct (multisig_size _ _ _ S) as [Z _].
  destruct (script_sign sg (Input C_MultisigInput id n s q) keys p st i' (or_intror eq_refl) G) as (sigs & s' & _ & P & ->). cbn [in_script] in P.
  assert (E : input_to_bytes (input_replace_script (Input C_MultisigInput id n s q) s') = Err E_TypeError).
  { unfold input_to_bytes. cbn [input_replace_script in_script]. rewrite (proj2 (p2sh_in_size _ _ _ P)); [reflexivity|]. rewrite Z. apply three_keys, L. }
  split; [exact E|]. intros t w I W. unfold tx_to_bytes in W. apply bind_ok in W. destruct W as (b & B & _).
  assert (X : exists b, concat_bytes input_to_bytes (tx_inputs t) = Ok b) by eauto. apply concat_ok in X. rewrite Forall_forall in X. destruct (X _ I) as (x & Y). rewrite E in Y. discriminate.
Qed.

(** ** a transaction from keys to addresses *)
Lemma spends_key_size i : spends_key i -> (exists w, input_to_bytes i = Ok w) /\ input_size i <= 149.
Proof.
  intros (d & k & sig & D & L & C & B & P). destruct (proj1 (p2pk_in_size _ _ _ P)) as [Z (w & W)]; [change (blen sig <= 75); lia|]. split; [exact (write_input i w d W D)|].
  change (pyb_len (Str sig)) with (blen sig) in Z. unfold key_size in Z. rewrite C in Z. unfold input_size. rewrite (id_half _ _ D), L, (small_block _ _ Z) by lia. lia.
Qed.
Lemma estimate t : Forall spends_key (tx_inputs t) -> Forall to_address (tx_outputs t) ->
  exists w, tx_to_bytes t = Ok w /\ let n := blen (tx_inputs t) in let m := blen (tx_outputs t) in blen w <= 8 + int_size n + 149 * n + int_size m + 34 * m.
Proof.
  intros I O. assert (A : exists w, concat_bytes input_to_bytes (tx_inputs t) = Ok w). { apply concat_ok. eapply Forall_impl; [|exact I]. intros i Q. exact (proj1 (spends_key_size i Q)). }
  assert (OS : forall o, to_address o -> exists w, output_to_bytes o = Ok w /\ blen w = 34). { intros o (amt & a & V & C). exact (address_output_size amt a o V C). }
  assert (B : exists w, concat_bytes output_to_bytes (tx_outputs t) = Ok w). { apply concat_ok. eapply Forall_impl; [|exact O]. intros o Q. destruct (OS o Q) as (w & W & _). eauto. }
  destruct A as (a & A), B as (b & B).
  assert (W : exists w, tx_to_bytes t = Ok w) by (unfold tx_to_bytes; rewrite A; cbn [bind]; rewrite B; cbn [bind]; eauto).
  destruct W as (w & W). exists w. split; [exact W|]. cbv zeta. rewrite (tx_size_ok _ _ W). unfold tx_size.
  assert (TI : total input_size (tx_inputs t) <= 149 * blen (tx_inputs t)). { apply total_le. eapply Forall_impl; [|exact I]. intros i Q. exact (proj2 (spends_key_size i Q)). }
  assert (TO : total output_size (tx_outputs t) = 34 * blen (tx_outputs t)). { apply total_eq. eapply Forall_impl; [|exact O]. intros o Q. destruct (OS o Q) as (v & V & E). rewrite <- (output_size_ok _ _ V). exact E. }
  lia.
Qed.

(** ** what parsing may cost *)
Lemma wire_held i w : wire (content i) w -> 1 + match i_data i with Some d => pyb_len d | None => 0 end <= blen w /\ instr_size i <= blen w.
Proof.
  assert (D : forall d, option_map pyb_bytes (i_data i) = Some d -> match i_data i with Some d => pyb_len d | None => 0 end = blen d).
  { intros d. destruct (i_data i) as [x|]; cbn; [|discriminate]. intros H. injection H as <-. reflexivity. }
  assert (S : forall n, 0 <= n -> match i_data i with Some d => pyb_len d | None => 0 end = n -> instr_size i <= 1 + n). { intros n N <-. unfold instr_size. destruct (_ && _); lia. }
  intros H. remember (content i) as c eqn:E. destruct H as [o N|o d R L|o k lb d W LB L]; unfold content in E; injection E as E1 E2.
  - assert (N0 : match i_data i with Some d => pyb_len d | None => 0 end = 0). { destruct (i_data i); [discriminate|reflexivity]. } split; [rewrite N0; reflexivity|exact (S 0 ltac:(lia) N0)].
  - symmetry in E2. apply D in E2. specialize (S _ (blen_nonneg d) E2). rewrite blen_cons. lia.
  - symmetry in E2. apply D in E2. specialize (S _ (blen_nonneg d) E2). rewrite blen_cons, blen_app. pose proof (blen_nonneg lb). lia.
Qed.
Lemma wire_script_held l : forall w, wire_script (map content l) w ->
  total (fun i => 1 + match i_data i with Some d => pyb_len d | None => 0 end) l <= blen w /\ total instr_size l <= blen w.
Proof.
  induction l as [|i l IH]; intros w H; inversion H as [|c v l' r W R]; subst; [split; reflexivity|]. destruct (wire_held i v W) as [A B]. destruct (IH r R) as [C D]. rewrite blen_app.
  split; [change (1 + match i_data i with Some d => pyb_len d | None => 0 end + total (fun i => 1 + match i_data i with Some d => pyb_len d | None => 0 end) l <= blen v + blen r)
         |change (instr_size i + total instr_size l <= blen v + blen r)]; lia.
Qed.
Lemma script_parse_cost b s : script_from_bytes b = Ok s -> held s <= blen b.
Proof. intros H. apply script_from_bytes_iff in H. exact (proj1 (wire_script_held _ _ (proj1 H))). Qed.
Lemma any_size_cost n l : any_size n l -> 1 <= blen l /\ int_size n <= blen l.
Proof.
  unfold int_size. change (2 ^ 16) with 65536. change (2 ^ 32) with 4294967296. intros [(b & -> & _ & L)|[(d & -> & L & V)|[(d & -> & L & V)|(d & -> & L & V)]]].
  - replace (n <? 253) with true by lia. split; reflexivity.
  - pose proof (le_val_bound d) as B. rewrite L in B. change (256 ^ Z.of_nat 2) with 65536 in B. rewrite blen_cons. replace (blen d) with 2 by (unfold blen; rewrite L; reflexivity).
    replace (n <? 65536) with true by lia. destruct (n <? 253); lia.
  - pose proof (le_val_bound d) as B. rewrite L in B. change (256 ^ Z.of_nat 4) with 4294967296 in B. rewrite blen_cons. replace (blen d) with 4 by (unfold blen; rewrite L; reflexivity).
    replace (n <? 4294967296) with true by lia. destruct (n <? 253), (n <? 65536); lia.
  - rewrite blen_cons. replace (blen d) with 8 by (unfold blen; rewrite L; reflexivity). destruct (n <? 253), (n <? 65536), (n <? 4294967296); lia.
Qed.
Lemma sized_cost s w : sized_script any_size s w -> 1 + held s <= blen w /\ block_size s <= blen w.
Proof.
  intros (lb & sb & S & W & ->). destruct (any_size_cost _ _ S) as [A B]. destruct (wire_script_held _ _ W) as [C D]. rewrite blen_app. unfold held, block_size.
  fold (script_size s) in D. pose proof (int_size_mono _ _ D). split; lia.
Qed.
Lemma field_cost k n w : field k n w -> blen w = Z.of_nat k.
Proof. intros (L & _). unfold blen. rewrite L. reflexivity. Qed.
Lemma input_cost i w : input_wire any_size i w -> 41 + held (in_script i) <= blen w /\ input_size i <= blen w.
Proof.
  intros (id & ib & sb & qb & L & H & I & S & Q & ->). apply field_cost in I, Q. apply sized_cost in S. destruct S as [A B]. unfold input_size. rewrite (id_half _ _ H), blen_rev.
  assert (blen id = 32) as E by (unfold blen; rewrite L; reflexivity). rewrite !blen_app, I, Q, E. split; lia.
Qed.
Lemma output_cost o w : output_wire any_size o w -> 9 + held (out_script o) <= blen w /\ output_size o <= blen w.
Proof.
  intros (ab & sb & A & S & ->). apply field_cost in A. apply sized_cost in S. destruct S as [B C]. unfold output_size. rewrite !blen_app, A. split; lia.
Qed.
Lemma each_cost {A} (R : A -> bytes -> Prop) (f : A -> Z) l w : (forall a v, R a v -> f a <= blen v) -> each R l w -> total f l <= blen w.
Proof. intros H. induction 1 as [|a v l r X _ IH]; [reflexivity|]. change (f a + total f l <= blen (v ++ r)). rewrite blen_app. specialize (H a v X). lia. Qed.
Lemma tx_parse_cost b t : tx_from_bytes b = Ok t ->
  10 + total (fun i => 41 + held (in_script i)) (tx_inputs t) + total (fun o => 9 + held (out_script o)) (tx_outputs t) <= blen b /\ tx_size t <= blen b.
Proof.
  intros H. apply tx_from_bytes_ok in H. destruct H as (w & rest & -> & W & _). destruct W as (vb & nb & iw & mb & ow & lb & V & N & I & M & O & L & ->).
  apply field_cost in V, L. apply any_size_cost in N, M. destruct N as [N1 N2], M as [M1 M2].
  pose proof (each_cost _ _ _ _ (fun i v X => proj1 (input_cost i v X)) I) as I1. pose proof (each_cost _ _ _ _ (fun i v X => proj2 (input_cost i v X)) I) as I2.
  pose proof (each_cost _ _ _ _ (fun i v X => proj1 (output_cost i v X)) O) as O1. pose proof (each_cost _ _ _ _ (fun i v X => proj2 (output_cost i v X)) O) as O2.
  unfold tx_size. rewrite !blen_app. pose proof (blen_nonneg rest). split; lia.
Qed.
Lemma rewrite_shorter b t w : tx_from_bytes b = Ok t -> tx_to_bytes t = Ok w -> blen w <= blen b.
Proof. intros P W. rewrite (tx_size_ok _ _ W). exact (proj2 (tx_parse_cost b t P)). Qed.
Lemma held_nonneg s : 0 <= held s.
Proof. apply total_nonneg. intros i. destruct (i_data i) as [d|]; [|lia]. unfold pyb_len. pose proof (blen_nonneg (pyb_bytes d)). lia. Qed.
Lemma counts_bounded b t : tx_from_bytes b = Ok t -> 10 + 41 * blen (tx_inputs t) + 9 * blen (tx_outputs t) <= blen b.
Proof.
  intros H. apply tx_parse_cost in H. destruct H as [H _].
  assert (G : forall A (g : A -> script) c l, c * blen l <= total (fun a => c + held (g a)) l).
  { intros A g c l. induction l as [|a l IH]; [unfold blen; cbn; lia|]. rewrite blen_cons. change (c * (1 + blen l) <= c + held (g a) + total (fun a => c + held (g a)) l). pose proof (held_nonneg (g a)). lia. }
  pose proof (G _ in_script 41 (tx_inputs t)). pose proof (G _ out_script 9 (tx_outputs t)). lia.
Qed.

(** ** examples *)
(** the point of secp256k1 with abscissa 1 *)
Definition z_pub : pubkey := PublicKey (1, 0x4218f20ae6c646b363db68605822fb14264ca8d2587fdd6fbc750d587e76a7ee) livenet true.
Definition z_id : bytes := repeat x61 64.
Definition z_sg : signer := fun _ _ _ => repeat x30 72.
Lemma z_id_hex : exists d, hex_text z_id d /\ blen d = 32.
Proof. exists (repeat xaa 32). split; [|reflexivity]. apply decode_hex_iff. reflexivity. Qed.
Lemma ex_three : exists i i', multisig_input_create z_id 0 [z_pub; z_pub; z_pub] 2 5 = Ok i /\
  input_sign z_sg i [PrivateKey 1 livenet true; PrivateKey 1 livenet true] [] 1 = Ok i'.
Proof. eexists. eexists. split; [vm_compute; reflexivity|]. vm_compute. reflexivity. Qed.
Lemma ex_two : exists i i' w, multisig_input_create z_id 0 [z_pub; z_pub] 2 5 = Ok i /\
  input_sign z_sg i [PrivateKey 1 livenet true; PrivateKey 1 livenet true] [] 1 = Ok i' /\ input_to_bytes i' = Ok w /\ blen w = 262.
Proof. eexists. eexists. eexists. split; [vm_compute; reflexivity|]. split; [vm_compute; reflexivity|]. split; vm_compute; reflexivity. Qed.
Definition z_sig : bytes := repeat x30 73.
Definition z_in : input := Input C_Input z_id 0 (Script (Some PayToPubkeyIn) [Instr x49 (Some (Str z_sig)); Instr x21 (Some (Str (x02 :: repeat x00 31 ++ [x01])))]) 5.
Definition z_addr : address := Address (Str (repeat x07 20)) livenet T_PublicKey.
Definition z_out : output := Output C_AddressOutput 7 (Script (Some PayToPubkeyOut)
  [Instr x76 None; Instr xa9 None; Instr x14 (Some (Str (repeat x07 20))); Instr x88 None; Instr xac None]).
Lemma z_in_ok : p2pk_in_create z_pub (Str z_sig) = Ok (in_script z_in).
Proof. reflexivity. Qed.
Lemma z_out_ok : address_output_create 7 z_addr = Ok z_out.
Proof. reflexivity. Qed.
Lemma z_size : tx_size (Tx [z_in] [z_out] 0 1) = 193.
Proof. reflexivity. Qed.
Lemma ex_estimate : exists t w, Forall spends_key (tx_inputs t) /\ Forall to_address (tx_outputs t) /\ tx_inputs t <> [] /\ tx_outputs t <> [] /\ tx_to_bytes t = Ok w /\ blen w = 193.
Proof.
  destruct z_id_hex as (d & D & L).
  assert (I : Forall spends_key [z_in]). { constructor; [|constructor]. exists d, z_pub, z_sig. split; [exact D|]. split; [exact L|]. split; [reflexivity|]. split; [apply Z.leb_le; reflexivity|exact z_in_ok]. }
  assert (O : Forall to_address [z_out]). { constructor; [|constructor]. exists 7, z_addr. split; [|exact z_out_ok]. split; [unfold known; cbn; auto|]. eexists. split; reflexivity. }
  destruct (estimate (Tx [z_in] [z_out] 0 1) I O) as (w & W & _). exists (Tx [z_in] [z_out] 0 1), w. split; [exact I|]. split; [exact O|]. split; [discriminate|]. split; [discriminate|].
  split; [exact W|]. rewrite (tx_size_ok _ _ W). exact z_size.
Qed.
(** the bounds are reached *)
Lemma ex_tight : exists b t, tx_from_bytes b = Ok t /\ blen b = 10 + 41 * blen (tx_inputs t) + 9 * blen (tx_outputs t) /\ blen (tx_inputs t) = 2.
Proof.
  exists ([x01; x00; x00; x00; x02] ++ repeat x00 82 ++ [x01] ++ repeat x00 13). eexists. split; [vm_compute; reflexivity|]. split; reflexivity.
Qed.
