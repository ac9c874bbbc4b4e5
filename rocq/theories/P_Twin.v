(** Changing the signature inside a signed transaction. *)
From Coq Require Import ZArith Lia Bool List.
From Verif Require Import Base M_Hash M_Codec S_Codec P_Codec M_Keys S_Keys P_Keys M_EC S_EC P_DSA P_SigAlg M_Script S_Script P_Script M_Tx S_Tx P_Tx P_TxSign P_PubKey P_PubTx
  M_Sign S_Sign P_Sign P_SignTx P_Mall P_Local P_Size S_Twin.
Import ListNotations.
Open Scope Z_scope.

(** ** scripts with one push changed *)
Lemma const_wf b : 1 <= blen b <= 75 -> well_formed (Instr (Zb (blen b)) (Some (Str b))) /\ ~ pushdata (Zb (blen b)) /\ wire (content (Instr (Zb (blen b)) (Some (Str b)))) (Zb (blen b) :: b).
Proof.
  intros B. assert (Z : bZ (Zb (blen b)) = blen b) by (apply bZ_Zb; lia).
  split; [|split].
  - unfold well_formed, push_length. cbn [i_op i_data]. change (pyb_len (Str b)) with (blen b). lia.
  - unfold pushdata. lia.
  - unfold content. cbn [i_op i_data option_map pyb_bytes]. apply wire_const; lia.
Qed.
Lemma swap_writable c c' pre a a' post : writable (Script c (pre ++ a :: post)) -> short_script (pre ++ a :: post) ->
  well_formed a' -> ~ pushdata (i_op a') -> (forall w, wire (content a') w -> blen w < 1000) -> writable (Script c' (pre ++ a' :: post)).
Proof.
  unfold writable, short_script. cbn [s_ins]. intros (W & N & _) SS W' N' B. rewrite Forall_app, Forall_cons_iff in W, N. destruct W as (WP & WA & WQ), N as (NP & NA & NQ).
  split; [rewrite Forall_app, Forall_cons_iff; auto|]. split; [rewrite Forall_app, Forall_cons_iff; auto|].
  intros w H. rewrite map_app in H. cbn [map] in H. apply wire_script_app in H. destruct H as (w1 & w2 & -> & H1 & H2). inversion H2 as [|? u ? r HU HR]; subst.
  destruct (ins_to_bytes_plain a WA NA) as (ua & _ & UA). specialize (B u HU). specialize (SS (w1 ++ ua ++ r)). rewrite map_app in SS. cbn [map] in SS.
  assert (X : blen (w1 ++ ua ++ r) < 2 ^ 63) by (apply SS, wire_script_app; exists w1, (ua ++ r); split; [reflexivity|]; split; [exact H1|constructor; assumption]).
  rewrite !blen_app in *. pose proof (blen_nonneg w1). pose proof (blen_nonneg u). pose proof (blen_nonneg r). pose proof (blen_nonneg ua). unfold u64. lia.
Qed.
Lemma Forall_nth {A} (P : A -> Prop) l : (forall j a, nth_error l j = Some a -> P a) -> Forall P l.
Proof. intros H. apply Forall_forall. intros a I. apply In_nth_error in I. destruct I as (j & J). exact (H j a J). Qed.
Lemma nth_Forall {A} (P : A -> Prop) l j a : Forall P l -> nth_error l j = Some a -> P a.
Proof. intros F N. apply nth_error_In in N. rewrite Forall_forall in F. exact (F a N). Qed.

(** [t] with another script in input [j] *)
Definition put (j : nat) (s : script) (t : tx) : tx :=
  Tx (mapi_from (fun i x => if i =? Z.of_nat j then input_replace_script x s else x) 0 (tx_inputs t)) (tx_outputs t) (tx_lock_time t) (tx_version t).
Lemma put_nth j s t k : nth_error (tx_inputs (put j s t)) k = option_map (fun x => if (k =? j)%nat then input_replace_script x s else x) (nth_error (tx_inputs t) k).
Proof.
  unfold put. cbn [tx_inputs]. rewrite mapi_nth, Z.add_0_l. destruct (nth_error (tx_inputs t) k); [|reflexivity]. cbn [option_map]. f_equal.
  destruct (Nat.eqb_spec k j) as [->|K]; [rewrite Z.eqb_refl; reflexivity|]. destruct (Z.eqb_spec (Z.of_nat k) (Z.of_nat j)); [lia|reflexivity].
Qed.
Lemma put_rescripted j s t i : nth_error (tx_inputs t) j = Some i -> rescripted j (s_ins (in_script i)) (s_ins s) t (put j s t).
Proof.
  intros N. split; [reflexivity|]. split; [reflexivity|]. split; [reflexivity|]. split.
  - split; [unfold put; cbn [tx_inputs]; symmetry; apply mapi_length|]. intros k K. rewrite put_nth. destruct (Nat.eqb_spec k j); [contradiction|]. destruct (nth_error (tx_inputs t) k); reflexivity.
  - exists i, (input_replace_script i s). split; [exact N|]. split; [rewrite put_nth, N, Nat.eqb_refl; reflexivity|]. split; [repeat split|]. split; reflexivity.
Qed.
Lemma put_fits j s t i : tx_fits t -> nth_error (tx_inputs t) j = Some i -> writable s -> tx_fits (put j s t).
Proof.
  intros (V & L & NI & LI & FI & NO & LO & FO) N W. split; [exact V|]. split; [exact L|].
  assert (LN : List.length (tx_inputs (put j s t)) = List.length (tx_inputs t)) by (unfold put; cbn [tx_inputs]; apply mapi_length).
  split; [intros E; rewrite E in LN; destruct (tx_inputs t); [apply NI; reflexivity|discriminate LN]|]. split; [unfold blen in *; rewrite LN; exact LI|].
  split; [|split; [exact NO|split; [exact LO|exact FO]]].
  apply Forall_nth. intros k x K. rewrite put_nth in K. destruct (nth_error (tx_inputs t) k) as [y|] eqn:Y; [|discriminate]. cbn [option_map] in K.
  pose proof (nth_Forall _ _ _ _ FI Y) as (F1 & F2 & F3 & F4 & F5). destruct (k =? j)%nat; injection K as <-; [split; [exact F1|split; [exact F2|split; [exact F3|split; [exact F4|exact W]]]]|].
  split; [exact F1|split; [exact F2|split; [exact F3|split; [exact F4|exact F5]]]].
Qed.

(** ** other messages *)
Lemma rescripted_message j l l' t t' k st m : rescripted j l l' t t' -> k <> j -> (signing_message t' k st m <-> signing_message t k st m).
Proof.
  intros (EO & EL & EV & (LN & EQ) & i & i' & NI & NI' & (S1 & S2 & S3) & _) K.
  assert (ST : forall r, stripped k (tx_inputs t') r <-> stripped k (tx_inputs t) r).
  { assert (SI : strip_script i' = strip_script i) by (unfold strip_script; rewrite S1, S2, S3; reflexivity).
    intros r. unfold stripped. rewrite LN. split; intros (LR & H); (split; [exact LR|]); intros q x Q.
    - destruct (Nat.eq_dec q j) as [->|QJ]; [|apply H; rewrite <- EQ; assumption]. rewrite NI in Q. injection Q as <-. specialize (H j i' NI'). destruct (Nat.eqb_spec j k); [congruence|]. rewrite H, SI. reflexivity.
    - destruct (Nat.eq_dec q j) as [->|QJ]; [|apply H; rewrite EQ; assumption]. rewrite NI' in Q. injection Q as <-. specialize (H j i NI). destruct (Nat.eqb_spec j k); [congruence|]. rewrite H, SI. reflexivity. }
  unfold signing_message. rewrite EO, EL, EV. split; intros (r & w & tb & A & B); exists r, w, tb; (split; [apply ST, A|exact B]).
Qed.

(** ** different signatures, different bytes *)
Lemma der_pair r s r' s' b : der_sig r s b -> der_sig r' s' b -> r = r' /\ s = s'.
Proof. intros A B. exact (lax_fun _ _ _ _ _ (der_lax _ _ _ A) (der_lax _ _ _ B)). Qed.
Lemma Forall2_at {A B} (R : A -> B -> Prop) l l' j a b : Forall2 R l l' -> nth_error l j = Some a -> nth_error l' j = Some b -> R a b.
Proof. intros F. revert j. induction F as [|x y l l' XY F IH]; intros [|j] X Y; try discriminate; [injection X as ->; injection Y as ->; exact XY|exact (IH j X Y)]. Qed.
Lemma bytes_differ t t' j i i' pre pre' a a' post post' r s h r' s' h' w w' : tx_fits t -> tx_fits t' -> nth_error (tx_inputs t) j = Some i -> nth_error (tx_inputs t') j = Some i' ->
  s_ins (in_script i) = pre ++ a :: post -> s_ins (in_script i') = pre' ++ a' :: post' -> List.length pre = List.length pre' -> pushes_sig r s h a -> pushes_sig r' s' h' a' ->
  (r, s) <> (r', s') -> tx_to_bytes t = Ok w -> tx_to_bytes t' = Ok w' -> w <> w'.
Proof.
  intros F F' N N' E E' L (_ & der & DS & DA) (_ & der' & DS' & DA') NE W W' EQ. subst w'. destruct (tx_bytes_injective _ _ _ F F' W W') as (S & _).
  unfold lower_ids in S. cbn [tx_inputs] in S. pose proof (map_nth_error lower_input _ _ N) as M. pose proof (map_nth_error lower_input _ _ N') as M'.
  destruct (Forall2_at _ _ _ _ _ _ S M M') as (_ & _ & SS & _). unfold same_script in SS. cbn [lower_input in_script] in SS. rewrite E, E', !map_app in SS. cbn [map] in SS.
  assert (LM : List.length (map content pre) = List.length (map content pre')) by (rewrite !map_length; exact L).
  assert (AA : content a = content a').
  { apply (f_equal (fun l => nth_error l (List.length (map content pre)))) in SS. rewrite nth_error_app2, LM, nth_error_app2, Nat.sub_diag in SS by lia. cbn [nth_error] in SS. congruence. }
  unfold content in AA. rewrite DA, DA' in AA. assert (DD : der ++ [h] = der' ++ [h']) by congruence. apply app_inj_tail in DD. destruct DD as (<- & _).
  apply NE. destruct (der_pair _ _ _ _ _ DS DS') as (-> & ->). reflexivity.
Qed.

(** ** the twin *)
Lemma order_odd s : curve_order - s <> s.
Proof. pose proof half_order as H. revert H. generalize ((curve_order - 1) / 2). intros q H. lia. Qed.
Lemma order_small : curve_order < 2 ^ 256. Proof. reflexivity. Qed.
Lemma der_push r s h : 0 <= r < 2 ^ 256 -> 0 <= s < 2 ^ 256 -> exists a, pushes_sig r s h a /\ ~ pushdata (i_op a) /\ (forall w, wire (content a) w -> blen w < 1000) /\
  exists der, der_sig r s der /\ a = Instr (Zb (blen (der ++ [h]))) (Some (Str (der ++ [h]))).
Proof.
  intros R S. destruct (sigencode_ok r s R S) as (DS & L1 & L2). set (der := sigencode_der r s) in *. clearbody der.
  assert (B : 1 <= blen (der ++ [h]) <= 75) by (rewrite blen_app; change (blen [h]) with 1; lia).
  destruct (const_wf _ B) as (W & N & X). exists (Instr (Zb (blen (der ++ [h]))) (Some (Str (der ++ [h])))).
  split; [split; [exact W|exists der; split; [exact DS|reflexivity]]|]. split; [exact N|]. split; [|exists der; split; [exact DS|reflexivity]].
  intros w H. remember (content _) as c eqn:C in H. destruct H as [o P|o d O D|o k lb d LW LB LV].
  - discriminate C.
  - unfold content in C. cbn [i_op i_data option_map pyb_bytes] in C. rewrite blen_cons. assert (d = der ++ [h]) as -> by congruence. lia.
  - exfalso. unfold content in C. cbn [i_op i_data] in C. assert (o = Zb (blen (der ++ [h]))) as -> by congruence. apply N. unfold pushdata. unfold length_width in LW. lia.
Qed.
Lemma twin t j i pre a post r s h : tx_fits t -> nth_error (tx_inputs t) j = Some i -> s_ins (in_script i) = pre ++ a :: post -> short_script (pre ++ a :: post) ->
  pushes_sig r s h a -> 0 <= r < 2 ^ 256 -> 0 <= s <= curve_order ->
  exists a' t' w w', pushes_sig r (curve_order - s) h a' /\ (exists b, i_data a' = Some (Str b)) /\ rescripted j (pre ++ a :: post) (pre ++ a' :: post) t t' /\ tx_fits t' /\
    tx_to_bytes t = Ok w /\ tx_to_bytes t' = Ok w' /\ w <> w'.
Proof.
  intros F N E SH PS R S. pose proof order_small as OS. destruct (der_push r (curve_order - s) h R ltac:(clear -S OS; lia)) as (a' & PS' & NP & BW & der & _ & EA).
  assert (WR : writable (Script None (pre ++ a' :: post))).
  { apply (swap_writable (s_class (in_script i)) None pre a a' post); [|exact SH|exact (proj1 PS')|exact NP|exact BW].
    destruct F as (_ & _ & _ & _ & FI & _). pose proof (nth_Forall _ _ _ _ FI N) as (_ & _ & _ & _ & W). unfold writable in *. cbn [s_ins]. rewrite <- E. exact W. }
  set (t' := put j (Script None (pre ++ a' :: post)) t). assert (F' : tx_fits t') by (apply (put_fits j _ t i F N WR)).
  destruct (tx_write_total t F) as (w & W), (tx_write_total t' F') as (w' & W'). exists a', t', w, w'.
  split; [exact PS'|]. split; [rewrite EA; eexists; reflexivity|]. split; [rewrite <- E; apply (put_rescripted j (Script None (pre ++ a' :: post)) t i N)|]. split; [exact F'|]. split; [exact W|]. split; [exact W'|].
  assert (N' : nth_error (tx_inputs t') j = Some (input_replace_script i (Script None (pre ++ a' :: post)))) by (unfold t'; rewrite put_nth, N, Nat.eqb_refl; reflexivity).
  apply (bytes_differ t t' j i _ pre pre a a' post post r s h r (curve_order - s) h w w' F F' N N' E eq_refl eq_refl PS PS'); [|exact W|exact W'].
  intros X. assert (Y : s = curve_order - s) by congruence. apply (order_odd s). symmetry. exact Y.
Qed.

(** ** signed address inputs *)
Lemma bytes_push b i : to_instruction (I_Bytes (Str b)) = Ok i -> blen b <= 75 -> well_formed i /\ ~ pushdata (i_op i) /\ is_a_push i /\ i_data i = Some (Str b) /\ 1 <= blen b.
Proof.
  intros H L. destruct (to_instruction_bytes _ _ H) as (b' & E & B & D & P & W). injection E as <-. split; [exact W|]. split; [|split; [exact P|split; [exact D|exact (proj1 B)]]].
  cbn [to_instruction] in H. apply bind_ok in H. destruct H as (o & O & H). apply op_push_for_ok in O. apply new_instr_ok in H. destruct H as (-> & _). cbn [i_op]. unfold pushdata. lia.
Qed.
Lemma push_width a w : well_formed a -> ~ pushdata (i_op a) -> wire (content a) w -> blen w <= 76.
Proof.
  intros W N H. remember (content a) as c eqn:C. destruct H as [o P|o d O D|o k lb d LW LB LV].
  - change (blen [o]) with 1. lia.
  - rewrite blen_cons. lia.
  - exfalso. apply N. unfold content in C. assert (i_op a = o) as -> by congruence. unfold pushdata. unfold length_width in LW. lia.
Qed.
Lemma two_pushes a b : well_formed a -> ~ pushdata (i_op a) -> well_formed b -> ~ pushdata (i_op b) -> short_script [a; b] /\ forall c, writable (Script c [a; b]).
Proof.
  intros WA NA WB NB. assert (H : forall w, wire_script (map content [a; b]) w -> blen w <= 152).
  { intros w H. cbn [map] in H. inversion H as [|? u ? r HU HR]; subst. inversion HR as [|? u' ? r' HU' HR']; subst. inversion HR'; subst. rewrite !blen_app. change (blen (@nil byte)) with 0.
    pose proof (push_width a u WA NA HU). pose proof (push_width b u' WB NB HU'). lia. }
  split; [intros w X; apply H in X; lia|]. intros c. split; [repeat constructor; assumption|]. split; [repeat constructor; assumption|]. cbn [s_ins]. intros w X. pose proof (blen_nonneg w). apply H in X. unfold u64. lia.
Qed.
Lemma address_signed sg i k p st i' : in_class_of i = C_AddressInput -> input_sign sg i [k] p st = Ok i' -> blen (sg 0%nat (k_secret k) p) <= 74 ->
  exists a b kb, s_ins (in_script i') = [a; b] /\ i_data a = Some (Str (sg 0%nat (k_secret k) p ++ [Zb st])) /\ i_data b = Some (Str kb) /\ well_formed a /\ is_a_push b /\
    short_script [a; b] /\ writable (in_script i').
Proof.
  intros C S L. unfold input_sign in S. rewrite C in S. apply bind_ok in S. destruct S as (pub & _ & S). apply bind_ok in S. destruct S as (c & PC & S). apply bind_ok in S. destruct S as (s & PS & S).
  injection S as <-. unfold py_chr in PC. destruct ((0 <=? st) && (st <? 256)); [|discriminate]. injection PC as <-. unfold p2pk_in_create in PS. apply bind_ok in PS. destruct PS as (kb & KB & PS).
  assert (LK : blen kb <= 75) by (pose proof (P_Size.key_size_ok pub kb KB) as X; destruct (P_Size.key_size_range pub) as [Y|Y]; rewrite X, Y; discriminate).
  apply sub_create_inv in PS. destruct PS as (_ & F). cbn [input_replace_script in_script]. inversion F as [|x a ? l1 H1 F1 X1 Y1]; subst. inversion F1 as [|x b ? l2 H2 F2 X2 Y2]; subst. inversion F2; subst.
  assert (L' : blen (sg 0%nat (k_secret k) p ++ [Zb st]) <= 75) by (rewrite blen_app; change (blen [Zb st]) with 1; lia).
  destruct (bytes_push _ _ H1 L') as (WA & NA & _ & DA & _), (bytes_push _ _ H2 LK) as (WB & NB & PB & DB & _).
  destruct (two_pushes a b WA NA WB NB) as (SH & WR). exists a, b, kb. split; [reflexivity|]. split; [exact DA|]. split; [exact DB|]. split; [exact WA|]. split; [exact PB|]. split; [exact SH|].
  specialize (WR (s_class s)). unfold writable in *. cbn [s_ins] in WR. rewrite <- Y1. exact WR.
Qed.
Lemma signed_fits sg t keys j st t' i i' : tx_fits t -> tx_sign sg t keys (Z.of_nat j) st = Ok t' -> nth_error (tx_inputs t) j = Some i -> nth_error (tx_inputs t') j = Some i' -> writable (in_script i') -> tx_fits t'.
Proof.
  intros (V & L & NI & LI & FI & NO & LO & FO) S N N' W. destruct (sign_frame sg t keys (Z.of_nat j) st t' ltac:(lia) S) as (EO & EL & EV & (LN & EQ) & x & x' & X & X' & (S1 & S2 & S3) & _). rewrite Nat2Z.id in *.
  rewrite N in X. injection X as <-. rewrite N' in X'. injection X' as <-.
  unfold tx_fits. rewrite EO, EL, EV. split; [exact V|]. split; [exact L|]. split; [intros E; rewrite E in LN; destruct (tx_inputs t); [apply NI; reflexivity|discriminate LN]|].
  split; [unfold blen in *; rewrite <- LN; exact LI|]. split; [|auto]. apply Forall_nth. intros k y K. destruct (Nat.eq_dec k j) as [->|KJ].
  - rewrite N' in K. injection K as <-. pose proof (nth_Forall _ _ _ _ FI N) as (F1 & F2 & F3 & F4 & F5). unfold input_fits. rewrite <- S1, <- S2, <- S3. auto.
  - rewrite <- (EQ k KJ) in K. exact (nth_Forall _ _ _ _ FI K).
Qed.
Lemma sign_short k nonce m b : 0 < nonce < curve_order -> priv_sign k nonce m = SOk b -> blen b <= 72.
Proof.
  intros N E. destruct (Z.ltb_spec 0 (k_secret k)) as [A|A]; [|rewrite (sign_secret_range k nonce m) in E by (clear -A; lia); discriminate].
  destruct (Z.ltb_spec (k_secret k) curve_order) as [A'|A']; [|rewrite (sign_secret_range k nonce m) in E by (clear -A'; lia); discriminate].
  destruct (pp_exists _ (conj A A')) as (x & y & P).
  destruct (Z.ltb_spec x curve_order) as [X|X]; [|rewrite (sign_point_range k x y nonce m P) in E by (clear -X; lia); discriminate].
  destruct (Z.ltb_spec y curve_order) as [Y|Y]; [|rewrite (sign_point_range k x y nonce m P) in E by (clear -Y; lia); discriminate].
  destruct (sign_made k x y nonce m b P X Y N E) as (r & yr & s & _ & R & DS & S & _). pose proof order_small as OS. pose proof p_lt as PL.
  destruct (sigencode_ok r s) as (DS' & _ & L); [clear -R PL; lia|clear -S OS; lia|]. rewrite (der_sig_unique _ _ _ _ DS DS'). exact L.
Qed.
Lemma address_twin id n a q t j k i nonce sg st t' : address_input_create id n a q = Ok i -> nth_error (tx_inputs t) j = Some i -> tx_fits t ->
  valid_key k -> address_can_sign i [k] = Ok true -> 0 < nonce < curve_order -> (forall r yr, public_point nonce r yr -> r < curve_order) ->
  (forall m, signing_message t j st m -> priv_sign k nonce (sha256 (sha256 m)) = SOk (sg 0%nat (k_secret k) (sha256 (sha256 m)))) ->
  tx_sign sg t [k] (Z.of_nat j) st = Ok t' ->
  exists m kb x y r s l l' t2 w w', signing_message t j st m /\ public_point (k_secret k) x y /\ low_s s /\
    redeems_with (pyb_bytes (a_phash a)) (sha256 (sha256 m)) st kb x y r s l /\ redeems_with (pyb_bytes (a_phash a)) (sha256 (sha256 m)) st kb x y r (curve_order - s) l' /\
    rescripted j l l' t' t2 /\ tx_to_bytes t' = Ok w /\ tx_to_bytes t2 = Ok w' /\ w <> w'.
Proof.
  intros A NT F V C N RN E S. destruct (tx_sign_inv _ _ _ _ _ _ S) as (m & inp & i' & M & PI & IS & _ & _ & _ & T'). apply py_index_nat in PI. rewrite NT in PI. injection PI as <-.
  pose proof (proj1 (address_create_ok _ _ _ _ _ A)) as CL.
  destruct (address_sign_ok _ _ _ _ _ _ CL IS) as (pub & kb & EP & EB & ST & _ & SH & GS & DD).
  assert (U : u32 st) by (unfold u32; clear -ST; lia).
  assert (SM : signing_message t j st m) by (apply (preimage_message t j st m F U), M). specialize (E m SM).
  assert (NI : nth_error (tx_inputs t') j = Some i'). { rewrite T'. cbn [tx_inputs]. rewrite mapi_nth, NT. cbn [option_map]. rewrite Z.add_0_l, Z.eqb_refl. reflexivity. }
  pose proof (sign_short k nonce _ _ N E) as SL.
  destruct (address_signed sg i k _ st i' CL IS ltac:(clear -SL; lia)) as (a0 & b0 & kb0 & EL & DA & DB & WA & PB & SH' & WR).
  pose proof (signed_fits sg t [k] j st t' i i' F S NT NI WR) as F'.
  destruct (address_can_sign_spec id n a q i k A V) as (p & h & bb & EP' & KH & C' & I). rewrite C in C'. injection C' as <-. pose proof (proj1 I eq_refl) as H.
  unfold priv_to_public_key in EP. rewrite EP' in EP. injection EP as <-. destruct (pk_point k p V EP') as (P & ON). destruct KH as (kb' & SO & HH).
  destruct (valid_key_usable k V) as (p' & EP & U' & _). rewrite EP' in EP. injection EP as <-. destruct (usable_bytes p U') as (b' & EB' & SO' & _). rewrite EB in EB'. injection EB' as <-.
  rewrite <- (sec_unique _ _ _ _ _ SO SO') in *. unfold data_at in DD. rewrite EL in DD. cbn [nth_error] in DD. rewrite DB in DD. injection DD as ->.
  destruct (sign_accepts k _ _ nonce _ _ st P N E RN) as (der & r & s & ES & DS & LS & VA). apply app_inj_tail in ES. destruct ES as (ES & _).
  assert (PS : pushes_sig r s (Zb st) a0) by (split; [exact WA|exists der; split; [exact DS|rewrite DA, ES; reflexivity]]).
  assert (SR : 0 <= s <= curve_order). { pose proof half_order as HO. revert HO LS. generalize ((curve_order - 1) / 2). intros z HO LS. clear -HO LS. lia. }
  assert (RR : 0 <= r < 2 ^ 256). { destruct VA as (VR & _). pose proof order_small as OS. clear -VR OS. lia. }
  destruct (twin t' j i' [] a0 [b0] r s (Zb st) F' NI EL SH' PS RR SR) as (a' & t2 & w & w' & PS' & _ & RS & F2 & W & W' & NE).
  exists m, kb', (fst (pk_pair p)), (snd (pk_pair p)), r, s, [a0; b0], [a'; b0], t2, w, w'. split; [exact SM|]. split; [exact P|]. split; [exact LS|].
  assert (HK : ripemd160 (sha256 kb') = pyb_bytes (a_phash a)) by congruence.
  split; [exists a0, b0, (pk_compressed p); auto 10|]. split; [|split; [exact RS|split; [exact W|split; [exact W'|exact NE]]]].
  exists a', b0, (pk_compressed p). split; [reflexivity|]. split; [exact PS'|]. split; [exact PB|]. split; [exact DB|]. split; [exact HK|]. split; [exact SO|]. split; [exact ON|].
  exact (proj1 (secp_mirror _ _ _ _ _ _ P) VA).
Qed.

(** ** how many signatures with the same [r] there are *)
Lemma only_two d x y e r s s' : public_point d x y -> secp_p <= r + curve_order -> secp_valid x y e r s -> secp_valid x y e r s' -> s' = s \/ s' = curve_order - s.
Proof.
  intros P R V V'. pose proof (proj1 (pp_pair d x y P)) as E. rewrite <- key_max_order in R |- *.
  exact (verify_only_two secp256k1 secp_gx secp_gy key_max secp_group d x y e r s s' E R (proj2 (secp_verify_spec d x y e r s P) V) (proj2 (secp_verify_spec d x y e r s' P) V')).
Qed.
Lemma low_unique d h digest st kb x y r s s' l l' : public_point d x y -> secp_p <= r + curve_order -> low_s s -> low_s s' ->
  redeems_with h digest st kb x y r s l -> redeems_with h digest st kb x y r s' l' ->
  s = s' /\ map (fun a => option_map pyb_bytes (i_data a)) l = map (fun a => option_map pyb_bytes (i_data a)) l'.
Proof.
  intros P R L L' (a & b & c & -> & (_ & der & DS & DA) & _ & DB & _ & _ & _ & V) (a' & b' & c' & -> & (_ & der' & DS' & DA') & _ & DB' & _ & _ & _ & V').
  assert (E : s = s'). { pose proof (only_two d x y _ r s s' P R V V') as T. pose proof half_order as HO. unfold low_s in *. revert HO L L'. generalize ((curve_order - 1) / 2). intros z HO L L'. clear -T HO L L'. lia. }
  split; [exact E|]. subst s'. cbn [map]. rewrite DA, DA', DB, DB', (der_sig_unique _ _ _ _ DS DS'). reflexivity.
Qed.

(** ** two random numbers *)
Lemma two_nonces t j k i st sg sg' nonce nonce' r r' yr yr' t1 t2 w1 w2 : in_class_of i = C_AddressInput -> nth_error (tx_inputs t) j = Some i -> tx_fits t -> 0 < nonce < curve_order -> 0 < nonce' < curve_order ->
  public_point nonce r yr -> public_point nonce' r' yr' -> r <> r' ->
  (forall m, signing_message t j st m -> priv_sign k nonce (sha256 (sha256 m)) = SOk (sg 0%nat (k_secret k) (sha256 (sha256 m))) /\
     priv_sign k nonce' (sha256 (sha256 m)) = SOk (sg' 0%nat (k_secret k) (sha256 (sha256 m)))) ->
  tx_sign sg t [k] (Z.of_nat j) st = Ok t1 -> tx_sign sg' t [k] (Z.of_nat j) st = Ok t2 -> tx_to_bytes t1 = Ok w1 -> tx_to_bytes t2 = Ok w2 -> w1 <> w2.
Proof.
  intros CL NT F N N' Q Q' RR E S S' W W'.
  destruct (tx_sign_inv _ _ _ _ _ _ S) as (m & inp & i1 & M & PI & IS & _ & _ & _ & T1). apply py_index_nat in PI. rewrite NT in PI. injection PI as <-.
  destruct (tx_sign_inv _ _ _ _ _ _ S') as (m' & inp & i2 & M' & PI & IS' & _ & _ & _ & T2). apply py_index_nat in PI. rewrite NT in PI. injection PI as <-.
  rewrite M in M'. injection M' as <-.
  assert (U : u32 st). { destruct (address_sign_ok _ _ _ _ _ _ CL IS) as (? & ? & _ & _ & B & _). unfold u32. clear -B. lia. }
  assert (SM : signing_message t j st m) by (apply (preimage_message t j st m F U), M). destruct (E m SM) as (E1 & E2).
  assert (NI : nth_error (tx_inputs t1) j = Some i1). { rewrite T1. cbn [tx_inputs]. rewrite mapi_nth, NT. cbn [option_map]. rewrite Z.add_0_l, Z.eqb_refl. reflexivity. }
  assert (NI' : nth_error (tx_inputs t2) j = Some i2). { rewrite T2. cbn [tx_inputs]. rewrite mapi_nth, NT. cbn [option_map]. rewrite Z.add_0_l, Z.eqb_refl. reflexivity. }
  assert (HS : forall sg nonce r yr i', 0 < nonce < curve_order -> public_point nonce r yr -> priv_sign k nonce (sha256 (sha256 m)) = SOk (sg 0%nat (k_secret k) (sha256 (sha256 m))) ->
    input_sign sg i [k] (sha256 (sha256 m)) st = Ok i' -> writable (in_script i') /\ exists a b s, s_ins (in_script i') = [] ++ a :: [b] /\ pushes_sig r s (Zb st) a).
  { clear -CL. intros sg nonce r yr i' N Q E IS. pose proof (sign_short k nonce _ _ N E) as SL.
    destruct (address_signed sg i k _ st i' CL IS ltac:(clear -SL; lia)) as (a & b & kb & EL & DA & _ & WA & _ & _ & WR). split; [exact WR|].
    destruct (Z.ltb_spec 0 (k_secret k)) as [A|A]; [|rewrite (sign_secret_range k nonce) in E by (clear -A; lia); discriminate].
    destruct (Z.ltb_spec (k_secret k) curve_order) as [A'|A']; [|rewrite (sign_secret_range k nonce) in E by (clear -A'; lia); discriminate].
    destruct (pp_exists _ (conj A A')) as (x & y & P).
    destruct (Z.ltb_spec x curve_order) as [X|X]; [|rewrite (sign_point_range k x y nonce _ P) in E by (clear -X; lia); discriminate].
    destruct (Z.ltb_spec y curve_order) as [Y|Y]; [|rewrite (sign_point_range k x y nonce _ P) in E by (clear -Y; lia); discriminate].
    destruct (sign_made k x y nonce _ _ P X Y N E) as (r0 & yr0 & s & Q0 & _ & DS & _). destruct (pp_fun _ _ _ _ _ Q0 Q) as (-> & _).
    exists a, b, s. split; [exact EL|]. split; [exact WA|]. eexists. split; [exact DS|]. rewrite DA. reflexivity. }
  destruct (HS sg nonce r yr i1 N Q E1 IS) as (WR & a & b & s & EL & PS). destruct (HS sg' nonce' r' yr' i2 N' Q' E2 IS') as (WR' & a' & b' & s' & EL' & PS').
  apply (bytes_differ t1 t2 j i1 i2 [] [] a a' [b] [b'] r s (Zb st) r' s' (Zb st) w1 w2 (signed_fits sg t [k] j st t1 i i1 F S NT NI WR) (signed_fits sg' t [k] j st t2 i i2 F S' NT NI' WR') NI NI' EL EL' eq_refl PS PS'); [congruence|exact W|exact W'].
Qed.

(** ** examples *)
Definition thrice_x : Z := 0xf9308a019258c31049344f85f89d5229b531c845836f99b08601f113bce036f9.
Definition thrice_y : Z := 0x388f7b0f632de8140fe337e62a37f3566500a99934c2231b6cb9fd7584b8e672.
Lemma pp_three : public_point 3 thrice_x thrice_y.
Proof.
  split; [split; reflexivity|]. destruct pp_two as (_ & M). apply (mult_S secp_p 0 (EA secp_gx secp_gy) 2 (EA twice_x twice_y)); [discriminate|exact M|].
  apply (sum_chord secp_p 0 twice_x twice_y secp_gx secp_gy 0x342119815c0f816f31f431a9fe98a6c76d11425ecaeaecf2d0ef6def197c56b0); [vm_compute; discriminate|vm_compute; reflexivity..].
Qed.
(** two of the numbers 1, 2 and 3 make a signature with the key 1, whatever the digest is *)
Lemma ex_three digest : exists n1 r1 y1 n2 r2 y2, public_point n1 r1 y1 /\ public_point n2 r2 y2 /\ r1 < curve_order /\ r2 < curve_order /\ r1 <> r2 /\
  signable w_k1 r1 digest /\ signable w_k1 r2 digest.
Proof.
  assert (T : (secp_gx - twice_x) mod curve_order <> 0 /\ (secp_gx - thrice_x) mod curve_order <> 0 /\ (twice_x - thrice_x) mod curve_order <> 0) by (split; [|split]; vm_compute; discriminate).
  assert (B : secp_gx < curve_order /\ twice_x < curve_order /\ thrice_x < curve_order) by (split; [|split]; reflexivity).
  destruct B as (B1 & B2 & B3), T as (T12 & T13 & T23).
  assert (D : forall a b, (a - b) mod curve_order <> 0 -> signable w_k1 a digest \/ signable w_k1 b digest).
  { clear. intros a b T. unfold signable. change (k_secret w_k1) with 1. rewrite !Z.mul_1_l. generalize (be_val digest). intros z.
    destruct (Z.eq_dec ((z + a) mod curve_order) 0) as [E|E]; [right|left; exact E]. intros E'. apply T. replace (a - b) with ((z + a) - (z + b)) by ring. rewrite Zminus_mod, E, E'. reflexivity. }
  assert (N : forall a b, (a - b) mod curve_order <> 0 -> a <> b) by (clear; intros a b T ->; apply T; rewrite Z.sub_diag; reflexivity).
  destruct (D _ _ T12) as [S1|S2].
  - destruct (D _ _ T23) as [S2|S3].
    + exists 1, secp_gx, secp_gy, 2, twice_x, twice_y. split; [exact pp_one|]. split; [exact pp_two|]. auto.
    + exists 1, secp_gx, secp_gy, 3, thrice_x, thrice_y. split; [exact pp_one|]. split; [exact pp_three|]. auto.
  - destruct (D _ _ T13) as [S1|S3].
    + exists 1, secp_gx, secp_gy, 2, twice_x, twice_y. split; [exact pp_one|]. split; [exact pp_two|]. auto.
    + exists 2, twice_x, twice_y, 3, thrice_x, thrice_y. split; [exact pp_two|]. split; [exact pp_three|]. auto.
Qed.
Lemma ex_twins : let a := Address (Str (ripemd160 (sha256 (x02 :: be_bytes 32 secp_gx)))) livenet T_PublicKey in
  exists i t n1 r1 y1 n2 r2 y2 t1 t2, address_input_create (repeat x61 64) 0 a 4294967295 = Ok i /\ t = Tx [i] [Output C_Output 5 (Script None [])] 0 1 /\ tx_fits t /\ valid_key w_k1 /\
    address_can_sign i [w_k1] = Ok true /\ public_point n1 r1 y1 /\ public_point n2 r2 y2 /\ r1 < curve_order /\ r2 < curve_order /\ r1 <> r2 /\
    (forall m, signing_message t 0 1 m -> priv_sign w_k1 n1 (sha256 (sha256 m)) = SOk (real_signer (fun _ => n1) 0%nat (k_secret w_k1) (sha256 (sha256 m))) /\
       priv_sign w_k1 n2 (sha256 (sha256 m)) = SOk (real_signer (fun _ => n2) 0%nat (k_secret w_k1) (sha256 (sha256 m)))) /\
    tx_sign (real_signer (fun _ => n1)) t [w_k1] 0 1 = Ok t1 /\ tx_sign (real_signer (fun _ => n2)) t [w_k1] 0 1 = Ok t2.
Proof.
  intros a. destruct G_below as (GX & GY). destruct w_facts as (V1 & _). destruct ex_spend as (i & t & _ & _ & _ & _ & C & ET & F & CS & _). fold a in C.
  assert (NT : nth_error (tx_inputs t) 0 = Some i) by (rewrite ET; reflexivity).
  assert (ST : 0 <= 1 <= 255) by (split; discriminate). assert (U1 : u32 1) by (split; reflexivity || discriminate).
  destruct (preimage_total t 0 1 F) as (m & M).
  destruct (ex_three (sha256 (sha256 m))) as (n1 & r1 & y1 & n2 & r2 & y2 & P1 & P2 & R1 & R2 & NE & S1 & S2).
  assert (L : 1 <= blen (sha256 (sha256 m)) <= 32) by (rewrite sha256_blen; split; discriminate).
  destruct (real_signed w_k1 _ _ n1 r1 y1 (fun _ => n1) 0%nat _ pp_one GX GY (proj1 P1) P1 S1 L eq_refl) as (E1 & _).
  destruct (real_signed w_k1 _ _ n2 r2 y2 (fun _ => n2) 0%nat _ pp_one GX GY (proj1 P2) P2 S2 L eq_refl) as (E2 & _).
  destruct (tx_spends _ _ _ _ t 0 w_k1 i _ _ n1 _ _ 1 C NT F V1 CS pp_one GX GY (proj1 P1) P1 R1 ST) as (m1 & SM1 & H1).
  destruct (tx_spends _ _ _ _ t 0 w_k1 i _ _ n2 _ _ 1 C NT F V1 CS pp_one GX GY (proj1 P2) P2 R2 ST) as (m2 & SM2 & H2).
  assert (UM : forall m', signing_message t 0 1 m' -> m' = m) by (intros m' SM; apply (preimage_message t 0 1 m' F U1) in SM; change (Z.of_nat 0) with 0 in SM; congruence).
  rewrite (UM _ SM1) in H1. rewrite (UM _ SM2) in H2.
  destruct (H1 S1) as (t1 & _ & T1 & _). destruct (H2 S2) as (t2 & _ & T2 & _).
  exists i, t, n1, r1, y1, n2, r2, y2, t1, t2. split; [exact C|]. split; [exact ET|]. split; [exact F|]. split; [exact V1|]. split; [exact CS|]. split; [exact P1|]. split; [exact P2|].
  split; [exact R1|]. split; [exact R2|]. split; [exact NE|]. split; [|split; [exact T1|exact T2]].
  intros m' SM. rewrite (UM _ SM). split; [exact E1|exact E2].
Qed.
