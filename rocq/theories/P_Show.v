From Coq Require Import String.
From Verif Require Import Base M_Hash M_Codec M_Keys S_Keys M_EC S_EC M_Script M_Tx S_Tx M_HD M_Unit M_URI S_Codec S_Script P_Codec P_Keys P_PubKey P_Script P_Tx P_URI M_Show S_Show.
Open Scope Z_scope.

(** ** numerals *)
Lemma dec_loop_head f : forall n, 0 <= n -> Z.log2 n < Z.of_nat f -> hd x00 (dec_loop f n []) = x30 -> dec_loop f n [] = [x30].
Proof.
  induction f as [|f IH]; intros n N L.
  - pose proof (Z.log2_nonneg n). lia.
  - cbn [dec_loop]. destruct (n <? 10) eqn:T.
    + cbn [hd]. intros ->. reflexivity.
    + rewrite dec_loop_acc. intros H. exfalso.
      assert (M : 1 <= n / 10) by (apply Z.div_le_lower_bound; lia).
      assert (G : Z.log2 (n / 10) < Z.of_nat f).
      { assert (n / 10 <= n / 2) by (apply Z.div_le_compat_l; lia).
        assert (Z.log2 (n / 10) <= Z.log2 (n / 2)) by (apply Z.log2_le_mono; assumption).
        assert (Z.log2 (n / 2) = Z.log2 n - 1) by (rewrite <- Z.div2_div, Z.div2_spec, Z.log2_shiftr by lia;
          pose proof (Z.log2_le_mono 2 n ltac:(lia)) as Q; change (Z.log2 2) with 1 in Q; lia).
        lia. }
      pose proof (dec_loop_decimal f (n / 10) ltac:(lia) G) as D.
      destruct (dec_loop f (n / 10) []) as [|c t] eqn:E; [inversion D as [|u v k X]; destruct u; discriminate|].
      cbn [app hd] in H. subst c.
      assert (Q : x30 :: t = [x30]) by (rewrite <- E in *; apply IH; [lia|exact G|rewrite E; reflexivity]).
      rewrite Q in D. inversion D as [c X Y|u v c X Y Z1 Z2]; subst; [change (bZ x30 - 48) with 0 in *; lia|].
      destruct u as [|a [|]]; try discriminate. inversion X; destruct t0; discriminate.
Qed.
Lemma natural_dec n : 0 <= n -> natural (dec n) n.
Proof.
  intros N. split; [apply dec_decimal, N|]. apply dec_loop_head; [exact N|]. pose proof (Z.log2_nonneg n). lia.
Qed.
Lemma numeral_sdec z : numeral (sdec z) z.
Proof.
  unfold sdec. destruct (z <? 0) eqn:N.
  - right. split; [lia|]. eexists. split; [reflexivity|]. apply natural_dec. lia.
  - left. apply natural_dec. lia.
Qed.
Lemma numeral_fun t z z' : numeral t z -> numeral t z' -> z = z'.
Proof.
  assert (M : forall u z, natural (x2d :: u) z -> False).
  { intros u y [D _]. apply decimal_chars in D. inversion D. change (bZ x2d) with 45 in *. lia. }
  intros [[D _]|[N (u & -> & D)]] [[D' _]|[N' (u' & E & D')]].
  - eapply decimal_fun; eassumption.
  - exfalso. subst t. eapply M. split; [exact D|]. discriminate.
  - exfalso. eapply M. split; [exact D'|]. discriminate.
  - injection E as ->. destruct D as [D _], D' as [D' _]. pose proof (decimal_fun _ _ _ D D'). lia.
Qed.
Lemma sdec_inj a b : sdec a = sdec b -> a = b.
Proof. intros E. eapply numeral_fun; [apply numeral_sdec|rewrite E; apply numeral_sdec]. Qed.
Lemma sdec_printable z : printable_ascii (sdec z).
Proof.
  assert (D : forall n, 0 <= n -> printable_ascii (dec n)).
  { intros n N. pose proof (decimal_chars _ _ (dec_decimal n N)) as D. eapply Forall_impl; [|exact D]. cbn beta. intros; lia. }
  unfold sdec. destruct (z <? 0) eqn:N; [constructor; [change (bZ x2d) with 45; lia|]|]; apply D; lia.
Qed.

(** ** literals *)
Lemma lit_fun q : q <> x5c -> forall t b, lit q t b -> forall s t' b' s', lit q t' b' -> t ++ s = t' ++ s' -> b = b' /\ s = s'.
Proof.
  intros Q. induction 1 as [|c t b C1 C2 C3 L IH|c t b C L IH|t b L IH|t b L IH|t b L IH|c d u v e t b C D E L IH];
    intros s t' b' s' L' A; inversion L' as [|c' t1 b1 C1' C2' C3' L1|c' t1 b1 C' L1|t1 b1 L1|t1 b1 L1|t1 b1 L1|c' d' u' v' e' t1 b1 C' D' E' L1]; subst;
    cbn [app] in A; try congruence; try (injection A; clear A; intros; subst; try congruence).
  all: try (split; congruence).
  all: try (match goal with A : _ ++ _ = _ ++ _ |- _ => destruct (IH _ _ _ _ L1 A) as [-> ->] end; split; [try reflexivity|reflexivity]).
  all: try (exfalso; destruct C as [X|[X|X]]; discriminate X).
  all: try (exfalso; destruct C' as [X|[X|X]]; discriminate X).
  f_equal. apply bZ_inj. destruct C as [C|C], C' as [C'|C'], D as [D|D], D' as [D'|D']; lia.
Qed.
Lemma hex_digit_is n : 0 <= n < 16 -> hex_is (hex_digit n) n /\ 48 <= bZ (hex_digit n) <= 102.
Proof.
  intros N. assert (C : n = 0 \/ n = 1 \/ n = 2 \/ n = 3 \/ n = 4 \/ n = 5 \/ n = 6 \/ n = 7 \/ n = 8 \/ n = 9 \/ n = 10 \/ n = 11 \/ n = 12 \/ n = 13 \/ n = 14 \/ n = 15) by lia.
  repeat match goal with H : _ \/ _ |- _ => destruct H as [H|H] end; subst n;
  (split; [first [left; split; [cbn; lia|reflexivity] | right; split; [cbn; lia|reflexivity]]|cbn; lia]).
Qed.
Lemma byte_eqb_false a b : byte_eqb a b = false -> a <> b.
Proof. intros E ->. rewrite (proj2 (byte_eqb_eq b b) eq_refl) in E. discriminate. Qed.
Lemma esc_lit p q c t b : (q = x27 \/ q = x22) -> p = q \/ (p = x27 /\ c <> q) -> lit q t b -> lit q (esc p c ++ t) (c :: b).
Proof.
  intros Q P L. unfold esc.
  destruct (byte_eqb c p) eqn:E1; [apply byte_eqb_eq in E1; subst p|apply byte_eqb_false in E1].
  { cbn [orb app]. apply L_mark; [|exact L]. destruct P as [->|[-> _]]; [destruct Q as [-> | ->]|]; auto. }
  assert (E1' : c <> q) by (destruct P as [->|[_ P]]; assumption).
  destruct (byte_eqb c x5c) eqn:E2; [apply byte_eqb_eq in E2; subst c; apply L_mark; [auto|exact L]|apply byte_eqb_false in E2].
  cbn [orb].
  destruct (byte_eqb c x09) eqn:E3; [apply byte_eqb_eq in E3; subst c; apply L_tab, L|].
  destruct (byte_eqb c x0a) eqn:E4; [apply byte_eqb_eq in E4; subst c; apply L_newline, L|apply byte_eqb_false in E4].
  destruct (byte_eqb c x0d) eqn:E5; [apply byte_eqb_eq in E5; subst c; apply L_return, L|].
  destruct ((bZ c <? 32) || (127 <=? bZ c)).
  - cbn [encode_hex app]. pose proof (bZ_range c).
    eapply L_hex; [apply hex_digit_is, conj; [apply Z.div_pos; lia|apply Z.div_lt_upper_bound; lia]|apply hex_digit_is, Z.mod_pos_bound; lia
      |pose proof (Z.div_mod (bZ c) 16); lia|exact L].
  - cbn [app]. apply L_char; assumption.
Qed.
Lemma escs_lit p q b : (q = x27 \/ q = x22) -> p = q \/ (p = x27 /\ ~ In q b) -> lit q (flat_map (esc p) b ++ [q]) b.
Proof.
  intros Q. induction b as [|c b IH]; intros P; cbn [flat_map app]; [constructor|].
  rewrite <- app_assoc. apply esc_lit; [exact Q| |].
  - destruct P as [->|[-> P]]; [left; reflexivity|right; split; [reflexivity|intros ->; apply P; left; reflexivity]].
  - apply IH. destruct P as [->|[-> P]]; [left; reflexivity|right; split; [reflexivity|intros H; apply P; right; exact H]].
Qed.
Lemma has_byte_in c b : has_byte c b = true <-> In c b.
Proof.
  unfold has_byte. rewrite existsb_exists. split.
  - intros (x & I & E). apply byte_eqb_eq in E. subst x. exact I.
  - intros I. exists c. split; [exact I|apply byte_eqb_eq; reflexivity].
Qed.
Lemma quote_cases b : quote_of b = x27 \/ (quote_of b = x22 /\ ~ In x22 b).
Proof.
  unfold quote_of. destruct (has_byte x27 b); [|left; reflexivity].
  destruct (has_byte x22 b) eqn:E; [left; reflexivity|right]. split; [reflexivity|]. rewrite <- has_byte_in. congruence.
Qed.
Lemma quote_or b : quote_of b = x27 \/ quote_of b = x22.
Proof. destruct (quote_cases b) as [|[]]; auto. Qed.
Lemma repr_str_literal b : literal (repr_str b) b.
Proof.
  exists (quote_of b). eexists. split; [apply quote_or|]. split; [reflexivity|]. apply escs_lit; [apply quote_or|left; reflexivity].
Qed.
Lemma repr_ba_literal b : exists t, literal t b /\ repr_ba b = txt "bytearray(b" ++ t ++ txt ")".
Proof.
  eexists. split; [|reflexivity]. exists (quote_of b). eexists. split; [apply quote_or|]. split; [reflexivity|].
  apply escs_lit; [apply quote_or|]. destruct (quote_cases b) as [->|[-> N]]; [left; reflexivity|right; split; [reflexivity|exact N]].
Qed.
Definition repr_arg (a : arg) : bytes := match a with A_str p => repr_pyb p | A_text t => repr_text t | _ => [] end.
Lemma repr_shown a : is_string a -> shown a (repr_arg a).
Proof.
  destruct a as [|[b|b]|t| |]; cbn [is_string repr_arg repr_pyb]; try tauto; intros _.
  - constructor. apply repr_str_literal.
  - destruct (repr_ba_literal b) as (t & L & ->). constructor. exact L.
  - change (repr_text t) with (txt "u" ++ repr_str t). constructor. apply repr_str_literal.
Qed.
Lemma literal_prefix t b s t' b' s' : literal t b -> literal t' b' -> t ++ s = t' ++ s' -> b = b' /\ s = s'.
Proof.
  intros (q & r & Q & -> & L) (q' & r' & Q' & -> & L') E. cbn [app] in E. injection E as <- E.
  eapply lit_fun; [|exact L|exact L'|exact E]. destruct Q as [-> | ->]; discriminate.
Qed.
Lemma txt_eq s : txt s = list_byte_of_string s. Proof. reflexivity. Qed.
(** what a text shows is determined, whatever follows *)
Lemma shown_prefix a t s a' t' s' : shown a t -> shown a' t' -> t ++ s = t' ++ s' -> a = a' /\ s = s'.
Proof.
  assert (LQ : forall t b, literal t b -> exists r, t = x27 :: r \/ t = x22 :: r).
  { intros u b (q & r & [-> | ->] & -> & _); eauto. }
  intros H H' E.
  destruct H as [b t L|b t L|b t L], H' as [b' t' L'|b' t' L'|b' t' L'].
  - destruct (literal_prefix _ _ _ _ _ _ L L' E) as [-> ->]. split; reflexivity.
  - destruct (LQ _ _ L) as (r & [-> | ->]); discriminate E.
  - destruct (LQ _ _ L) as (r & [-> | ->]); discriminate E.
  - destruct (LQ _ _ L') as (r & [-> | ->]); discriminate E.
  - rewrite <- !app_assoc in E. apply app_inv_head in E. destruct (literal_prefix _ _ _ _ _ _ L L' E) as [-> E2].
    apply app_inv_head in E2. subst. split; reflexivity.
  - discriminate E.
  - destruct (LQ _ _ L') as (r & [-> | ->]); discriminate E.
  - discriminate E.
  - rewrite <- !app_assoc in E. apply app_inv_head in E. destruct (literal_prefix _ _ _ _ _ _ L L' E) as [-> ->]. split; reflexivity.
Qed.
Lemma esc_printable p c : (p = x27 \/ p = x22) -> printable_ascii (esc p c).
Proof.
  intros P. unfold esc, printable_ascii.
  destruct (byte_eqb c p) eqn:E1.
  { apply byte_eqb_eq in E1. subst c. cbn [orb]. destruct P as [-> | ->]; repeat constructor; cbn; discriminate. }
  destruct (byte_eqb c x5c) eqn:E2; [apply byte_eqb_eq in E2; subst c; repeat constructor; cbn; discriminate|].
  cbn [orb]. destruct (byte_eqb c x09); [repeat constructor; cbn; discriminate|].
  destruct (byte_eqb c x0a); [repeat constructor; cbn; discriminate|].
  destruct (byte_eqb c x0d); [repeat constructor; cbn; discriminate|].
  destruct ((bZ c <? 32) || (127 <=? bZ c)) eqn:R.
  - cbn [encode_hex]. pose proof (bZ_range c).
    assert (H1 : 0 <= bZ c / 16 < 16) by (split; [apply Z.div_pos; lia|apply Z.div_lt_upper_bound; lia]).
    assert (H2 : 0 <= bZ c mod 16 < 16) by (apply Z.mod_pos_bound; lia).
    pose proof (proj2 (hex_digit_is _ H1)). pose proof (proj2 (hex_digit_is _ H2)).
    constructor; [cbn; lia|]. constructor; [cbn; lia|]. constructor; [lia|]. constructor; [lia|constructor].
  - constructor; [lia|constructor].
Qed.
Lemma printable_app a b : printable_ascii a -> printable_ascii b -> printable_ascii (a ++ b).
Proof. intros A B. apply Forall_app. split; assumption. Qed.
Lemma escs_printable p b : (p = x27 \/ p = x22) -> printable_ascii (flat_map (esc p) b).
Proof. intros P. induction b as [|c b IH]; cbn [flat_map]; [constructor|]. apply printable_app; [apply esc_printable, P|exact IH]. Qed.
Definition printableb (t : bytes) : bool := forallb (fun c => (32 <=? bZ c) && (bZ c <? 127)) t.
Lemma printableb_ok t : printableb t = true -> printable_ascii t.
Proof. unfold printableb. rewrite forallb_forall. intros H. apply Forall_forall. intros c I. specialize (H c I). lia. Qed.
Lemma quote_printable b : printable_ascii [quote_of b].
Proof. destruct (quote_or b) as [-> | ->]; apply printableb_ok; reflexivity. Qed.
Lemma repr_str_printable b : printable_ascii (repr_str b).
Proof.
  unfold repr_str. apply (printable_app [quote_of b]); [apply quote_printable|].
  apply printable_app; [apply escs_printable, quote_or|apply quote_printable].
Qed.
Lemma repr_ba_printable b : printable_ascii (repr_ba b).
Proof.
  unfold repr_ba. apply printable_app; [apply printableb_ok; reflexivity|]. apply printable_app; [|apply printableb_ok; reflexivity].
  apply (printable_app [quote_of b]); [apply quote_printable|].
  apply printable_app; [apply escs_printable; left; reflexivity|apply quote_printable].
Qed.
Lemma repr_arg_printable a : printable_ascii (repr_arg a).
Proof.
  destruct a as [|[b|b]|t| |]; cbn [repr_arg repr_pyb]; try apply Forall_nil; [apply repr_str_printable|apply repr_ba_printable|].
  apply (printable_app [x75]); [apply printableb_ok; reflexivity|apply repr_str_printable].
Qed.


(** ** building messages *)
Lemma mro_all c : exists l, mro c = Some l.
Proof. destruct c; eexists; reflexivity. Qed.
Definition prep_table (c : ecls) : prep :=
  match c with
  | X_Object | X_Pub_Pair | X_Addr_Type | X_Op_TypeError | X_Op_WrongType | X_Ins_TypeError | X_Ins_UnexpectedData
  | X_Tx_NotAnInput | X_Tx_NotAnOutput => P_object
  | X_Number | X_Priv_Secret | X_Addr_Version | X_Op_Number | X_Op_ConstPushLength | X_Op_PushLength | X_Scr_PushDataLength
  | X_Out_TooMuchData | X_Tx_LockTime => P_number
  | X_KeyValue | X_Network | X_Priv_Network | X_Pub_Network | X_Addr_Network => P_keyvalue
  | X_InsufficientData => P_buffer
  | X_Ins_DataLength => P_length
  | X_In_SignatureCount => P_count
  | X_Bitforge | X_Buffer | X_Priv | X_Pub | X_Addr | X_Op | X_Ins | X_Scr | X_In | X_Out | X_Tx
  | X_In_SignatureMethod | X_Tx_NoInputs | X_Tx_NoOutputs => P_nothing
  | _ => P_string
  end.
Lemma prepare_table c : prepare_of c = Some (prep_table c).
Proof. destruct c; reflexivity. Qed.
Lemma build_eq c l : build c l = let! d := prepare (prep_table c) l in match doc c with None => Err E_AttributeError | Some t => fmt d None t end.
Proof. unfold build. rewrite prepare_table. reflexivity. Qed.

Lemma prepare_string a : is_string a ->
  prepare P_string [a] = Ok [(txt "string", A_text (repr_arg a)); (txt "length", A_num (arg_length a))].
Proof. destruct a as [|[b|b]|t| |]; cbn [is_string]; try tauto; reflexivity. Qed.

(** formatting, piece by piece *)
Definition plainb (p : bytes) : bool := forallb (fun c => negb (byte_eqb c x7b || byte_eqb c x7d)) p.
Lemma fmt_plain d p r : plainb p = true -> fmt d None (p ++ r) = let! s := fmt d None r in Ok (p ++ s).
Proof.
  induction p as [|c p IH]; cbn [plainb forallb app]; intros P.
  - destruct (fmt d None r); reflexivity.
  - apply andb_prop in P. destruct P as [C P]. apply negb_true_iff, orb_false_elim in C. destruct C as [C1 C2].
    cbn [fmt]. rewrite C1, C2, (IH P). destruct (fmt d None r); reflexivity.
Qed.
Lemma fmt_inside d f g r : plainb g = true ->
  fmt d (Some f) (g ++ x7d :: r) = let! v := field_text d (f ++ g) in let! s := fmt d None r in Ok (v ++ s).
Proof.
  revert f. induction g as [|c g IH]; intros f; cbn [plainb forallb app]; intros P.
  - rewrite app_nil_r. reflexivity.
  - apply andb_prop in P. destruct P as [C P]. apply negb_true_iff, orb_false_elim in C. destruct C as [C1 C2].
    cbn [fmt]. rewrite C2, (IH _ P), <- app_assoc. reflexivity.
Qed.
Lemma fmt_field d g r : plainb g = true -> g <> [] ->
  fmt d None (x7b :: g ++ x7d :: r) = let! v := field_text d g in let! s := fmt d None r in Ok (v ++ s).
Proof.
  intros P N. destruct g as [|c g]; [congruence|]. change (field_text d (c :: g)) with (field_text d ([] ++ c :: g)). rewrite <- (fmt_inside d [] (c :: g) r P).
  cbn [plainb forallb] in P. apply andb_prop in P. destruct P as [C P]. apply negb_true_iff, orb_false_elim in C. destruct C as [C1 C2].
  cbn [fmt app]. change (byte_eqb x7b x7b) with true. cbn iota. rewrite C1. reflexivity.
Qed.
Lemma fmt_one d pre f post v : plainb pre = true -> plainb f = true -> f <> [] -> plainb post = true -> field_text d f = Ok v ->
  fmt d None (pre ++ x7b :: f ++ x7d :: post) = Ok (pre ++ v ++ post).
Proof.
  intros P F N Q E. rewrite (fmt_plain _ _ _ P), (fmt_field _ _ _ F N), E. cbn [bind].
  rewrite <- (app_nil_r post) at 1. rewrite (fmt_plain _ _ _ Q). cbn [fmt bind]. rewrite app_nil_r. reflexivity.
Qed.
Lemma fmt_err d pre f post e : plainb pre = true -> plainb f = true -> f <> [] -> field_text d f = Err e ->
  fmt d None (pre ++ x7b :: f ++ x7d :: post) = Err e.
Proof. intros P F N E. rewrite (fmt_plain _ _ _ P), (fmt_field _ _ _ F N), E. reflexivity. Qed.
Lemma fmt_two d pre f mid g v w post : plainb pre = true -> plainb f = true -> f <> [] -> plainb mid = true -> plainb g = true -> g <> [] ->
  plainb post = true -> field_text d f = Ok v -> field_text d g = Ok w ->
  fmt d None (pre ++ x7b :: f ++ x7d :: mid ++ x7b :: g ++ x7d :: post) = Ok (pre ++ v ++ mid ++ w ++ post).
Proof.
  intros P F N M G N' Q E E'. rewrite (fmt_plain _ _ _ P), (fmt_field _ _ _ F N), E. cbn [bind].
  rewrite (fmt_one d mid g post w M G N' Q E'). reflexivity.
Qed.
Ltac pieces := first [reflexivity | discriminate].

Lemma build_string c pre post len a : about_string c = Some (pre, post, len) -> is_string a ->
  build c [a] = Ok (txt pre ++ repr_arg a ++ txt post ++ (if len then sdec (arg_length a) else [])).
Proof.
  intros A S. rewrite build_eq.
  assert (P : prep_table c = P_string) by (destruct c; try discriminate A; reflexivity).
  rewrite P, (prepare_string a S). cbn [bind]. clear P S. generalize (repr_arg a) (arg_length a). intros R L. clear a.
  destruct len.
  - assert (D : doc c = Some (txt pre ++ x7b :: txt "string" ++ x7d :: txt post ++ x7b :: txt "length" ++ x7d :: []) /\ plainb (txt pre) = true /\ plainb (txt post) = true).
    { destruct c; cbn [about_string] in A; try discriminate A; injection A; intros; subst; (split; [reflexivity|split; reflexivity]). }
    destruct D as (-> & P1 & P2). rewrite (fmt_two _ _ _ _ _ R (sdec L)); try assumption; try pieces. rewrite app_nil_r. reflexivity.
  - assert (D : doc c = Some (txt pre ++ x7b :: txt "string" ++ x7d :: txt post) /\ plainb (txt pre) = true /\ plainb (txt post) = true).
    { destruct c; cbn [about_string] in A; try discriminate A; injection A; intros; subst; (split; [reflexivity|split; reflexivity]). }
    destruct D as (-> & P1 & P2). rewrite (fmt_one _ _ _ _ R); try assumption; try pieces. rewrite app_nil_r. reflexivity.
Qed.

Lemma build_number c pre post z : about_number c = Some (pre, post) -> build c [A_num z] = Ok (txt pre ++ sdec z ++ txt post).
Proof.
  intros A. rewrite build_eq.
  assert (P : prep_table c = P_number) by (destruct c; try discriminate A; reflexivity).
  rewrite P. cbn [prepare bind]. clear P.
  assert (D : doc c = Some (txt pre ++ x7b :: txt "number" ++ x7d :: txt post) /\ plainb (txt pre) = true /\ plainb (txt post) = true).
  { destruct c; cbn [about_number] in A; try discriminate A; injection A; intros; subst; (split; [reflexivity|split; reflexivity]). }
  destruct D as (-> & P1 & P2). rewrite (fmt_one _ _ _ _ (sdec z)); try assumption; try pieces.
Qed.
(** an object message shows the object *)
Lemma build_object c pre post a : about_object c = Some (pre, post) ->
  build c [a] = let! s := show a in Ok (txt pre ++ s ++ txt post).
Proof.
  intros A. rewrite build_eq.
  assert (P : prep_table c = P_object) by (destruct c; try discriminate A; reflexivity).
  rewrite P. cbn [prepare bind]. clear P.
  assert (D : doc c = Some (txt pre ++ x7b :: txt "object" ++ x7d :: txt post) /\ plainb (txt pre) = true /\ plainb (txt post) = true).
  { destruct c; cbn [about_object] in A; try discriminate A; injection A; intros; subst; (split; [reflexivity|split; reflexivity]). }
  destruct D as (-> & P1 & P2).
  assert (F : field_text [(txt "object", a)] (txt "object") = show a) by reflexivity.
  destruct (show a) as [v|e]; cbn [bind].
  - apply fmt_one; try assumption; try pieces.
  - apply fmt_err; try assumption; try pieces.
Qed.
Lemma build_network c pre k v : about_network c = Some pre ->
  build c [k; v] = let! s := show k in let! t := show v in Ok (txt pre ++ s ++ txt "' of value " ++ t).
Proof.
  intros A. rewrite build_eq.
  assert (P : prep_table c = P_keyvalue) by (destruct c; try discriminate A; reflexivity).
  rewrite P. cbn [prepare bind]. clear P.
  assert (D : doc c = Some (txt pre ++ x7b :: txt "key" ++ x7d :: txt "' of value " ++ x7b :: txt "value" ++ x7d :: []) /\ plainb (txt pre) = true).
  { destruct c; cbn [about_network] in A; try discriminate A; injection A; intros; subst; (split; reflexivity). }
  destruct D as (-> & P1).
  set (d := [(txt "key", k); (txt "value", v)]).
  assert (F : field_text d (txt "key") = show k) by reflexivity.
  assert (G : field_text d (txt "value") = show v) by reflexivity. clearbody d.
  rewrite (fmt_plain _ _ _ P1), fmt_field by pieces. rewrite F. destruct (show k) as [s|e]; [|reflexivity]. cbn [bind].
  destruct (show v) as [w|e]; cbn [bind].
  - rewrite (fmt_one _ _ _ _ w) by (pieces || assumption). cbn [bind]. rewrite app_nil_r. reflexivity.
  - rewrite (fmt_err _ _ _ _ e) by (pieces || assumption). reflexivity.
Qed.
Lemma build_fixed c t : fixed_text c = Some t -> build c [] = Ok (txt t).
Proof. destruct c; try discriminate; intros E; injection E as <-; reflexivity. Qed.
Lemma build_buffer a b : build X_InsufficientData [A_num a; A_num b] =
  Ok (txt "Attempted to read " ++ sdec b ++ txt " bytes, but buffer only has " ++ sdec a).
Proof.
  rewrite build_eq. cbn [prep_table prepare bind].
  change (doc X_InsufficientData) with (Some (txt "Attempted to read " ++ x7b :: txt "requested" ++ x7d :: txt " bytes, but buffer only has " ++ x7b :: txt "remaining" ++ x7d :: [])).
  cbn iota. rewrite (fmt_two _ _ _ _ _ (sdec b) (sdec a)) by pieces. rewrite app_nil_r. reflexivity.
Qed.
Lemma build_count a b : build X_In_SignatureCount [A_num a; A_num b] =
  Ok (txt "This Input requires " ++ sdec a ++ txt " keys to sign, but " ++ sdec b ++ txt " were provided").
Proof.
  rewrite build_eq. cbn [prep_table prepare bind].
  change (doc X_In_SignatureCount) with (Some (txt "This Input requires " ++ x7b :: txt "required" ++ x7d :: txt " keys to sign, but " ++ x7b :: txt "provided" ++ x7d :: txt " were provided")).
  cbn iota. rewrite (fmt_two _ _ _ _ _ (sdec a) (sdec b)) by pieces. reflexivity.
Qed.
Lemma build_length o a b : build X_Ins_DataLength [o; A_num a; A_num b] =
  let! s := show o in Ok (txt "Opcode " ++ s ++ txt " can't push " ++ sdec a ++ txt " bytes (max/exactly " ++ sdec b ++ txt ")").
Proof.
  rewrite build_eq. cbn [prep_table prepare bind].
  change (doc X_Ins_DataLength) with (Some (txt "Opcode " ++ x7b :: txt "opcode" ++ x7d :: txt " can't push " ++ x7b :: txt "data_length" ++ x7d :: txt " bytes (max/exactly " ++ x7b :: txt "data_length_max" ++ x7d :: txt ")")).
  cbn iota. rewrite fmt_plain, fmt_field by pieces.
  match goal with |- context [field_text ?d (txt "opcode")] => change (field_text d (txt "opcode")) with (show o) end.
  destruct (show o) as [s|e]; [|reflexivity]. cbn [bind].
  rewrite (fmt_two _ _ _ _ _ (sdec a) (sdec b)) by pieces. reflexivity.
Qed.
Lemma build_wrong_type o : build X_Op_WrongType [A_opcode o] =
  let! n := op_name o in Ok (txt "Opcode " ++ n ++ txt " does not support this operation").
Proof.
  rewrite build_eq. cbn [prep_table prepare bind].
  change (doc X_Op_WrongType) with (Some (txt "Opcode " ++ x7b :: txt "object.name" ++ x7d :: txt " does not support this operation")).
  cbn iota. rewrite fmt_plain, fmt_field by pieces.
  match goal with |- context [field_text ?d (txt "object.name")] => change (field_text d (txt "object.name")) with (op_name o) end.
  destruct (op_name o) as [s|e]; [|reflexivity]. cbn [bind]. reflexivity.
Qed.
Lemma build_undocumented c l m : undocumented c -> build c l <> Ok m.
Proof.
  intros U. rewrite build_eq. assert (doc c = None) as -> by (repeat (destruct U as [<-|U]; [reflexivity|]); destruct U).
  destruct (prepare (prep_table c) l); discriminate.
Qed.
Lemma documented c : doc c = None <-> undocumented c.
Proof. split; [|intros U; repeat (destruct U as [<-|U]; [reflexivity|]); destruct U]. destruct c; try discriminate; intros _; unfold undocumented; cbn [In]; tauto. Qed.


(** ** subclasses *)
Lemma ecls_eqb_eq a b : ecls_eqb a b = true <-> a = b.
Proof. unfold ecls_eqb. destruct (ecls_eq_dec a b); split; congruence. Qed.
Fixpoint isab (n : nat) (c e : ecls) : bool :=
  match n with O => false | S n => ecls_eqb c e || existsb (fun d => isab n d e) (bases c) end.
Lemma isab_is n : forall c e, isab n c e = true -> is_a c e.
Proof.
  induction n as [|n IH]; cbn [isab]; intros c e H; [discriminate|]. apply orb_prop in H as [H|H].
  - apply ecls_eqb_eq in H as <-. constructor.
  - apply existsb_exists in H as (d & I & D). econstructor; [exact I|apply IH, D].
Qed.
Definition mro_list (c : ecls) : list ecls := match mro c with Some l => l | None => [] end.
Lemma subclass_in c d : subclass c d = true <-> In d (mro_list c).
Proof.
  unfold subclass, mro_list. destruct (mro c) as [l|]; cbn [In]; [|split; [discriminate|tauto]].
  rewrite existsb_exists. split.
  - intros (x & I & E). apply ecls_eqb_eq in E as <-. exact I.
  - intros I. exists d. split; [exact I|apply ecls_eqb_eq; reflexivity].
Qed.
Lemma subclass_is c d : subclass c d = true <-> is_a c d.
Proof.
  rewrite subclass_in. split.
  - assert (A : forallb (isab 8 c) (mro_list c) = true) by (destruct c; reflexivity).
    intros I. rewrite forallb_forall in A. apply (isab_is 8), A, I.
  - induction 1 as [c|c d e I _ IH].
    + assert (A : existsb (ecls_eqb c) (mro_list c) = true) by (destruct c; reflexivity).
      apply existsb_exists in A as (x & J & E). apply ecls_eqb_eq in E as <-. exact J.
    + assert (A : forallb (fun d => forallb (fun x => existsb (ecls_eqb x) (mro_list c)) (mro_list d)) (bases c) = true) by (destruct c; reflexivity).
      rewrite forallb_forall in A. specialize (A d I). rewrite forallb_forall in A. specialize (A e IH).
      apply existsb_exists in A as (x & J & E). apply ecls_eqb_eq in E as <-. exact J.
Qed.
Lemma isab_decides c e : isab 8 c e = true <-> is_a c e.
Proof.
  split; [apply isab_is|]. intros H. apply subclass_is, subclass_in in H.
  assert (A : forallb (isab 8 c) (mro_list c) = true) by (destruct c; reflexivity).
  rewrite forallb_forall in A. apply A, H.
Qed.
Lemma all_bitforge c : is_a c X_Bitforge.
Proof. apply (isab_is 8). destruct c; reflexivity. Qed.
Lemma nested_is c d : nested_in c = Some d -> is_a c d.
Proof. intros N. apply (isab_is 8). destruct c; try discriminate N; injection N as <-; reflexivity. Qed.
(** no class belongs to the [Error] of another owner *)
Definition owners := [X_Buffer; X_Priv; X_Pub; X_Addr; X_Op; X_Ins; X_Scr; X_In; X_Out; X_Tx].
Lemma owner_only c d : In d owners -> is_a c d -> c = d \/ nested_in c = Some d.
Proof.
  intros I A. apply isab_decides in A.
  assert (C : forallb (fun d => implb (isab 8 c d) (ecls_eqb c d || match nested_in c with Some x => ecls_eqb x d | None => false end)) owners = true) by (destruct c; reflexivity).
  rewrite forallb_forall in C. specialize (C d I). cbv beta in C. rewrite A in C. cbn [implb] in C. apply orb_prop in C as [C|C].
  - left. apply ecls_eqb_eq, C.
  - right. destruct (nested_in c) as [x|]; [|discriminate]. apply ecls_eqb_eq in C as ->. reflexivity.
Qed.
Lemma class_documented e c : class_of e = Some c -> ~ undocumented c.
Proof. rewrite <- documented. destruct e; try discriminate; intros E; injection E as <-; discriminate. Qed.
(** the [except] clauses of the constructors *)
Lemma hex_except s e : decode_hex s = Err e -> (is_invalid_hex e = true <-> exists c, class_of e = Some c /\ is_a c X_Hex).
Proof.
  intros E. apply decode_hex_err in E as ->. split; [|reflexivity]. intros _. exists X_Hex. split; [reflexivity|constructor].
Qed.
Lemma base58_except s e : decode_base58h s = Err e -> (is_invalid_base58h e = true <-> exists c, class_of e = Some c /\ is_a c X_Base58h).
Proof.
  intros E. apply decode_base58h_err in E as ->. destruct (all_ascii s).
  - split; [|reflexivity]. intros _. exists X_Base58h. split; [reflexivity|constructor].
  - split; [discriminate|]. intros (c & C & _). discriminate C.
Qed.
Lemma find_except v a e : M_Keys.find v a = Err e -> (is_unknown_network e = true <-> exists c, class_of e = Some c /\ is_a c X_Network).
Proof.
  unfold M_Keys.find. destruct (find_opt v a); [discriminate|]. intros E; injection E as <-.
  split; [|reflexivity]. intros _. exists X_Network. split; [reflexivity|constructor].
Qed.
Lemma uri_except t e : uri_init (AText t) = Err e ->
  (caught e = true <-> (e = E_ValueError \/ e = E_UnicodeDecodeError) \/ exists c, class_of e = Some c /\ is_a c X_Bitforge).
Proof.
  intros E. apply init_err in E as [C|(-> & _)].
  - split; [|intros _; exact C]. intros _. destruct e; try discriminate C; auto; right; eexists; (split; [reflexivity|apply all_bitforge]).
  - split; [discriminate|]. intros [[X|X]|(c & X & _)]; discriminate.
Qed.

(** ** numbers of arguments *)
Lemma build_arity c l : List.length l <> arity c -> build c l = Err E_TypeError.
Proof.
  intros N. rewrite build_eq. assert (P : prepare (prep_table c) l = Err E_TypeError).
  { destruct c; cbn [arity prep_table] in *; destruct l as [|a [|b [|d [|e l]]]]; cbn [List.length] in N; try (exfalso; lia);
      try reflexivity; cbn [prepare]; try destruct a; reflexivity. }
  rewrite P. reflexivity.
Qed.

(** ** equal messages *)
Lemma build_string_inj c pre post len a b : about_string c = Some (pre, post, len) -> is_string a -> is_string b ->
  build c [a] = build c [b] -> a = b.
Proof.
  intros A S T E. rewrite (build_string c pre post len a A S), (build_string c pre post len b A T) in E. injection E as E.
  apply app_inv_head in E. apply (shown_prefix _ _ _ _ _ _ (repr_shown a S) (repr_shown b T) E).
Qed.
Lemma sdec_prefix a b s : sdec a ++ s = sdec b ++ s -> a = b.
Proof. intros E. apply app_inv_tail in E. apply sdec_inj, E. Qed.
Lemma build_number_inj c pre post a b : about_number c = Some (pre, post) -> build c [A_num a] = build c [A_num b] -> a = b.
Proof.
  intros A E. rewrite !(build_number c pre post _ A) in E. injection E as E. apply app_inv_head in E. eapply sdec_prefix, E.
Qed.

(** ** messages in ASCII *)
Lemma is_ascii_text t : is_ascii t = true <-> ascii_text t.
Proof. unfold is_ascii, ascii_text. rewrite forallb_forall, Forall_forall. split; intros H c I; specialize (H c I); lia. Qed.
Lemma ascii_app a b : ascii_text a -> ascii_text b -> ascii_text (a ++ b).
Proof. intros. apply Forall_app. auto. Qed.
Lemma printable_is_ascii t : printable_ascii t -> ascii_text t.
Proof. apply Forall_impl. intros c. lia. Qed.
Lemma named_printable n o : names_op n o -> printable_ascii n.
Proof.
  unfold names_op. intros H. assert (C : forallb (fun p => printableb (fst p)) named_ops = true) by (vm_compute; reflexivity).
  rewrite forallb_forall in C. apply printableb_ok, (C _ H).
Qed.
Lemma op_name_is o : (exists n, op_name o = Ok n /\ spoken o n) \/ (op_name o = Err E_KeyError /\ ~ 1 <= bZ o <= 75 /\ ~ has_name o).
Proof.
  destruct (Z_le_gt_dec 1 (bZ o)) as [A|A]; [destruct (Z_le_gt_dec (bZ o) 75) as [B|B]|].
  - left. exists (txt "_PUSH_" ++ dec (bZ o) ++ txt "_BYTES"). split.
    + unfold op_name. rewrite (proj2 (const_push_spec o)) by lia. reflexivity.
    + constructor; [lia|apply natural_dec; lia].
  - destruct (op_name_cases o) as [(n & E & N & _)|(E & N & _)]; [lia| |]; [left; exists n; split; [exact E|constructor 2; exact N]|right; split; [exact E|split; [lia|exact N]]].
  - destruct (op_name_cases o) as [(n & E & N & _)|(E & N & _)]; [lia| |]; [left; exists n; split; [exact E|constructor 2; exact N]|right; split; [exact E|split; [lia|exact N]]].
Qed.
Lemma natural_printable t n : natural t n -> printable_ascii t.
Proof.
  intros (D & _). apply Forall_forall. intros c I. apply decimal_chars in D. rewrite Forall_forall in D. specialize (D c I). lia.
Qed.
Lemma spoken_printable o n : spoken o n -> printable_ascii n.
Proof.
  intros [d R N|n' N]; [|eapply named_printable, N]. apply printable_app; [apply printableb_ok; reflexivity|].
  apply printable_app; [eapply natural_printable, N|apply printableb_ok; reflexivity].
Qed.
Lemma repr_opcode_is o : (exists t, repr_opcode o = Ok t /\ opcode_text o t) \/ (repr_opcode o = Err E_KeyError /\ ~ 1 <= bZ o <= 75 /\ ~ has_name o).
Proof.
  pose proof (bZ_range o). unfold repr_opcode. destruct (is_const_push o) eqn:C.
  - apply const_push_spec in C. left. eexists. split; [reflexivity|]. constructor; [exact C|apply natural_dec; lia].
  - assert (N : ~ 1 <= bZ o <= 75) by (intros R; apply const_push_spec in R; congruence).
    destruct (op_name_cases o N) as [(n & E & M & _)|(E & M & _)]; rewrite E; cbn [bind].
    + left. eexists. split; [reflexivity|]. constructor 2; [exact M|apply natural_dec; lia].
    + right. auto.
Qed.
Lemma opcode_text_printable o t : opcode_text o t -> printable_ascii t.
Proof.
  intros [n R N|n name M N]; repeat (apply printable_app); try (apply printableb_ok; reflexivity);
    first [eapply natural_printable, N|eapply named_printable, M].
Qed.
Lemma show_ascii a t : ascii_arg a -> show a = Ok t -> ascii_text t.
Proof.
  destruct a as [z|p|s|o|[r|e]]; cbn [ascii_arg show].
  - intros _ E; injection E as <-. apply printable_is_ascii, sdec_printable.
  - intros _. destruct (is_ascii (pyb_bytes p)) eqn:A; [|discriminate]. intros E; injection E as <-. apply is_ascii_text, A.
  - intros A E; injection E as <-. exact A.
  - intros _ E. destruct (repr_opcode_is o) as [(x & X & T)|(X & _)]; rewrite E in X; [|discriminate]. injection X as <-.
    eapply printable_is_ascii, opcode_text_printable, T.
  - intros A E; injection E as <-. exact A.
  - discriminate.
Qed.
Lemma lookup_in d k a : lookup d k = Ok a -> exists n, In (n, a) d.
Proof.
  induction d as [|[n b] d IH]; cbn [lookup]; [discriminate|]. destruct (bytes_eqb n k).
  - intros E; injection E as <-. exists n. left. reflexivity.
  - intros E. destruct (IH E) as (m & I). exists m. right. exact I.
Qed.
Lemma field_ascii d f t : Forall (fun x => ascii_arg (snd x)) d -> field_text d f = Ok t -> ascii_text t.
Proof.
  intros D. unfold field_text. destruct (split_dot f) as [k [n|]].
  - destruct (lookup d k) as [a|] eqn:L; cbn [bind]; [|discriminate]. destruct a as [| | |o|]; try discriminate.
    destruct (bytes_eqb n (txt "name")); [|discriminate]. intros E.
    destruct (op_name_is o) as [(x & X & S)|(X & _)]; rewrite E in X; [|discriminate]. injection X as <-.
    eapply printable_is_ascii, spoken_printable, S.
  - destruct (lookup d k) as [a|] eqn:L; cbn [bind]; [|discriminate]. apply show_ascii.
    apply lookup_in in L as (m & I). rewrite Forall_forall in D. apply (D (m, a) I).
Qed.
Lemma fmt_ascii d t : Forall (fun x => ascii_arg (snd x)) d -> ascii_text t -> forall n t', t = t' -> (List.length t' <= n)%nat ->
  forall st m, fmt d st t' = Ok m -> ascii_text m.
Proof.
  intros D A n. revert t A. induction n as [|n IH]; intros t A t' <- L st m.
  - destruct t; cbn [List.length] in L; [|lia]. destruct st; cbn [fmt]; [discriminate|]. intros E; injection E as <-. apply Forall_nil.
  - destruct t as [|c r].
    { destruct st; cbn [fmt]; [discriminate|]. intros E; injection E as <-. apply Forall_nil. }
    cbn [List.length] in L. inversion A as [|? ? Ac Ar]; subst.
    assert (IHr : forall st m, fmt d st r = Ok m -> ascii_text m) by (intros; eapply (IH r Ar r eq_refl); [lia|eassumption]).
    destruct st as [f|]; cbn [fmt].
    + destruct (byte_eqb c x7d); [|apply IHr]. destruct (field_text d f) as [v|] eqn:F; cbn [bind]; [|discriminate].
      destruct (fmt d None r) as [s|] eqn:G; cbn [bind]; [|discriminate]. intros E; injection E as <-.
      apply ascii_app; [eapply field_ascii; eassumption|eapply IHr, G].
    + assert (K : forall r' m, (List.length r' <= n)%nat -> ascii_text r' -> (let! s := fmt d None r' in Ok (c :: s)) = Ok m -> ascii_text m).
      { intros r' m' L' A' E. destruct (fmt d None r') as [s|] eqn:G; cbn [bind] in E; [|discriminate]. injection E as <-.
        apply Forall_cons; [exact Ac|]. eapply (IH r' A' r' eq_refl L'), G. }
      destruct (byte_eqb c x7b).
      * destruct r as [|c' r']; [discriminate|]. cbn [List.length] in L. inversion Ar as [|? ? Ac' Ar']; subst.
        destruct (byte_eqb c' x7b); [|apply IHr]. apply K; [lia|exact Ar'].
      * destruct (byte_eqb c x7d).
        -- destruct r as [|c' r']; [discriminate|]. cbn [List.length] in L. inversion Ar as [|? ? Ac' Ar']; subst.
           destruct (byte_eqb c' x7d); [|discriminate]. apply K; [lia|exact Ar'].
        -- apply K; [lia|exact Ar].
Qed.
Lemma doc_ascii c t : doc c = Some t -> ascii_text t.
Proof. destruct c; try discriminate; intros E; injection E as <-; apply is_ascii_text; reflexivity. Qed.
Lemma prepare_ascii p l d : (p = P_string \/ Forall ascii_arg l) -> prepare p l = Ok d -> Forall (fun x => ascii_arg (snd x)) d.
Proof.
  intros A. destruct p; cbn [prepare]; destruct l as [|a [|b [|c [|e l]]]]; try discriminate;
    try (intros E; injection E as <-; destruct A as [A|A]; [discriminate|]; repeat (apply Forall_cons_iff in A as (? & A));
         repeat (apply Forall_cons; [assumption|]); apply Forall_nil).
  destruct a as [z|s|t|o|r]; try discriminate.
  - intros E; injection E as <-. apply Forall_cons; [|apply Forall_cons; [exact Logic.I|apply Forall_nil]].
    cbn [snd ascii_arg]. apply printable_is_ascii, (repr_arg_printable (A_str s)).
  - intros E; injection E as <-. apply Forall_cons; [|apply Forall_cons; [exact Logic.I|apply Forall_nil]].
    cbn [snd ascii_arg]. apply printable_is_ascii, (repr_arg_printable (A_text t)).
  - destruct (repr_opcode o); discriminate.
  - destruct r; discriminate.
  - destruct a; discriminate.
  - destruct a; discriminate.
  - destruct a; discriminate.
Qed.
Lemma build_ascii c l m : prep_table c = P_string \/ Forall ascii_arg l -> build c l = Ok m -> exc_str m = Some m.
Proof.
  intros A. rewrite build_eq. destruct (prepare (prep_table c) l) as [d|] eqn:P; cbn [bind]; [|discriminate].
  destruct (doc c) as [t|] eqn:D; [|discriminate]. intros F. unfold exc_str.
  assert (is_ascii m = true) as ->; [|reflexivity]. apply is_ascii_text.
  eapply (fmt_ascii d t (prepare_ascii _ _ _ A P) (doc_ascii _ _ D) (List.length t) t eq_refl); [lia|exact F].
Qed.
Lemma about_string_prep c x : about_string c = Some x -> prep_table c = P_string.
Proof. destruct c; try discriminate; reflexivity. Qed.


(** ** splitting texts *)
Lemma split_at (P : byte -> Prop) : forall a b s s', Forall P a -> Forall P b ->
  (forall c r, s = c :: r -> ~ P c) -> (forall c r, s' = c :: r -> ~ P c) -> s <> [] -> s' <> [] ->
  a ++ s = b ++ s' -> a = b /\ s = s'.
Proof.
  induction a as [|x a IH]; intros [|y b] s s' A B S S' N N' E; cbn [app] in E.
  - auto.
  - subst s. exfalso. apply (S y (b ++ s') eq_refl). inversion B; assumption.
  - subst s'. exfalso. apply (S' x (a ++ s) eq_refl). inversion A; assumption.
  - injection E as -> E. inversion A; inversion B; subst. destruct (IH b s s') as (-> & ->); auto.
Qed.
Lemma split_byte (q : byte) a b s s' : ~ In q a -> ~ In q b -> a ++ q :: s = b ++ q :: s' -> a = b /\ s = s'.
Proof.
  intros A B E. destruct (split_at (fun c => c <> q) a b (q :: s) (q :: s')) as (-> & H).
  - apply Forall_forall. intros c I ->. auto.
  - apply Forall_forall. intros c I ->. auto.
  - intros c r X. injection X as <- _. intros K. apply K. reflexivity.
  - intros c r X. injection X as <- _. intros K. apply K. reflexivity.
  - discriminate.
  - discriminate.
  - exact E.
  - injection H as <-. auto.
Qed.
Lemma natural_digits t n : natural t n -> Forall (fun c => 48 <= bZ c <= 57) t.
Proof. intros (D & _). eapply decimal_chars, D. Qed.
Lemma natural_head t n : natural t n -> exists c r, t = c :: r /\ 48 <= bZ c <= 57.
Proof.
  intros N. pose proof (natural_digits _ _ N) as F. destruct t as [|c r]; [|exists c, r; split; [reflexivity|inversion F; assumption]].
  destruct N as (D & _). apply decimal_int in D as (D & _). discriminate.
Qed.
Lemma natural_fun t n n' : natural t n -> natural t n' -> n = n'.
Proof. intros (D & _) (D' & _). eapply decimal_fun; eassumption. Qed.

(** ** opcodes *)
Lemma opcode_text_inv o t : opcode_text o t ->
  (exists n, 1 <= bZ o <= 75 /\ natural n (bZ o) /\ t = txt "<Opcode PUSH " ++ n ++ txt " BYTES>") \/
  (exists n name, names_op name o /\ natural n (bZ o) /\ t = txt "<Opcode " ++ n ++ txt ": " ++ name ++ txt ">").
Proof. intros [n R N|n name M N]; [left; eauto|right; eauto 6]. Qed.
Lemma opcode_text_inj o o' t : opcode_text o t -> opcode_text o' t -> o = o'.
Proof.
  intros H H'. apply opcode_text_inv in H as [(n & R & N & ->)|(n & name & M & N & ->)], H' as [(n' & R' & N' & E)|(n' & name' & M' & N' & E)]; apply bZ_inj.
  - apply app_inv_head, app_inv_tail in E as ->. eapply natural_fun; eassumption.
  - exfalso. change (txt "<Opcode PUSH ") with (txt "<Opcode " ++ txt "PUSH ") in E. rewrite <- app_assoc in E. apply app_inv_head in E.
    destruct (natural_head _ _ N') as (c & r & -> & C). injection E as E _. subst c. change (bZ x50) with 80 in C. lia.
  - exfalso. change (txt "<Opcode PUSH ") with (txt "<Opcode " ++ txt "PUSH ") in E. rewrite <- app_assoc in E. apply app_inv_head in E.
    destruct (natural_head _ _ N) as (c & r & -> & C). injection E as E _. subst c. change (bZ x50) with 80 in C. lia.
  - apply app_inv_head in E.
    destruct (split_at _ n n' (txt ": " ++ name ++ txt ">") (txt ": " ++ name' ++ txt ">") (natural_digits _ _ N) (natural_digits _ _ N')) as (-> & _).
    + intros c r X. injection X as <- _. change (bZ x3a) with 58. lia.
    + intros c r X. injection X as <- _. change (bZ x3a) with 58. lia.
    + discriminate.
    + discriminate.
    + exact E.
    + eapply natural_fun; eassumption.
Qed.
Lemma repr_opcode_inj o o' t : repr_opcode o = Ok t -> repr_opcode o' = Ok t -> o = o'.
Proof.
  intros E E'. destruct (repr_opcode_is o) as [(x & X & T)|(X & _)]; [|congruence].
  destruct (repr_opcode_is o') as [(x' & X' & T')|(X' & _)]; [|congruence].
  rewrite E in X. rewrite E' in X'. injection X as <-. injection X' as <-. eapply opcode_text_inj; eassumption.
Qed.

(** ** names *)
Lemma spoken_inv o n : spoken o n ->
  (exists d, 1 <= bZ o <= 75 /\ natural d (bZ o) /\ n = txt "_PUSH_" ++ d ++ txt "_BYTES") \/ names_op n o.
Proof. intros [d R N|n' M]; [left; eauto|right; exact M]. Qed.
Lemma spoken_inj o o' n : spoken o n -> spoken o' n -> o = o'.
Proof.
  intros H H'. apply spoken_inv in H as [(d & R & N & ->)|M], H' as [(d' & R' & N' & E)|M'].
  - apply bZ_inj. apply app_inv_head, app_inv_tail in E as ->. eapply natural_fun; eassumption.
  - exfalso. apply named_OP in M'. discriminate M'.
  - exfalso. subst n. apply named_OP in M. discriminate M.
  - apply from_name_iff in M, M'. congruence.
Qed.
Definition wordb (n : bytes) : bool := forallb (fun c => negb (byte_eqb c x20 || byte_eqb c x3e || byte_eqb c x2c)) n.
Definition wordy (n : bytes) : Prop := ~ In x20 n /\ ~ In x3e n /\ ~ In x2c n.
Lemma wordb_ok n : wordb n = true -> wordy n.
Proof.
  unfold wordb. rewrite forallb_forall. intros H. repeat split; intros I; specialize (H _ I); discriminate H.
Qed.
Lemma wordy_app a b : wordy a -> wordy b -> wordy (a ++ b).
Proof. intros (A1 & A2 & A3) (B1 & B2 & B3). unfold wordy. rewrite !in_app_iff. tauto. Qed.
Lemma natural_wordy t n : natural t n -> wordy t.
Proof.
  intros N. apply natural_digits in N. rewrite Forall_forall in N.
  repeat split; intros I; specialize (N _ I); [change (bZ x20) with 32 in N|change (bZ x3e) with 62 in N|change (bZ x2c) with 44 in N]; lia.
Qed.
Lemma spoken_wordy o n : spoken o n -> wordy n.
Proof.
  intros [d R N|n' M].
  - apply wordy_app; [apply wordb_ok; reflexivity|apply wordy_app; [eapply natural_wordy, N|apply wordb_ok; reflexivity]].
  - apply wordb_ok. unfold names_op in M. assert (C : forallb (fun p => wordb (fst p)) named_ops = true) by (vm_compute; reflexivity).
    rewrite forallb_forall in C. apply (C _ M).
Qed.

(** ** instructions *)
Lemma printable_spoken i : printable i -> exists n, op_name (i_op i) = Ok n /\ spoken (i_op i) n.
Proof. intros P. destruct (op_name_is (i_op i)) as [X|(_ & A & B)]; [exact X|]. destruct P; contradiction. Qed.
Lemma wf_data i : well_formed i -> pushes (i_op i) -> exists d, i_data i = Some d.
Proof. unfold well_formed. destruct (i_data i) as [d|]; [eauto|]. tauto. Qed.
Lemma repr_instr_text i : well_formed i -> printable i -> exists t, repr_instr i = Ok t /\ instr_text i t.
Proof.
  intros W P. destruct (printable_spoken i P) as (n & E & S). unfold repr_instr. destruct (is_push (i_op i)) eqn:Q; rewrite E; cbn [bind].
  - apply push_iff in Q. destruct (wf_data i W Q) as (d & D). rewrite D. eexists. split; [reflexivity|].
    apply Instr_push with d; auto. apply encode_hex_text.
  - apply push_false in Q. eexists. split; [reflexivity|]. constructor; auto.
Qed.
Lemma repr_instr_unnamed i : ~ printable i -> repr_instr i = Err E_KeyError.
Proof.
  intros P. destruct (op_name_is (i_op i)) as [(n & _ & S)|(E & _)].
  - exfalso. apply P. destruct S as [d R _|n M]; [left; exact R|right; exists n; exact M].
  - unfold repr_instr. destruct (is_push (i_op i)); rewrite E; reflexivity.
Qed.
Lemma hex_text_chars h d : hex_text h d -> Forall (fun c => 48 <= bZ c <= 57 \/ 65 <= bZ c <= 70 \/ 97 <= bZ c <= 102) h.
Proof. induction 1 as [|a b x h d A B _ _ IH]; [apply Forall_nil|]. apply Forall_cons; [exact A|apply Forall_cons; [exact B|exact IH]]. Qed.
Lemma hex_text_fun h d d' : hex_text h d -> hex_text h d' -> d = d'.
Proof. intros A B. apply decode_hex_iff in A, B. congruence. Qed.
Lemma instr_text_inv i t : instr_text i t ->
  (exists n, ~ pushes (i_op i) /\ spoken (i_op i) n /\ t = txt "<Instruction: " ++ n ++ txt ">") \/
  (exists n d h, pushes (i_op i) /\ spoken (i_op i) n /\ i_data i = Some d /\ hex_text h (pyb_bytes d) /\
     t = txt "<Instruction: " ++ n ++ txt " '" ++ h ++ txt "'>").
Proof. intros [n Q S|n d h Q S E T]; [left; eauto|right; eauto 10]. Qed.
Lemma instr_text_inj i j t : well_formed i -> well_formed j -> instr_text i t -> instr_text j t -> content i = content j.
Proof.
  intros W V H H'. unfold content.
  assert (D : forall k, well_formed k -> ~ pushes (i_op k) -> i_data k = None).
  { intros k K N. unfold well_formed in K. destruct (i_data k) as [d|]; [|reflexivity]. exfalso. apply N. unfold push_length in K. unfold pushes. lia. }
  assert (X : forall n n' r, wordy n -> wordy n' -> n ++ txt ">" = n' ++ txt " '" ++ r -> False).
  { intros n n' r A B E. assert (I : In x20 (n ++ txt ">")) by (rewrite E; apply in_or_app; right; left; reflexivity).
    apply in_app_or in I as [I|[I|[]]]; [exact (proj1 A I)|discriminate I]. }
  apply instr_text_inv in H as [(n & Q & S & ->)|(n & d & h & Q & S & E1 & T & ->)], H' as [(n' & Q' & S' & E)|(n' & d' & h' & Q' & S' & E1' & T' & E)].
  - apply app_inv_head, app_inv_tail in E as ->. rewrite (spoken_inj _ _ _ S S'), (D i W Q), (D j V Q'). reflexivity.
  - exfalso. apply app_inv_head in E. eapply X; [eapply spoken_wordy, S|eapply spoken_wordy, S'|exact E].
  - exfalso. apply app_inv_head in E. symmetry in E. eapply X; [eapply spoken_wordy, S'|eapply spoken_wordy, S|exact E].
  - apply app_inv_head in E. change (txt " '" ++ h' ++ txt "'>") with (x20 :: x27 :: h' ++ txt "'>") in E.
    change (txt " '" ++ h ++ txt "'>") with (x20 :: x27 :: h ++ txt "'>") in E.
    apply split_byte in E as (-> & E); [|exact (proj1 (spoken_wordy _ _ S))|exact (proj1 (spoken_wordy _ _ S'))].
    injection E as E. apply app_inv_tail in E as ->. rewrite (spoken_inj _ _ _ S S'), E1, E1'. cbn [option_map]. rewrite (hex_text_fun _ _ _ T T'). reflexivity.
Qed.
Lemma repr_instr_inj i j t : well_formed i -> well_formed j -> repr_instr i = Ok t -> repr_instr j = Ok t -> content i = content j.
Proof.
  intros W V E F. assert (PD : forall k, printable k \/ ~ printable k) by (intros k; unfold printable; rewrite has_name_iff; lia).
  destruct (PD i) as [P|P]; [|rewrite (repr_instr_unnamed i P) in E; discriminate].
  destruct (PD j) as [Q|Q]; [|rewrite (repr_instr_unnamed j Q) in F; discriminate].
  destruct (repr_instr_text i W P) as (t1 & E1 & T1), (repr_instr_text j V Q) as (t2 & E2 & T2).
  rewrite E in E1. rewrite F in E2. injection E1 as <-. injection E2 as <-. eapply instr_text_inj; eassumption.
Qed.

(** ** tuples *)
Lemma tuple_eq l : tuple_text l (repr_tuple l).
Proof.
  destruct l as [|a [|b l]]; [constructor|constructor|]. cbn [repr_tuple]. constructor.
  revert a b. induction l as [|c l IH]; intros a b.
  - cbn [join_with]. constructor. constructor.
  - cbn [join_with]. constructor. apply IH.
Qed.
Definition nocomma (t : bytes) : Prop := ~ In x2c t.
Lemma join_inj : forall l m, Forall nocomma l -> Forall nocomma m -> l <> [] -> m <> [] -> join_with (txt ", ") l = join_with (txt ", ") m -> l = m.
Proof.
  induction l as [|a l IH]; intros [|b m] L M NL NM E; try congruence. clear NL NM.
  inversion L as [|? ? La Ll]; inversion M as [|? ? Mb Mm]; subst.
  destruct l as [|a' l], m as [|b' m]; cbn [join_with] in E.
  - congruence.
  - exfalso. apply La. rewrite E. apply in_or_app. right. left. reflexivity.
  - exfalso. apply Mb. rewrite <- E. apply in_or_app. right. left. reflexivity.
  - change (txt ", ") with ([x2c; x20]) in E. cbn [app] in E.
    apply split_byte in E as (-> & E); [|exact La|exact Mb]. injection E as E. f_equal. apply IH; auto; discriminate.
Qed.
Lemma repr_tuple_inj l m : Forall nocomma l -> Forall nocomma m -> Forall (fun t => t <> []) l -> Forall (fun t => t <> []) m ->
  repr_tuple l = repr_tuple m -> l = m.
Proof.
  intros L M NL NM E.
  assert (One : forall a c d r, nocomma a -> nocomma c -> repr_tuple [a] = repr_tuple (c :: d :: r) -> False).
  { intros a c d r A C X. cbn [repr_tuple join_with] in X. change (txt "(" ++ a ++ txt ",)") with (x28 :: a ++ x2c :: [x29]) in X.
    change (txt "(") with [x28] in X. cbn [app] in X. injection X as X. rewrite <- app_assoc in X.
    change (txt ", ") with [x2c; x20] in X. cbn [app] in X. apply split_byte in X as (_ & X); [discriminate|exact A|exact C]. }
  assert (Nil : forall a r, a <> [] -> repr_tuple [] = repr_tuple (a :: r) -> False).
  { intros a r A X. destruct a as [|x a]; [congruence|]. destruct r as [|b r].
    - change ([x28; x29] = x28 :: x :: a ++ txt ",)") in X. injection X as _ X. destruct a; discriminate.
    - assert (J : repr_tuple ((x :: a) :: b :: r) = x28 :: x :: (a ++ txt ", " ++ join_with (txt ", ") (b :: r)) ++ [x29]) by reflexivity.
      rewrite J in X. change (repr_tuple []) with [x28; x29] in X. injection X as _ X. apply app_cons_not_nil in X. exact X. }
  inversion NL as [|a0 ? A0 _]; subst; [destruct m as [|b m]; [reflexivity|]; inversion NM; subst; exfalso; eapply Nil; eassumption|].
  inversion NM as [|b0 ? B0 _]; subst; [symmetry in E; exfalso; eapply Nil; eassumption|].
  inversion L as [|? ? La Ll]; inversion M as [|? ? Mb Mm]; subst.
  destruct l0 as [|a1 l1], l as [|b1 m1].
  - cbn [repr_tuple] in E. apply app_inv_head, app_inv_tail in E as ->. reflexivity.
  - exfalso. eapply One; [exact La|exact Mb|exact E].
  - symmetry in E. exfalso. eapply One; [exact Mb|exact La|exact E].
  - cbn [repr_tuple] in E. apply app_inv_head, app_inv_tail in E. apply join_inj in E; auto; discriminate.
Qed.

(** ** scripts *)
Lemma all_ok_ok {A} (l : list (res A)) m : all_ok l = Ok m <-> l = map Ok m.
Proof.
  revert m. induction l as [|a l IH]; intros m; cbn [all_ok].
  - split; [intros E; injection E as <-; reflexivity|]. destruct m; [reflexivity|discriminate].
  - destruct a as [x|e]; cbn [bind].
    + destruct (all_ok l) as [xs|e] eqn:E; cbn [bind].
      * split; [intros X; injection X as <-; cbn [map]; f_equal; apply IH; reflexivity|]. destruct m as [|y m]; [discriminate|].
        cbn [map]. intros X; injection X as <- X. apply IH in X. congruence.
      * split; [discriminate|]. destruct m as [|y m]; [discriminate|]. cbn [map]. intros X; injection X as <- X. apply IH in X. discriminate.
    + split; [discriminate|]. destruct m; discriminate.
Qed.
Lemma all_ok_err {A} (l : list (res A)) e : Exists (fun r => r = Err e) l -> Forall (fun r => forall x, r = Err x -> x = e) l -> all_ok l = Err e.
Proof.
  induction l as [|a l IH]; intros X F; [inversion X|]. inversion F as [|? ? Fa Fl]; subst. cbn [all_ok]. destruct a as [x|x]; cbn [bind].
  - inversion X as [? ? H|? ? H]; subst; [discriminate|]. rewrite (IH H Fl). reflexivity.
  - rewrite (Fa x eq_refl). reflexivity.
Qed.
Lemma repr_instrs_text l : Forall well_formed l -> Forall printable l -> exists ts, all_ok (map repr_instr l) = Ok ts /\ Forall2 instr_text l ts.
Proof.
  induction l as [|i l IH]; intros W P; cbn [map all_ok]; [exists []; split; [reflexivity|constructor]|].
  inversion W; inversion P; subst. destruct (repr_instr_text i) as (t & E & T); try assumption. destruct IH as (ts & Es & Ts); try assumption.
  rewrite E. cbn [bind]. rewrite Es. exists (t :: ts). split; [reflexivity|constructor; assumption].
Qed.
Lemma repr_script_text s : Forall well_formed (s_ins s) -> Forall printable (s_ins s) -> exists t, repr_script s = Ok t /\ script_text s t.
Proof.
  intros W P. destruct (repr_instrs_text _ W P) as (ts & E & T). unfold repr_script. rewrite E. cbn [bind]. eexists. split; [reflexivity|].
  exists ts. split; [exact T|apply tuple_eq].
Qed.
Lemma printable_dec' k : printable k \/ ~ printable k.
Proof. unfold printable. rewrite has_name_iff. lia. Qed.
Lemma printable_all l : Forall printable l \/ Exists (fun i => ~ printable i) l.
Proof.
  induction l as [|i l [IH|IH]]; [left; apply Forall_nil| |right; apply Exists_cons_tl, IH].
  destruct (printable_dec' i) as [P|P]; [left; apply Forall_cons; assumption|right; apply Exists_cons_hd, P].
Qed.
Lemma repr_script_unnamed s : Forall well_formed (s_ins s) -> Exists (fun i => ~ printable i) (s_ins s) -> repr_script s = Err E_KeyError.
Proof.
  intros W X. unfold repr_script. rewrite all_ok_err with (e := E_KeyError); [reflexivity| |].
  - apply Exists_exists in X as (i & I & N). apply Exists_exists. exists (repr_instr i). split; [apply in_map, I|apply repr_instr_unnamed, N].
  - apply Forall_forall. intros r R. apply in_map_iff in R as (i & <- & I). rewrite Forall_forall in W. intros x E.
    destruct (printable_dec' i) as [P|P]; [destruct (repr_instr_text i (W i I) P) as (t & F & _); congruence|].
    rewrite (repr_instr_unnamed i P) in E. congruence.
Qed.
Lemma instr_text_shape i t : instr_text i t -> nocomma t /\ t <> [].
Proof.
  intros [n Q S|n d h Q S E T]; (split; [|discriminate]); apply spoken_wordy in S as (_ & _ & S); unfold nocomma; rewrite !in_app_iff.
  - intros [I|[I|I]]; [|auto|]; cbn in I; repeat destruct I as [I|I]; try discriminate I; destruct I.
  - intros [I|[I|[I|[I|I]]]]; [|auto| | |]; try (cbn in I; repeat destruct I as [I|I]; try discriminate I; destruct I).
    apply hex_text_chars in T. rewrite Forall_forall in T. specialize (T _ I). change (bZ x2c) with 44 in T. lia.
Qed.
Lemma Forall2_shape l ts : Forall2 instr_text l ts -> Forall nocomma ts /\ Forall (fun t => t <> []) ts.
Proof. induction 1 as [|i t l ts H _ (A & B)]; [split; apply Forall_nil|]. apply instr_text_shape in H as (X & Y). split; apply Forall_cons; assumption. Qed.
Lemma repr_script_inj a b t : Forall well_formed (s_ins a) -> Forall well_formed (s_ins b) ->
  repr_script a = Ok t -> repr_script b = Ok t -> same_script a b.
Proof.
  intros W V E F. unfold same_script.
  assert (K : forall s t, Forall well_formed (s_ins s) -> repr_script s = Ok t -> exists ts, Forall2 instr_text (s_ins s) ts /\ t = repr_tuple ts).
  { intros s u Ws Es. destruct (printable_all (s_ins s)) as [P|P]; [|rewrite (repr_script_unnamed s Ws P) in Es; discriminate].
    destruct (repr_instrs_text _ Ws P) as (ts & X & T). exists ts. split; [exact T|]. unfold repr_script in Es. rewrite X in Es. cbn [bind] in Es. congruence. }
  destruct (K a t W E) as (ts & T & ->), (K b _ V F) as (us & U & X).
  destruct (Forall2_shape _ _ T), (Forall2_shape _ _ U). apply repr_tuple_inj in X; try assumption. subst us. clear - W V T U.
  revert W V U. generalize (s_ins b). induction T as [|i t l ts H _ IH]; intros m W V U; inversion U; subst; [reflexivity|].
  inversion W; inversion V; subst. cbn [map]. f_equal; [eapply instr_text_inj; eassumption|apply IH; assumption].
Qed.
(** the failures assumed elsewhere *)
Lemma script_repr_agrees s : Forall well_formed (s_ins s) -> script_repr_fails s = negb (is_ok (repr_script s)).
Proof.
  intros W. unfold script_repr_fails. f_equal. destruct (printable_all (s_ins s)) as [P|P].
  - destruct (repr_script_text s W P) as (t & -> & _). cbn [is_ok]. apply forallb_forall. intros i I. rewrite Forall_forall in P.
    destruct (printable_spoken i (P i I)) as (n & -> & _). reflexivity.
  - rewrite (repr_script_unnamed s W P). cbn [is_ok]. apply not_true_is_false. intros H. rewrite forallb_forall in H.
    apply Exists_exists in P as (i & I & N). specialize (H i I). cbv beta in H.
    destruct (op_name_is (i_op i)) as [(n & _ & S)|(E & _)]; [|rewrite E in H; discriminate].
    apply N. destruct S as [d R _|n M]; [left; exact R|right; exists n; exact M].
Qed.


Lemma Ok_inj {A} (a b : A) : Ok a = Ok b -> a = b.
Proof. congruence. Qed.
Lemma repr_script_cases s : wf_script s ->
  (Forall printable (s_ins s) /\ exists t, repr_script s = Ok t /\ script_text s t) \/
  (~ Forall printable (s_ins s) /\ repr_script s = Err E_KeyError).
Proof.
  intros W. destruct (printable_all (s_ins s)) as [P|P].
  - left. split; [exact P|apply repr_script_text; assumption].
  - right. split; [|apply repr_script_unnamed; assumption]. intros F. apply Exists_exists in P as (i & I & N). rewrite Forall_forall in F. auto.
Qed.
(** the texts of the errors of a Transaction's constructor *)
Lemma obj_error_agrees lg id other o c : c = X_Tx_NotAnInput \/ c = X_Tx_NotAnOutput -> wf_obj o ->
  match build c [A_obj (shown_obj lg id other o)] with Ok _ => True | Err k => k = E_KeyError end /\
  forall e, obj_error o e = match build c [A_obj (shown_obj lg id other o)] with Ok _ => e | Err k => k end.
Proof.
  intros C W. assert (B : build c [A_obj (shown_obj lg id other o)] =
    let! s := shown_obj lg id other o in Ok (txt "Transaction expected instances of Input, got " ++ s ++ txt " instead")).
  { destruct C as [-> | ->]; apply build_object; reflexivity. }
  rewrite B. destruct o as [i|x|]; cbn [wf_obj shown_obj obj_error] in *; unfold obj_error, repr_input, repr_output.
  - rewrite (script_repr_agrees _ W). destruct (repr_script_cases _ W) as [(_ & t & -> & _)|(_ & ->)]; cbn [is_ok negb bind]; split; reflexivity || exact Logic.I.
  - rewrite (script_repr_agrees _ W). destruct (repr_script_cases _ W) as [(_ & t & -> & _)|(_ & ->)]; cbn [is_ok negb bind]; split; reflexivity || exact Logic.I.
  - cbn [bind]. split; reflexivity || exact Logic.I.
Qed.
Lemma wrong_type_agrees o : wrong_opcode_type o = match build X_Op_WrongType [A_opcode o] with Ok _ => E_Op_WrongOpcodeType | Err e => e end.
Proof. rewrite build_wrong_type. unfold wrong_opcode_type. destruct (op_name o); reflexivity. Qed.
Lemma unexpected_agrees o : unexpected_data o = match build X_Ins_UnexpectedData [A_opcode o] with Ok _ => E_Ins_UnexpectedData | Err e => e end.
Proof.
  rewrite (build_object X_Ins_UnexpectedData _ _ _ eq_refl). unfold unexpected_data. cbn [show].
  unfold repr_opcode. destruct (is_const_push o) eqn:C; [unfold op_name; rewrite C; reflexivity|]. destruct (op_name o); reflexivity.
Qed.
Lemma wrong_type_text o : (exists n, spoken o n /\ build X_Op_WrongType [A_opcode o] = Ok (txt "Opcode " ++ n ++ txt " does not support this operation")) \/
  (~ 1 <= bZ o <= 75 /\ ~ has_name o /\ build X_Op_WrongType [A_opcode o] = Err E_KeyError).
Proof.
  rewrite build_wrong_type. destruct (op_name_is o) as [(n & -> & S)|(-> & A & B)]; cbn [bind]; [left; eauto|right; auto].
Qed.
Lemma length_text o a b : 1 <= bZ o <= 75 \/ has_name o -> exists s n m, opcode_text o s /\ numeral n a /\ numeral m b /\
  build X_Ins_DataLength [A_opcode o; A_num a; A_num b] = Ok (txt "Opcode " ++ s ++ txt " can't push " ++ n ++ txt " bytes (max/exactly " ++ m ++ txt ")").
Proof.
  intros H. rewrite build_length. cbn [show]. destruct (repr_opcode_is o) as [(t & -> & T)|(_ & A & B)]; [|tauto].
  exists t, (sdec a), (sdec b). split; [exact T|]. split; [apply numeral_sdec|]. split; [apply numeral_sdec|reflexivity].
Qed.

(** ** transactions *)
Lemma all_ok_cases {A B} (f : A -> res B) (P : A -> Prop) l e : (forall x, In x l -> (P x /\ exists y, f x = Ok y) \/ (~ P x /\ f x = Err e)) ->
  (Forall P l /\ exists m, all_ok (map f l) = Ok m) \/ (~ Forall P l /\ all_ok (map f l) = Err e).
Proof.
  induction l as [|a l IH]; intros H; cbn [map all_ok]; [left; split; [apply Forall_nil|eauto]|].
  destruct (H a (or_introl eq_refl)) as [(Pa & y & ->)|(Pa & ->)]; cbn [bind].
  - destruct IH as [(Pl & m & ->)|(Pl & ->)]; [intros x I; apply H; right; exact I|left; split; [apply Forall_cons; assumption|cbn [bind]; eauto]|].
    right. split; [|reflexivity]. intros F. inversion F; auto.
  - right. split; [|reflexivity]. intros F. inversion F; auto.
Qed.
Lemma repr_tx_cases lg id t : wf_tx t -> (shown_tx t /\ exists s, repr_tx lg id t = Ok s) \/ (~ shown_tx t /\ repr_tx lg id t = Err E_KeyError).
Proof.
  intros (W & V). unfold repr_tx, shown_tx.
  destruct (all_ok_cases (repr_input lg id) (fun i => Forall printable (s_ins (in_script i))) (tx_inputs t) E_KeyError) as [(P & m & ->)|(P & ->)].
  { intros i I. rewrite Forall_forall in W. unfold repr_input. destruct (repr_script_cases _ (W i I)) as [(P & u & -> & _)|(P & ->)]; cbn [bind]; eauto. }
  - cbn [bind]. destruct (all_ok_cases (repr_output lg) (fun o => Forall printable (s_ins (out_script o))) (tx_outputs t) E_KeyError) as [(Q & k & ->)|(Q & ->)].
    { intros o I. rewrite Forall_forall in V. unfold repr_output. destruct (repr_script_cases _ (V o I)) as [(Z & u & -> & _)|(Z & ->)]; cbn [bind]; eauto. }
    + left. split; [auto|]. cbn [bind]. eauto.
    + right. split; [tauto|reflexivity].
  - right. split; [tauto|reflexivity].
Qed.

(** ** keys and addresses *)
Lemma repr_privkey_text k : 0 < k_secret k < curve_order ->
  exists h, hex_number h (k_secret k) /\ repr_privkey k = txt "<PrivateKey: " ++ h ++ txt ", network: " ++ n_name (k_network k) ++ txt ">".
Proof.
  intros R. exists (priv_to_hex k). split; [|reflexivity]. exists (priv_to_bytes k). split; [apply encode_hex_text|]. split; [apply priv_to_bytes_length|].
  apply priv_to_bytes_val, R.
Qed.
Lemma hex_nocomma h d : hex_text h d -> ~ In x2c h.
Proof. intros T I. apply hex_text_chars in T. rewrite Forall_forall in T. specialize (T _ I). change (bZ x2c) with 44 in T. lia. Qed.
Lemma hex_number_fun h z z' : hex_number h z -> hex_number h z' -> z = z'.
Proof. intros (b & T & _ & <-) (b' & T' & _ & <-). rewrite (hex_text_fun _ _ _ T T'). reflexivity. Qed.
Lemma repr_privkey_inj k k' : 0 < k_secret k < curve_order -> 0 < k_secret k' < curve_order ->
  (repr_privkey k = repr_privkey k' <-> k_secret k = k_secret k' /\ n_name (k_network k) = n_name (k_network k')).
Proof.
  intros R R'. split.
  - destruct (repr_privkey_text k R) as (h & H & ->), (repr_privkey_text k' R') as (h' & H' & ->). intros E. apply app_inv_head in E.
    change (txt ", network: ") with (x2c :: txt " network: ") in E. cbn [app] in E. apply split_byte in E as (-> & E).
    + apply app_inv_head, app_inv_tail in E. split; [eapply hex_number_fun; eassumption|exact E].
    + destruct H as (b & T & _). eapply hex_nocomma, T.
    + destruct H' as (b & T & _). eapply hex_nocomma, T.
  - intros (S & N). unfold repr_privkey, priv_to_hex, priv_to_bytes. rewrite S, N. reflexivity.
Qed.
Lemma known_name n m : known n -> known m -> n_name n = n_name m -> n = m.
Proof. intros [-> | ->] [-> | ->] E; try reflexivity; discriminate E. Qed.
Lemma repr_hdpriv_leaks lg k : 0 < k_secret (hv_privkey k) < curve_order -> exists h, hex_number h (k_secret (hv_privkey k)) /\ occurs h (repr_hdpriv lg k).
Proof.
  intros R. destruct (repr_privkey_text _ R) as (h & H & E). exists h. split; [exact H|].
  unfold repr_hdpriv, repr_named, fields. cbn [map fst snd]. rewrite E. cbn [join_with].
  exists (txt "HDPrivateKey" ++ txt "(" ++ txt "privkey" ++ txt "=" ++ txt "<PrivateKey: "). eexists. rewrite <- !app_assoc. reflexivity.
Qed.
Lemma repr_pubkey_text k : usable_pub k -> exists h b, repr_pubkey k = Ok (txt "<PublicKey: " ++ h ++ txt ", network: " ++ n_name (pk_network k) ++ txt ">") /\
  hex_text h b /\ sec_of (fst (pk_pair k)) (snd (pk_pair k)) (pk_compressed k) b /\ pk_from_hex h (VNet (pk_network k)) = Ok k.
Proof.
  destruct k as [[x y] n cp]. unfold usable_pub. cbn [pk_pair pk_compressed pk_network fst snd]. intros (ON & X & Y).
  destruct (pk_roundtrip x y n cp ON X Y) as (b & E & SO & R). exists (encode_hex b), b. unfold repr_pubkey, pk_to_hex. rewrite E. cbn [bind].
  split; [reflexivity|]. split; [apply encode_hex_text|]. split; [exact SO|]. unfold pk_from_hex. rewrite decode_encode_hex. cbn [recatch bind]. exact R.
Qed.
Lemma repr_pubkey_inj k k' t : usable_pub k -> usable_pub k' -> known (pk_network k) -> known (pk_network k') ->
  repr_pubkey k = Ok t -> repr_pubkey k' = Ok t -> k = k'.
Proof.
  intros U U' N N' E E'. destruct (repr_pubkey_text k U) as (h & b & F & T & _ & R), (repr_pubkey_text k' U') as (h' & b' & F' & T' & _ & R').
  rewrite E in F. rewrite E' in F'. apply Ok_inj in F, F'. rewrite F in F'. apply app_inv_head in F'.
  change (txt ", network: ") with (x2c :: txt " network: ") in F'. cbn [app] in F'. apply split_byte in F' as (-> & X); [|eapply hex_nocomma, T|eapply hex_nocomma, T'].
  apply app_inv_head, app_inv_tail in X. rewrite (known_name _ _ N N' X) in R. congruence.
Qed.
Lemma addr_string_in58 s a : addr_from_string s = Ok a -> Forall in58 s.
Proof.
  unfold addr_from_string. destruct (decode_base58h s) as [b|e] eqn:D; cbn [recatch bind]; [|destruct (is_invalid_base58h e); discriminate]. intros _.
  unfold decode_base58h, a2b_hashed_base58 in D. apply a2b_base58_ok_iff. destruct (a2b_base58 s) as [d|e]; [eauto|]. cbn [bind recatch] in D.
  destruct (is_utils_encoding e); discriminate.
Qed.
Lemma in58_nocomma s : Forall in58 s -> ~ In x2c s.
Proof. intros F I. rewrite Forall_forall in F. apply (F _ I). reflexivity. Qed.
Lemma repr_address_text a : valid_addr a -> exists s, addr_from_string s = Ok a /\
  repr_address a = Ok (txt "<Address: " ++ s ++ txt ", type: " ++ (match a_type a with T_PublicKey => txt "PublicKey" | T_Script => txt "Script" end) ++ txt ", network: " ++ n_name (a_network a) ++ txt ">").
Proof.
  intros V. destruct (addr_string_roundtrip a V) as (s & E & F). exists s. split; [exact F|]. unfold repr_address. rewrite E. reflexivity.
Qed.
Lemma repr_address_inj a b t : valid_addr a -> valid_addr b -> repr_address a = Ok t -> repr_address b = Ok t -> a = b.
Proof.
  intros V W E E'. destruct (repr_address_text a V) as (s & F & G), (repr_address_text b W) as (s' & F' & G').
  rewrite E in G. rewrite E' in G'. apply Ok_inj in G, G'. rewrite G in G'. apply app_inv_head in G'.
  change (txt ", type: ") with (x2c :: txt " type: ") in G'. cbn [app] in G'.
  apply split_byte in G' as (-> & _); [congruence|eapply in58_nocomma, addr_string_in58, F|eapply in58_nocomma, addr_string_in58, F'].
Qed.

(** ** amounts *)
Lemma unit_text u : exists n, numeral n (u_satoshis u) /\ unit_str u = n ++ txt " satoshis" /\ repr_unit u = txt "<Unit: " ++ n ++ txt " satoshis>".
Proof.
  exists (sdec (u_satoshis u)). split; [apply numeral_sdec|]. split; [reflexivity|]. unfold repr_unit, unit_str. rewrite <- app_assoc. reflexivity.
Qed.
Lemma repr_unit_inj u v : (repr_unit u = repr_unit v <-> u_satoshis u = u_satoshis v) /\ (unit_str u = unit_str v <-> u_satoshis u = u_satoshis v).
Proof.
  assert (K : unit_str u = unit_str v <-> u_satoshis u = u_satoshis v).
  { unfold unit_str. split; [intros E; apply app_inv_tail in E; apply sdec_inj, E|intros ->; reflexivity]. }
  split; [|exact K]. rewrite <- K. unfold repr_unit. split; [|intros ->; reflexivity]. intros E. apply app_inv_head, app_inv_tail in E. exact E.
Qed.
Lemma repr_uri_text u : match to_uri u with Ok t => repr_uri u = Ok (txt "<URI: " ++ t ++ txt ">") | Err e => repr_uri u = Err e end.
Proof. unfold repr_uri. destruct (to_uri u); reflexivity. Qed.

(** ** networks, inputs and outputs: the fields in order *)
Lemma named_text name l : l <> [] -> exists u, commas (map (fun f => fst f ++ txt "=" ++ snd f) l) u /\ repr_named name l = name ++ txt "(" ++ u ++ txt ")".
Proof.
  intros N. exists (fields l). split; [|reflexivity]. unfold fields.
  destruct l as [|f l]; [congruence|]. clear N. revert f. induction l as [|g l IH]; intros f; [constructor|].
  change (commas ((fst f ++ txt "=" ++ snd f) :: map (fun f => fst f ++ txt "=" ++ snd f) (g :: l))
    ((fst f ++ txt "=" ++ snd f) ++ txt ", " ++ join_with (txt ", ") (map (fun f => fst f ++ txt "=" ++ snd f) (g :: l)))). constructor. apply IH.
Qed.


(** ** how strings are written *)
Lemma esc_written p q c t b : written p q t b -> written p q (esc p c ++ t) (c :: b).
Proof.
  intros W. unfold esc.
  destruct (byte_eqb c p) eqn:E1; cbn [orb].
  { apply byte_eqb_eq in E1 as ->. apply W_mark; [left; reflexivity|exact W]. }
  destruct (byte_eqb c x5c) eqn:E2; cbn [orb].
  { apply byte_eqb_eq in E2 as ->. apply W_mark; [right; reflexivity|exact W]. }
  destruct (byte_eqb c x09) eqn:E3. { apply byte_eqb_eq in E3 as ->. apply W_tab, W. }
  destruct (byte_eqb c x0a) eqn:E4. { apply byte_eqb_eq in E4 as ->. apply W_newline, W. }
  destruct (byte_eqb c x0d) eqn:E5. { apply byte_eqb_eq in E5 as ->. apply W_return, W. }
  apply byte_eqb_false in E1, E2, E3, E4, E5. pose proof (bZ_range c) as R.
  destruct ((bZ c <? 32) || (127 <=? bZ c)) eqn:E6.
  - cbn [encode_hex app].
    eapply W_hex; [lia| |apply hex_digit_is, conj; [apply Z.div_pos; lia|apply Z.div_lt_upper_bound; lia]|apply hex_digit_is, Z.mod_pos_bound; lia
      |pose proof (Z.div_mod (bZ c) 16); lia|exact W].
    intros [I|[I|[I|[]]]]; [apply E3|apply E4|apply E5]; apply bZ_inj; symmetry; exact I.
  - cbn [app]. apply W_char; try assumption. lia.
Qed.
Lemma escs_written p q b : written p q (flat_map (esc p) b ++ [q]) b.
Proof. induction b as [|c b IH]; cbn [flat_map app]; [constructor|]. rewrite <- app_assoc. apply esc_written, IH. Qed.
Lemma quote_chosen b : chosen (quote_of b) b.
Proof.
  unfold chosen, quote_of. pose proof (has_byte_in x27 b) as A. pose proof (has_byte_in x22 b) as B.
  destruct (has_byte x27 b), (has_byte x22 b); cbn [andb negb].
  - right. split; [reflexivity|]. right. apply B. reflexivity.
  - left. split; [reflexivity|]. split; [apply A; reflexivity|]. intros I. apply B in I. discriminate.
  - right. split; [reflexivity|]. left. intros I. apply A in I. discriminate.
  - right. split; [reflexivity|]. left. intros I. apply A in I. discriminate.
Qed.
Lemma repr_string_written b : exists q, chosen q b /\
  (exists t, written q q t b /\ repr_str b = q :: t /\ repr_text b = txt "u" ++ q :: t) /\
  (exists t, written x27 q t b /\ repr_ba b = txt "bytearray(b" ++ (q :: t) ++ txt ")").
Proof.
  exists (quote_of b). split; [apply quote_chosen|]. split.
  - eexists. split; [apply escs_written|]. split; reflexivity.
  - eexists. split; [apply escs_written|reflexivity].
Qed.
Lemma repr_string_read b : literal (repr_str b) b /\ printable_ascii (repr_str b) /\
  exists t, literal t b /\ printable_ascii t /\ repr_ba b = txt "bytearray(b" ++ t ++ txt ")".
Proof.
  split; [apply repr_str_literal|]. split; [apply repr_str_printable|]. destruct (repr_ba_literal b) as (t & T & E). exists t. split; [exact T|]. split; [|exact E].
  pose proof (repr_ba_printable b) as P. rewrite E in P. apply Forall_app in P as (_ & P). apply Forall_app in P as (P & _). exact P.
Qed.
Lemma repr_string_inj a b : is_string a -> is_string b -> repr_arg a = repr_arg b -> a = b.
Proof.
  intros A B E. assert (E' : repr_arg a ++ [] = repr_arg b ++ []) by (rewrite !app_nil_r; exact E).
  apply (shown_prefix _ _ _ _ _ _ (repr_shown a A) (repr_shown b B) E').
Qed.

(** ** messages *)
Lemma msg_string c pre post len a : about_string c = Some (pre, post, len) -> is_string a ->
  exists r n, build c [a] = Ok (txt pre ++ r ++ txt post ++ n) /\ shown a r /\ printable_ascii r /\
    (if len then numeral n (arg_length a) else n = []).
Proof.
  intros A S. rewrite (build_string c pre post len a A S). exists (repr_arg a). eexists. split; [reflexivity|]. split; [apply repr_shown, S|].
  split; [apply repr_arg_printable|]. destruct len; [apply numeral_sdec|reflexivity].
Qed.
Lemma msg_string_bytes c pre post len b : about_string c = Some (pre, post, len) ->
  exists q t n, chosen q b /\ written q q t b /\ (if len then numeral n (Z.of_nat (List.length b)) else n = []) /\
    build c [A_str (Str b)] = Ok (txt pre ++ (q :: t) ++ txt post ++ n) /\
    build c [A_text b] = Ok (txt pre ++ (txt "u" ++ q :: t) ++ txt post ++ n).
Proof.
  intros A. destruct (repr_string_written b) as (q & Q & (t & W & E & F) & _). exists q, t. eexists. split; [exact Q|]. split; [exact W|].
  split; [|split; [rewrite (build_string c pre post len _ A) by exact Logic.I; cbn [repr_arg repr_pyb]; rewrite E; reflexivity|
    rewrite (build_string c pre post len _ A) by exact Logic.I; cbn [repr_arg repr_pyb]; rewrite F; reflexivity]].
  destruct len; [apply numeral_sdec|reflexivity].
Qed.
Lemma msg_number c pre post z : about_number c = Some (pre, post) ->
  exists n, numeral n z /\ build c [A_num z] = Ok (txt pre ++ n ++ txt post).
Proof. intros A. exists (sdec z). split; [apply numeral_sdec|apply build_number, A]. Qed.
Lemma msg_object c pre post : about_object c = Some (pre, post) ->
  (forall s, build c [A_obj (Ok s)] = Ok (txt pre ++ s ++ txt post)) /\ (forall e, build c [A_obj (Err e)] = Err e) /\
  (forall o, 1 <= bZ o <= 75 \/ has_name o -> exists s, opcode_text o s /\ build c [A_opcode o] = Ok (txt pre ++ s ++ txt post)) /\
  (forall o, ~ (1 <= bZ o <= 75 \/ has_name o) -> build c [A_opcode o] = Err E_KeyError).
Proof.
  intros A. split; [|split; [|split]]; intros x; rewrite (build_object c pre post _ A); cbn [show bind]; try reflexivity;
    intros H; destruct (repr_opcode_is x) as [(t & E & T)|(E & N & M)]; rewrite E; cbn [bind]; try tauto; eauto.
  exfalso. apply H. destruct T as [n R _|n name M _]; [left; exact R|right; exists name; exact M].
Qed.
Lemma msg_network c pre k z : about_network c = Some pre -> exists n, numeral n z /\
  build c [A_text k; A_num z] = Ok (txt pre ++ k ++ txt "' of value " ++ n).
Proof. intros A. exists (sdec z). split; [apply numeral_sdec|]. rewrite (build_network c pre _ _ A). reflexivity. Qed.
Lemma msg_network_text c pre k v : about_network c = Some pre ->
  build c [A_text k; A_text v] = Ok (txt pre ++ k ++ txt "' of value " ++ v) /\
  (ascii_text v -> build c [A_text k; A_str (Str v)] = Ok (txt pre ++ k ++ txt "' of value " ++ v)).
Proof.
  intros A. split; [rewrite (build_network c pre _ _ A); reflexivity|]. intros V. rewrite (build_network c pre _ _ A). cbn [show bind pyb_bytes].
  apply is_ascii_text in V. rewrite V. reflexivity.
Qed.
Lemma msg_network_str c pre k v : about_network c = Some pre -> ~ ascii_text v -> build c [A_text k; A_str (Str v)] = Err E_UnicodeDecodeError.
Proof.
  intros A V. rewrite (build_network c pre _ _ A). cbn [show bind pyb_bytes]. rewrite <- is_ascii_text in V. destruct (is_ascii v); [congruence|reflexivity].
Qed.
Lemma msg_network_unshown c pre k v : about_network c = Some pre -> ~ ascii_text v ->
  exists m, build c [A_text k; A_text v] = Ok m /\ exc_str m = None.
Proof.
  intros A V. eexists. split; [apply (proj1 (msg_network_text c pre k v A))|]. unfold exc_str.
  match goal with |- (if is_ascii ?m then _ else _) = _ => destruct (is_ascii m) eqn:E; [|reflexivity] end.
  exfalso. apply V. apply is_ascii_text in E. apply Forall_app in E as (_ & E). apply Forall_app in E as (_ & E). apply Forall_app in E as (_ & E). exact E.
Qed.
Lemma msg_network_same c pre k : about_network c = Some pre -> build c [A_text k; A_num 5] = build c [A_text k; A_text (txt "5")].
Proof. intros A. rewrite !(build_network c pre _ _ A). reflexivity. Qed.
Lemma msg_network_failed : ~ forall c pre k v, about_network c = Some pre -> exists m, build c [A_text k; A_str (Str v)] = Ok m.
Proof.
  intros H. destruct (H X_Network _ (txt "name") [xff] eq_refl) as (m & E). rewrite (msg_network_str X_Network _ (txt "name") [xff] eq_refl) in E; [discriminate|].
  intros A. inversion A as [|? ? K _]. change (bZ xff) with 255 in K. lia.
Qed.
Lemma msg_network_silent : ~ forall c pre k v m, about_network c = Some pre -> build c [A_text k; A_text v] = Ok m -> exc_str m <> None.
Proof.
  intros H. destruct (msg_network_unshown X_Network _ (txt "name") [xff] eq_refl) as (m & E & N).
  - intros A. inversion A as [|? ? K _]. change (bZ xff) with 255 in K. lia.
  - exact (H X_Network _ (txt "name") [xff] m eq_refl E N).
Qed.
Lemma msg_network_inj_fails : ~ forall c pre k v w, about_network c = Some pre -> build c [k; v] = build c [k; w] -> v = w.
Proof. intros H. specialize (H X_Network _ (A_text []) (A_num 5) (A_text (txt "5")) eq_refl (msg_network_same X_Network _ [] eq_refl)). discriminate. Qed.
Lemma msg_buffer a b : exists n m, numeral n a /\ numeral m b /\
  build X_InsufficientData [A_num a; A_num b] = Ok (txt "Attempted to read " ++ m ++ txt " bytes, but buffer only has " ++ n).
Proof. exists (sdec a), (sdec b). split; [apply numeral_sdec|]. split; [apply numeral_sdec|apply build_buffer]. Qed.
Lemma msg_count a b : exists n m, numeral n a /\ numeral m b /\
  build X_In_SignatureCount [A_num a; A_num b] = Ok (txt "This Input requires " ++ n ++ txt " keys to sign, but " ++ m ++ txt " were provided").
Proof. exists (sdec a), (sdec b). split; [apply numeral_sdec|]. split; [apply numeral_sdec|apply build_count]. Qed.
Lemma msg_opcode_fails : ~ forall o, exists m, build X_Op_WrongType [A_opcode o] = Ok m.
Proof. intros H. destruct (H xba) as (m & E). rewrite build_wrong_type in E. discriminate E. Qed.
Lemma msg_kinds c : undocumented c \/ about_string c <> None \/ about_number c <> None \/ about_network c <> None \/ about_object c <> None \/
  fixed_text c <> None \/ c = X_InsufficientData \/ c = X_In_SignatureCount \/ c = X_Ins_DataLength \/ c = X_Op_WrongType.
Proof. rewrite <- documented. destruct c; try (left; reflexivity); right; try (left; discriminate); right; try (left; discriminate); right; try (left; discriminate); right;
  try (left; discriminate); right; try (left; discriminate); auto. Qed.
Lemma msg_not_string c z : about_string c <> None -> build c [A_num z] = Err E_TypeError.
Proof. intros A. destruct (about_string c) as [x|] eqn:E; [|congruence]. rewrite build_eq, (about_string_prep c x E). reflexivity. Qed.
Lemma msg_shown_string c a m : about_string c <> None -> build c [a] = Ok m -> exc_str m = Some m.
Proof. intros A. destruct (about_string c) as [x|] eqn:E; [|congruence]. apply build_ascii. left. eapply about_string_prep, E. Qed.
Lemma msg_shown c l m : Forall ascii_arg l -> build c l = Ok m -> exc_str m = Some m.
Proof. intros A. apply build_ascii. right. exact A. Qed.

(** ** objects *)
Lemma opcode_shown o : (1 <= bZ o <= 75 \/ has_name o -> exists t, repr_opcode o = Ok t /\ opcode_text o t) /\
  (~ (1 <= bZ o <= 75 \/ has_name o) -> repr_opcode o = Err E_KeyError).
Proof.
  destruct (repr_opcode_is o) as [(t & E & T)|(E & N & M)]; split; intros H; try tauto; eauto.
  exfalso. apply H. destruct T as [n R _|n name M _]; [left; exact R|right; exists name; exact M].
Qed.
Lemma opcode_shown_fails : ~ forall o, exists t, repr_opcode o = Ok t.
Proof. intros H. destruct (H xba) as (m & E). discriminate E. Qed.
Lemma script_shown s : wf_script s ->
  (Forall printable (s_ins s) -> exists t, repr_script s = Ok t /\ script_text s t) /\ (~ Forall printable (s_ins s) -> repr_script s = Err E_KeyError).
Proof. intros W. destruct (repr_script_cases s W) as [(P & X)|(P & X)]; split; intros H; try contradiction; exact X. Qed.
Lemma privkey_hidden : ~ exists f : network -> bool -> bytes, forall k, valid_key k -> repr_privkey k = f (k_network k) (k_compressed k).
Proof.
  intros (f & H). assert (V : forall z, z = 1 \/ z = 2 -> 0 < z < curve_order) by (intros z Z; unfold curve_order; lia).
  pose proof (H (PrivateKey 1 livenet true) (conj (V 1 (or_introl eq_refl)) (or_introl eq_refl))) as A.
  pose proof (H (PrivateKey 2 livenet true) (conj (V 2 (or_intror eq_refl)) (or_introl eq_refl))) as B.
  cbn [k_network k_compressed] in A, B. rewrite <- B in A. apply repr_privkey_inj in A as (A & _); [discriminate A|apply V; left; reflexivity|apply V; right; reflexivity].
Qed.
Lemma privkey_shown_known k k' : valid_key k -> valid_key k' -> (repr_privkey k = repr_privkey k' <-> k_secret k = k_secret k' /\ k_network k = k_network k').
Proof.
  intros (R & N) (R' & N'). rewrite (repr_privkey_inj k k' R R'). split; intros (A & B); (split; [exact A|]); [apply known_name; assumption|congruence].
Qed.
Lemma privkey_compression_lost : ~ forall k k', valid_key k -> valid_key k' -> repr_privkey k = repr_privkey k' -> k = k'.
Proof.
  intros H. assert (V : 0 < 1 < curve_order) by (unfold curve_order; lia).
  specialize (H (PrivateKey 1 livenet true) (PrivateKey 1 livenet false) (conj V (or_introl eq_refl)) (conj V (or_introl eq_refl)) eq_refl). discriminate H.
Qed.
Lemma num_shown lg z : num_text lg z (repr_num lg z).
Proof. exists (sdec z). split; [apply numeral_sdec|]. unfold repr_num. destruct (lg z); reflexivity. Qed.
Lemma unicode_shown b : unicode_text b (repr_text b).
Proof. exists (repr_str b). split; [apply repr_str_literal|reflexivity]. Qed.
Lemma record_shown name l : l <> [] -> record_text name l (repr_named (txt name) (map (fun f => (txt (fst f), snd f)) l)).
Proof.
  intros N. destruct (named_text (txt name) (map (fun f => (txt (fst f), snd f)) l)) as (u & C & E); [destruct l; [congruence|discriminate]|].
  exists u. split; [|exact E]. rewrite map_map in C. exact C.
Qed.
Lemma commas_join l : l <> [] -> commas l (join_with (txt ", ") l).
Proof.
  destruct l as [|a l]; [congruence|]. intros _. revert a. induction l as [|b l IH]; intros a; [constructor|].
  change (commas (a :: b :: l) (a ++ txt ", " ++ join_with (txt ", ") (b :: l))). constructor. apply IH.
Qed.
Lemma list_shown l : list_text l (repr_list l).
Proof. destruct l as [|a l]; [left; split; reflexivity|]. right. eexists. split; [apply commas_join; discriminate|reflexivity]. Qed.
Lemma network_shown lg n : network_text lg n (repr_network lg n).
Proof.
  unfold network_text. exists (repr_text (n_name n)), (repr_num lg (n_pubkeyhash n)), (repr_num lg (n_wif_prefix n)), (repr_num lg (n_scripthash n)),
    (repr_num lg (n_hd_public_key n)), (repr_num lg (n_hd_private_key n)), (repr_num lg (n_magic n)), (repr_num lg (n_port n)),
    (map repr_text (n_seeds n)), (repr_list (map repr_text (n_seeds n))).
  do 8 (split; [apply num_shown || apply unicode_shown|]). split; [|split; [apply list_shown|apply record_shown; discriminate]].
  generalize (n_seeds n). intros l. induction l; cbn [map]; constructor; [apply unicode_shown|assumption].
Qed.
Lemma output_shown lg o : wf_script (out_script o) ->
  (Forall printable (s_ins (out_script o)) -> exists t, repr_output lg o = Ok t /\ output_text lg o t) /\
  (~ Forall printable (s_ins (out_script o)) -> repr_output lg o = Err E_KeyError).
Proof.
  intros W. unfold repr_output. destruct (repr_script_cases _ W) as [(P & s & E & S)|(P & E)]; rewrite E; cbn [bind]; split; intros H; try contradiction; [|reflexivity].
  eexists. split; [reflexivity|]. exists (repr_num lg (out_amount o)), s. split; [apply num_shown|]. split; [exact S|].
  apply (record_shown "Output" [("amount"%string, repr_num lg (out_amount o)); ("script"%string, s)]). discriminate.
Qed.
Lemma input_shown lg id i : wf_script (in_script i) ->
  (Forall printable (s_ins (in_script i)) -> exists t, repr_input lg id i = Ok t /\ input_text lg id i t) /\
  (~ Forall printable (s_ins (in_script i)) -> repr_input lg id i = Err E_KeyError).
Proof.
  intros W. unfold repr_input. destruct (repr_script_cases _ W) as [(P & s & E & S)|(P & E)]; rewrite E; cbn [bind]; split; intros H; try contradiction; [|reflexivity].
  eexists. split; [reflexivity|]. exists (repr_num lg (in_index i)), s, (repr_num lg (in_seq i)). split; [apply num_shown|]. split; [exact S|]. split; [apply num_shown|].
  apply (record_shown "Input" [("tx_id"%string, id (in_tx_id i)); ("txo_index"%string, repr_num lg (in_index i)); ("script"%string, s); ("seq_number"%string, repr_num lg (in_seq i))]). discriminate.
Qed.
Lemma all_shown {A} (f : A -> res bytes) (R : A -> bytes -> Prop) l : (forall x, In x l -> exists t, f x = Ok t /\ R x t) ->
  exists m, all_ok (map f l) = Ok m /\ Forall2 R l m.
Proof.
  induction l as [|a l IH]; intros H; cbn [map all_ok]; [exists []; split; [reflexivity|constructor]|].
  destruct (H a (or_introl eq_refl)) as (t & -> & T). destruct IH as (m & -> & M); [intros x I; apply H; right; exact I|].
  exists (t :: m). split; [reflexivity|constructor; assumption].
Qed.
Lemma tx_shown lg id t : wf_tx t ->
  (shown_tx t -> exists s, repr_tx lg id t = Ok s /\ tx_text lg id t s) /\ (~ shown_tx t -> repr_tx lg id t = Err E_KeyError).
Proof.
  intros W. split; [|intros N; destruct (repr_tx_cases lg id t W) as [(S & _)|(_ & E)]; [contradiction|exact E]].
  destruct W as (W & V). intros (P & Q). rewrite Forall_forall in *. unfold repr_tx.
  destruct (all_shown (repr_input lg id) (input_text lg id) (tx_inputs t)) as (l & -> & L).
  { intros i I. apply (input_shown lg id i (W i I)), (P i I). }
  cbn [bind]. destruct (all_shown (repr_output lg) (output_text lg) (tx_outputs t)) as (m & -> & M).
  { intros o I. apply (output_shown lg o (V o I)), (Q o I). }
  cbn [bind]. eexists. split; [reflexivity|]. exists l, (repr_tuple l), m, (repr_tuple m), (repr_num lg (tx_lock_time t)), (repr_num lg (tx_version t)).
  split; [exact L|]. split; [apply tuple_eq|]. split; [exact M|]. split; [apply tuple_eq|]. split; [apply num_shown|]. split; [apply num_shown|].
  apply (record_shown "Transaction" [("inputs"%string, repr_tuple l); ("outputs"%string, repr_tuple m); ("lock_time"%string, repr_num lg (tx_lock_time t)); ("version"%string, repr_num lg (tx_version t))]). discriminate.
Qed.
Lemma hdpriv_shown lg k : hd_text lg "HDPrivateKey" "privkey" (repr_privkey (hv_privkey k)) (hv_chain k) (hv_depth k) (hv_index k) (hv_parent k) (hv_network k) (hv_fingerprint k) (repr_hdpriv lg k).
Proof.
  exists (repr_str (hv_chain k)), (repr_num lg (hv_depth k)), (repr_num lg (hv_index k)), (repr_num lg (hv_parent k)), (repr_network lg (hv_network k)), (repr_num lg (hv_fingerprint k)).
  split; [apply repr_str_literal|]. do 3 (split; [apply num_shown|]). split; [apply network_shown|]. split; [apply num_shown|]. apply record_shown; discriminate.
Qed.
Lemma hdpub_shown lg k : match repr_pubkey (hp_pubkey k) with
  | Ok p => exists t, repr_hdpub lg k = Ok t /\ hd_text lg "HDPublicKey" "pubkey" p (hp_chain k) (hp_depth k) (hp_index k) (hp_parent k) (hp_network k) (hp_fingerprint k) t
  | Err e => repr_hdpub lg k = Err e end.
Proof.
  unfold repr_hdpub. destruct (repr_pubkey (hp_pubkey k)) as [p|e]; [|reflexivity]. cbn [bind]. eexists. split; [reflexivity|].
  exists (repr_str (hp_chain k)), (repr_num lg (hp_depth k)), (repr_num lg (hp_index k)), (repr_num lg (hp_parent k)), (repr_network lg (hp_network k)), (repr_num lg (hp_fingerprint k)).
  split; [apply repr_str_literal|]. do 3 (split; [apply num_shown|]). split; [apply network_shown|]. split; [apply num_shown|].
  apply (record_shown "HDPublicKey" [("pubkey"%string, p); ("chain"%string, repr_str (hp_chain k)); ("depth"%string, repr_num lg (hp_depth k)); ("index"%string, repr_num lg (hp_index k)); ("parent"%string, repr_num lg (hp_parent k)); ("network"%string, repr_network lg (hp_network k)); ("fingerprint"%string, repr_num lg (hp_fingerprint k))]). discriminate.
Qed.
