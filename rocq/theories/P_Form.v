(** What keys and addresses look like as text. *)
From Coq Require Import ZArith Lia Bool List String.
From Verif Require Import Base M_Hash M_Codec M_Keys M_EC M_HD S_Codec S_Keys S_EC S_HD S_Form P_Codec P_Keys P_PubKey P_HD.
Import ListNotations.
Open Scope Z_scope.
Local Open Scope list_scope.

Lemma val58_snoc_inv t c v : val58 (t ++ [c]) v -> exists u d, val58 t u /\ rank58 c = Some d /\ v = 58 * u + d.
Proof.
  intros H. inversion H as [N|t' u c' d H' R N E].
  - destruct t; discriminate.
  - apply app_inj_tail in N. destruct N as (-> & ->). eauto 10.
Qed.
Lemma val58_bound t v : val58 t v -> 0 <= v < 58 ^ Z.of_nat (List.length t).
Proof.
  induction 1 as [|t v c d H IH R]; [cbn; lia|]. apply rank58_props in R. rewrite app_length. cbn [List.length].
  rewrite Nat2Z.inj_add. change (Z.of_nat 1) with 1. rewrite Z.pow_add_r by lia. lia.
Qed.
Lemma val58_app p r v : val58 (p ++ r) v -> exists u w, val58 p u /\ val58 r w /\ v = u * 58 ^ Z.of_nat (List.length r) + w.
Proof.
  revert v. induction r as [|c r IH] using rev_ind; intros v H.
  - rewrite app_nil_r in H. exists v, 0. split; [exact H|]. split; [constructor|]. cbn [List.length]. change (Z.of_nat 0) with 0. lia.
  - rewrite app_assoc in H. apply val58_snoc_inv in H. destruct H as (x & d & H & R & ->). destruct (IH _ H) as (u & w & U & W & ->).
    exists u, (58 * w + d). split; [exact U|]. split; [constructor; assumption|]. rewrite app_length. cbn [List.length].
    rewrite Nat2Z.inj_add. change (Z.of_nat 1) with 1. rewrite Z.pow_add_r by lia. ring.
Qed.
Lemma val58_one c v : val58 [c] v -> rank58 c = Some v.
Proof.
  intros H. apply (val58_snoc_inv [] c v) in H. destruct H as (u & d & U & R & ->). apply val58_bound in U. cbn in U.
  rewrite R. f_equal. lia.
Qed.
Lemma val58_same p q v : List.length p = List.length q -> val58 p v -> val58 q v -> p = q.
Proof.
  revert q v. induction p as [|c p IH] using rev_ind; intros q v L P Q.
  - destruct q; [reflexivity|discriminate].
  - destruct q as [|d q _] using rev_ind; [rewrite app_length in L; cbn in L; lia|]. rewrite !app_length in L. cbn [List.length] in L.
    apply val58_snoc_inv in P. destruct P as (u & x & U & X & ->). apply val58_snoc_inv in Q. destruct Q as (u' & x' & U' & X' & E).
    pose proof (rank58_props _ _ X) as (BX & _). pose proof (rank58_props _ _ X') as (BX' & _).
    assert (u = u' /\ x = x') as (-> & ->) by lia. rewrite (IH q u') by (assumption || lia). rewrite (rank58_inj _ _ _ X X'). reflexivity.
Qed.

(** a text without leading ones has as many digits as its number *)
Lemma val58_low c t v : val58 (c :: t) v -> c <> x31 -> 58 ^ Z.of_nat (List.length t) <= v.
Proof.
  intros H N. change (c :: t) with ([c] ++ t) in H. apply val58_app in H. destruct H as (u & w & U & W & ->).
  apply val58_one in U. apply val58_bound in W. pose proof (rank58_props _ _ U) as (B & C).
  assert (u <> 0) by (intros ->; apply N; rewrite <- C; reflexivity). nia.
Qed.
Lemma pow_lt_inv a b c : 58 ^ a <= c < 58 ^ b -> 0 <= a -> 0 <= b -> a < b.
Proof. intros H A B. destruct (Z.lt_ge_cases a b) as [K|K]; [exact K|]. pose proof (Z.pow_le_mono_r 58 b a). lia. Qed.
Lemma val58_digits t v m : val58 t v -> leading x31 t = O -> 58 ^ Z.of_nat m <= v < 58 ^ Z.of_nat (S m) -> List.length t = S m.
Proof.
  intros H L B. pose proof (val58_bound _ _ H) as U. destruct t as [|c t].
  - cbn in U. pose proof (Z.pow_pos_nonneg 58 (Z.of_nat m)). lia.
  - cbn [leading] in L. destruct (byte_eqb c x31) eqn:E; [discriminate|]. apply byte_eqb_neq in E. pose proof (val58_low c t v H E) as W.
    cbn [List.length] in *. assert (Z.of_nat m < Z.of_nat (S (List.length t))) by (apply (pow_lt_inv _ _ v); lia).
    assert (Z.of_nat (List.length t) < Z.of_nat (S m)) by (apply (pow_lt_inv _ _ v); lia). lia.
Qed.

(** the first [j] characters of a text of [j + m] digits *)
Lemma prefix58 t v j m : val58 t v -> List.length t = (j + m)%nat ->
  exists p r, t = p ++ r /\ List.length p = j /\ List.length r = m /\ val58 p (v / 58 ^ Z.of_nat m).
Proof.
  intros H L. exists (firstn j t), (skipn j t). split; [symmetry; apply firstn_skipn|]. split; [rewrite firstn_length; lia|].
  assert (R : List.length (skipn j t) = m) by (rewrite skipn_length; lia). split; [exact R|].
  rewrite <- (firstn_skipn j t) in H. apply val58_app in H. destruct H as (u & w & U & W & E). rewrite R in E. apply val58_bound in W. rewrite R in W.
  assert (Q : v / 58 ^ Z.of_nat m = u) by (symmetry; apply (Z.div_unique v _ u w); lia). rewrite Q. exact U.
Qed.

(** bytes that begin with a fixed number *)
Lemma be_val_app a b : be_val (a ++ b) = be_val a * 256 ^ Z.of_nat (List.length b) + be_val b.
Proof.
  induction a as [|x a IH]; [cbn [app]; change (be_val []) with 0; lia|]. cbn [app]. rewrite !be_val_cons, IH, app_length, Nat2Z.inj_add, Z.pow_add_r by lia. ring.
Qed.
Lemma head_value a b q n : be_val a = q -> List.length b = n -> q * 256 ^ Z.of_nat n <= be_val (a ++ b) <= q * 256 ^ Z.of_nat n + (256 ^ Z.of_nat n - 1).
Proof. intros <- <-. rewrite be_val_app. pose proof (be_val_bound b). lia. Qed.
Lemma leading_app_nz a b x : leading x (a ++ b) = match a with [] => leading x b | c :: _ => if byte_eqb c x then leading x (a ++ b) else O end.
Proof. destruct a as [|c a]; [reflexivity|]. cbn [app leading]. destruct (byte_eqb c x); reflexivity. Qed.

(** the digits of a text whose bytes begin with the number [q] (no leading zero byte) *)
Lemma head58 a b t q n j m : base58_of (a ++ b) t -> leading x00 (a ++ b) = O -> be_val a = q -> List.length b = n -> (1 <= j)%nat ->
  (58 ^ Z.of_nat (j - 1 + m) <=? q * 256 ^ Z.of_nat n) && (q * 256 ^ Z.of_nat n + (256 ^ Z.of_nat n - 1) <? 58 ^ Z.of_nat (j + m)) = true ->
  exists p r x, t = p ++ r /\ List.length p = j /\ List.length r = m /\ val58 p x /\
    q * 256 ^ Z.of_nat n / 58 ^ Z.of_nat m <= x <= (q * 256 ^ Z.of_nat n + (256 ^ Z.of_nat n - 1)) / 58 ^ Z.of_nat m.
Proof.
  intros (V & L) Z0 Q N J B. rewrite Z0 in L. pose proof (head_value a b q n Q N) as HV. apply andb_true_iff in B. destruct B as (B1 & B2).
  apply Z.leb_le in B1. apply Z.ltb_lt in B2. assert (T : List.length t = (j + m)%nat).
  { replace (j + m)%nat with (S (j - 1 + m)) in * by lia. apply (val58_digits t _ _ V L). lia. }
  destruct (prefix58 t _ j m V T) as (p & r & E & LP & LR & VP). exists p, r, (be_val (a ++ b) / 58 ^ Z.of_nat m).
  split; [exact E|]. split; [exact LP|]. split; [exact LR|]. split; [exact VP|].
  pose proof (Z.pow_pos_nonneg 58 (Z.of_nat m) ltac:(lia) ltac:(lia)). split; apply Z.div_le_mono; lia.
Qed.

Definition first_check (q n m lo hi : Z) : bool :=
  (58 ^ m <=? q * 256 ^ n) && (q * 256 ^ n + (256 ^ n - 1) <? 58 ^ (m + 1)) && (q * 256 ^ n / 58 ^ m =? lo) && ((q * 256 ^ n + (256 ^ n - 1)) / 58 ^ m =? hi).
Lemma first58 v b t q n m lo hi : base58_of (v :: b) t -> bZ v = q -> q <> 0 -> List.length b = n ->
  first_check q (Z.of_nat n) (Z.of_nat m) lo hi = true ->
  exists r x, t = char58 x :: r /\ List.length r = m /\ lo <= x <= hi.
Proof.
  intros S Q Q0 N C. unfold first_check in C. rewrite !andb_true_iff in C. destruct C as (((C1 & C2) & C3) & C4). apply Z.eqb_eq in C3, C4.
  assert (Z0 : leading x00 ([v] ++ b) = O).
  { cbn [app leading]. destruct (byte_eqb v x00) eqn:E; [|reflexivity]. apply byte_eqb_eq in E. subst v. destruct Q0. rewrite <- Q. reflexivity. }
  destruct (head58 [v] b t q n 1 m S Z0) as (p & r & x & E & LP & LR & VP & X).
  - rewrite be_val_cons. change (be_val []) with 0. cbn [List.length]. change (Z.of_nat 0) with 0. lia.
  - exact N.
  - lia.
  - replace (Z.of_nat (1 - 1 + m)) with (Z.of_nat m) by lia. replace (Z.of_nat (1 + m)) with (Z.of_nat m + 1) by lia. rewrite C1, C2. reflexivity.
  - destruct p as [|c [|? ?]]; try discriminate. apply val58_one in VP. apply rank58_props in VP. destruct VP as (_ & <-).
    exists r, x. split; [exact E|]. split; [exact LR|]. rewrite <- C3, <- C4. exact X.
Qed.
Lemma sum4 p : List.length (firstn 4 (sha256 (sha256 p))) = 4%nat.
Proof. rewrite firstn_length. pose proof (sha256_length (sha256 p)) as L. lia. Qed.

(** *** addresses *)
Lemma address_text a s : valid_addr a -> addr_to_string a = Ok s ->
  exists v h, network_number (a_network a) (match a_type a with T_PublicKey => "pubkeyhash" | T_Script => "scripthash" end) (bZ v) /\
    a_phash a = Str h /\ List.length h = 20%nat /\ check_text (v :: h) s.
Proof.
  intros V E. destruct (addr_to_bytes_payload a V) as (h & p & P & (v & N & L & ->) & B). exists v, h. split; [exact N|]. split; [exact P|]. split; [exact L|].
  unfold addr_to_string in E. rewrite B in E. cbn [bind] in E. destruct (encode_base58h_text (v :: h)) as (t & T & S). rewrite T in E. injection E as <-. exact S.
Qed.
Lemma check_cons v h s : check_text (v :: h) s -> base58_of (v :: h ++ firstn 4 (sha256 (sha256 (v :: h)))) s.
Proof. exact (fun H => H). Qed.
Lemma tail_length (v : byte) h n : List.length h = n -> List.length (h ++ firstn 4 (sha256 (sha256 (v :: h)))) = (n + 4)%nat.
Proof. intros L. rewrite app_length, sum4, L. reflexivity. Qed.


Lemma begins_char x k c (r : bytes) : x = k -> txt c = [char58 k] -> begins c (char58 x :: r).
Proof. intros -> E. exists r. rewrite E. reflexivity. Qed.

Lemma strip_lead c l : exists l', l = repeat c (leading c l) ++ l' /\ leading c l' = O.
Proof.
  induction l as [|b l (l' & E & L)]; [exists []; auto|]. cbn [leading]. destruct (byte_eqb b c) eqn:B.
  - apply byte_eqb_eq in B. subst b. exists l'. split; [|exact L]. cbn [repeat app]. rewrite <- E. reflexivity.
  - exists (b :: l). split; [reflexivity|]. cbn [leading]. rewrite B. reflexivity.
Qed.
Lemma val58_ones k t v : val58 (repeat x31 k ++ t) v <-> val58 t v.
Proof.
  split.
  - intros H. apply val58_app in H. destruct H as (u & w & U & W & ->). assert (u = 0) as ->; [|exact W]. clear W. revert u U.
    induction k as [|k IH]; intros u U; [apply val58_bound in U; cbn in U; lia|]. cbn [repeat] in U. rewrite repeat_cons in U.
    apply val58_snoc_inv in U. destruct U as (u' & d & U & D & ->). change (rank58 x31) with (Some 0) in D. injection D as <-. rewrite (IH _ U). reflexivity.
  - intros H. revert t v H. assert (K : val58 (repeat x31 k) 0).
    { induction k as [|k IH]; [constructor|]. cbn [repeat]. rewrite repeat_cons. apply (val58_snoc _ 0 x31 0); [exact IH|reflexivity]. }
    induction 1 as [|t v c d H IH R]; [rewrite app_nil_r; exact K|]. rewrite app_assoc. constructor; assumption.
Qed.
Lemma nonzero_low c l : leading x00 (c :: l) = O -> 256 ^ Z.of_nat (List.length l) <= be_val (c :: l).
Proof.
  cbn [leading]. destruct (byte_eqb c x00) eqn:B; [discriminate|]. intros _. apply byte_eqb_neq in B. rewrite be_val_cons. pose proof (be_val_bound l). pose proof (bZ_range c).
  assert (bZ c <> 0) by (intros E; apply B, bZ_inj; exact E). nia.
Qed.
Definition sizes_check (k : nat) : bool := (58 ^ Z.of_nat k <=? 256 ^ Z.of_nat (k - 1)) && (256 ^ Z.of_nat k <=? 58 ^ Z.of_nat (k + 9)).
Lemma sizes_ok : forallb sizes_check (seq 5 20) = true.
Proof. vm_compute. reflexivity. Qed.
Lemma live_size l t : base58_of (x00 :: l) t -> List.length l = 24%nat -> (leading x00 l <= 19)%nat -> (26 <= List.length t <= 34)%nat /\ begins "1" t.
Proof.
  intros (V & L) N Z19. destruct (strip_lead x31 t) as (t' & E & T0). rewrite L in E. cbn [leading] in E. change (byte_eqb x00 x00) with true in E. cbn iota in E.
  split; [|exists (repeat x31 (leading x00 l) ++ t'); rewrite E; reflexivity]. rewrite be_val_zero_cons in V. rewrite E, val58_ones in V.
  destruct (strip_lead x00 l) as (l' & El & L0). set (z := leading x00 l) in *. rewrite El in V. change (repeat x00 z) with (zeros z) in V. rewrite be_val_zeros_app in V.
  assert (LL : List.length l' = (24 - z)%nat) by (rewrite El, app_length, repeat_length in N; lia). destruct l' as [|c l']; [cbn [List.length] in LL; lia|].
  pose proof (nonzero_low c l' L0) as LO. pose proof (be_val_bound (c :: l')) as HI. cbn [List.length] in LL. set (k := (24 - z)%nat) in *.
  pose proof sizes_ok as SZ. rewrite forallb_forall in SZ. specialize (SZ k ltac:(apply in_seq; lia)). unfold sizes_check in SZ. apply andb_true_iff in SZ. destruct SZ as (S1 & S2).
  apply Z.leb_le in S1, S2. cbn [List.length] in HI. rewrite LL in HI. replace (List.length l') with (k - 1)%nat in LO by lia.
  pose proof (val58_bound _ _ V) as B. assert (D1 : Z.of_nat k < Z.of_nat (List.length t')) by (apply (pow_lt_inv _ _ (be_val (c :: l'))); lia).
  assert (D2 : Z.of_nat (List.length t') <= Z.of_nat (k + 9)).
  { destruct t' as [|d t']; [cbn; lia|]. cbn [leading] in T0. destruct (byte_eqb d x31) eqn:X; [discriminate|]. apply byte_eqb_neq in X. pose proof (val58_low _ _ _ V X).
    assert (Z.of_nat (List.length t') < Z.of_nat (k + 9)) by (apply (pow_lt_inv _ _ (be_val (c :: l'))); lia). cbn [List.length]. lia. }
  rewrite E, app_length, repeat_length. lia.
Qed.
Lemma leading_all n l m : leading x00 (l ++ m) = n -> List.length l = 20%nat -> (19 < n)%nat -> l = zeros 20.
Proof.
  intros E L N. destruct (strip_lead x00 (l ++ m)) as (r & F & _). rewrite E in F. apply (f_equal (firstn 20)) in F.
  rewrite firstn_app, L, Nat.sub_diag, firstn_O, app_nil_r, <- L, firstn_all, L in F. rewrite F. replace n with (20 + (n - 20))%nat by lia.
  rewrite repeat_app, <- app_assoc, firstn_app, repeat_length, Nat.sub_diag, firstn_O, app_nil_r. reflexivity.
Qed.
Lemma zero_address s : check_text (x00 :: zeros 20) s -> s = txt "1111111111111111111114oLvT2".
Proof.
  intros C. assert (E : encode_base58h (Str (x00 :: zeros 20)) = Ok (txt "1111111111111111111114oLvT2")) by (vm_compute; reflexivity).
  destruct (encode_base58h_text (x00 :: zeros 20)) as (t & T & S). rewrite T in E. injection E as ->. exact (base58_of_unique_text _ _ _ C S).
Qed.
Lemma address_looks a s : valid_addr a -> addr_to_string a = Ok s -> address_look (a_network a) (a_type a) s.
Proof.
  intros V E. destruct (address_text a s V E) as (v & h & NN & _ & L & C). pose proof (tail_length v h 20 L) as TL. pose proof (check_cons _ _ _ C) as B.
  destruct V as ([K|K] & _); rewrite K in NN |- *; destruct (a_type a).
  - pose proof (network_number_fun _ _ _ _ NN nn_live_pkh) as Q. assert (v = x00) as -> by (apply bZ_inj; exact Q).
    destruct (Nat.le_gt_cases (leading x00 (h ++ firstn 4 (sha256 (sha256 (x00 :: h))))) 19) as [Z19|Z19].
    + destruct (live_size _ _ B TL Z19) as (S1 & S2). constructor; assumption.
    + rewrite (leading_all _ _ _ eq_refl L Z19) in C. rewrite (zero_address s C). apply al_live_key; [change (List.length (txt "1111111111111111111114oLvT2")) with 27%nat; lia|]. exists (txt "111111111111111111114oLvT2"). reflexivity.
  - pose proof (network_number_fun _ _ _ _ NN nn_live_sh) as Q. destruct (first58 v _ s 5 24 33 2 2 B Q ltac:(discriminate) TL) as (r & x & -> & LR & X); [vm_compute; reflexivity|].
    constructor; [cbn [List.length]; rewrite LR; reflexivity|]. apply (begins_char x 2); [lia|reflexivity].
  - pose proof (network_number_fun _ _ _ _ NN nn_test_pkh) as Q. destruct (first58 v _ s 111 24 33 44 45 B Q ltac:(discriminate) TL) as (r & x & -> & LR & X); [vm_compute; reflexivity|].
    constructor; [cbn [List.length]; rewrite LR; reflexivity|]. destruct (Z.eq_dec x 44); [left; apply (begins_char x 44)|right; apply (begins_char x 45)]; solve [lia|reflexivity].
  - pose proof (network_number_fun _ _ _ _ NN nn_test_sh) as Q. destruct (first58 v _ s 196 24 34 1 1 B Q ltac:(discriminate) TL) as (r & x & -> & LR & X); [vm_compute; reflexivity|].
    constructor; [cbn [List.length]; rewrite LR; reflexivity|]. apply (begins_char x 1); [lia|reflexivity].
Qed.
Lemma address_read s a : addr_from_string s = Ok a -> address_look (a_network a) (a_type a) s.
Proof. intros H. apply addr_string_iff in H. destruct H as (V & E). exact (address_looks a s V E). Qed.
Lemma begins_head p c r : begins p (c :: r) -> match txt p with [] => True | x :: _ => x = c end.
Proof. intros (q & E). destruct (txt p); [exact I|]. cbn [List.app] in E. injection E as -> _. reflexivity. Qed.
Lemma address_head n t c r : address_look n t (c :: r) -> n = (if byte_eqb c x31 || byte_eqb c x33 then livenet else testnet) /\ t = (if byte_eqb c x33 || byte_eqb c x32 then T_Script else T_PublicKey).
Proof. intros H. remember (c :: r) as s eqn:E. destruct H as [? ? B|? ? B|? ? [B|B]|? ? B]; subst; apply begins_head in B; vm_compute in B; subst c; auto. Qed.
Lemma address_first c s s' a a' : addr_from_string (c :: s) = Ok a -> addr_from_string (c :: s') = Ok a' -> a_network a = a_network a' /\ a_type a = a_type a'.
Proof.
  intros H H'. apply address_read, address_head in H. apply address_read, address_head in H'. destruct H as (-> & ->), H' as (-> & ->). auto.
Qed.

(** *** wallet import format *)
Lemma wif_text k s : valid_key k -> priv_to_wif k = Ok s ->
  exists v d, network_number (k_network k) "wif_prefix" (bZ v) /\ List.length d = (if k_compressed k then 33 else 32)%nat /\ check_text (v :: d) s.
Proof.
  intros V E. destruct (priv_to_wif_payload k V) as (p & (v & N & L & ->) & B). rewrite B in E.
  exists v, (priv_to_bytes k ++ (if k_compressed k then [x01] else [])). split; [exact N|]. split; [rewrite app_length, L; destruct (k_compressed k); reflexivity|].
  destruct (encode_base58h_text (v :: priv_to_bytes k ++ (if k_compressed k then [x01] else []))) as (t & T & S). rewrite T in E. injection E as <-. exact S.
Qed.
Lemma wif_looks k s : valid_key k -> priv_to_wif k = Ok s -> wif_look (k_network k) (k_compressed k) s.
Proof.
  intros V E. destruct (wif_text k s V E) as (v & d & NN & L & C). pose proof (tail_length v d _ L) as TL. pose proof (check_cons _ _ _ C) as B.
  destruct V as (_ & [K|K]); rewrite K in NN |- *; destruct (k_compressed k).
  - pose proof (network_number_fun _ _ _ _ NN nn_live_wif) as Q. destruct (first58 v _ s 128 37 51 18 19 B Q ltac:(discriminate) TL) as (r & x & -> & LR & X); [vm_compute; reflexivity|].
    constructor; [cbn [List.length]; rewrite LR; reflexivity|]. destruct (Z.eq_dec x 18); [left; apply (begins_char x 18)|right; apply (begins_char x 19)]; solve [lia|reflexivity].
  - pose proof (network_number_fun _ _ _ _ NN nn_live_wif) as Q. destruct (first58 v _ s 128 36 50 4 4 B Q ltac:(discriminate) TL) as (r & x & -> & LR & X); [vm_compute; reflexivity|].
    constructor; [cbn [List.length]; rewrite LR; reflexivity|]. apply (begins_char x 4); [lia|reflexivity].
  - pose proof (network_number_fun _ _ _ _ NN nn_test_wif) as Q. destruct (first58 v _ s 239 37 51 35 35 B Q ltac:(discriminate) TL) as (r & x & -> & LR & X); [vm_compute; reflexivity|].
    constructor; [cbn [List.length]; rewrite LR; reflexivity|]. apply (begins_char x 35); [lia|reflexivity].
  - pose proof (network_number_fun _ _ _ _ NN nn_test_wif) as Q. destruct (first58 v _ s 239 36 50 8 8 B Q ltac:(discriminate) TL) as (r & x & -> & LR & X); [vm_compute; reflexivity|].
    constructor; [cbn [List.length]; rewrite LR; reflexivity|]. apply (begins_char x 8); [lia|reflexivity].
Qed.
Lemma wif_read_look s k : priv_from_wif s = Ok k -> wif_look (k_network k) (k_compressed k) s.
Proof. intros H. apply priv_from_wif_iff in H. destruct H as (V & E). exact (wif_looks k s V E). Qed.
Lemma wif_head n b c r : wif_look n b (c :: r) -> n = (if byte_eqb c x39 || byte_eqb c x63 then testnet else livenet) /\ b = negb (byte_eqb c x35 || byte_eqb c x39).
Proof. intros H. remember (c :: r) as s eqn:E. destruct H as [? ? B|? ? [B|B]|? ? B|? ? B]; subst; apply begins_head in B; vm_compute in B; subst c; auto. Qed.
Lemma wif_first c s s' k k' : priv_from_wif (c :: s) = Ok k -> priv_from_wif (c :: s') = Ok k' -> k_network k = k_network k' /\ k_compressed k = k_compressed k'.
Proof.
  intros H H'. apply wif_read_look, wif_head in H. apply wif_read_look, wif_head in H'. destruct H as (-> & ->), H' as (-> & ->). auto.
Qed.

(** *** hierarchical keys *)
Lemma version_lead (v r : bytes) q : be_val v = q -> List.length v = 4%nat -> 16777216 <= q -> leading x00 (v ++ r) = O.
Proof.
  intros Q L B. destruct v as [|c v]; [discriminate|]. cbn [app leading]. destruct (byte_eqb c x00) eqn:E; [|reflexivity].
  apply byte_eqb_eq in E. subst c. rewrite be_val_zero_cons in Q. pose proof (be_val_bound v) as U. cbn [List.length] in L.
  replace (List.length v) with 3%nat in U by lia. change (256 ^ Z.of_nat 3) with 16777216 in U. lia.
Qed.
Lemma val58_txt p ds : map rank58 (txt p) = map Some ds -> val58 (txt p) (dval 58 ds).
Proof. intros H. apply val58_map. exists ds. auto. Qed.
Definition four_check (q n m x : Z) : bool :=
  (58 ^ (3 + m) <=? q * 256 ^ n) && (q * 256 ^ n + (256 ^ n - 1) <? 58 ^ (4 + m)) && (q * 256 ^ n / 58 ^ m =? x) && ((q * 256 ^ n + (256 ^ n - 1)) / 58 ^ m =? x).
Lemma four58 v r t q n m ds p : base58_of (v ++ r) t -> be_val v = q -> List.length v = 4%nat -> 16777216 <= q -> List.length r = n ->
  map rank58 (txt p) = map Some ds -> List.length (txt p) = 4%nat ->
  four_check q (Z.of_nat n) (Z.of_nat m) (dval 58 ds) = true -> List.length t = (4 + m)%nat /\ begins p t.
Proof.
  intros S Q L4 B N P LP C. unfold four_check in C. rewrite !andb_true_iff in C. destruct C as (((C1 & C2) & C3) & C4). apply Z.eqb_eq in C3, C4.
  destruct (head58 v r t q n 4 m S (version_lead v r q Q L4 B) Q N) as (w & u & x & E & LW & LU & VW & X).
  - lia.
  - replace (Z.of_nat (4 - 1 + m)) with (3 + Z.of_nat m) by lia. replace (Z.of_nat (4 + m)) with (4 + Z.of_nat m) by lia. rewrite C1, C2. reflexivity.
  - rewrite C3, C4 in X. assert (x = dval 58 ds) as -> by lia. rewrite <- LP in LW. pose proof (val58_same w (txt p) _ LW VW (val58_txt p ds P)) as ->.
    split; [rewrite E, app_length; lia|]. exists u. exact E.
Qed.
Lemma hd_head b rest s version depth parent index chain key : check_text (b ++ rest) s -> hd_layout version depth parent index chain key b ->
  exists v r, be_val v = version /\ List.length v = 4%nat /\ List.length r = (78 + List.length rest)%nat /\ base58_of (v ++ r) s.
Proof.
  intros C (v & d & p & i & E & V & D & P & I & CH & K & Q & _). unfold check_text in C. pose proof (sum4 (b ++ rest)) as S4.
  revert C S4. generalize (firstn 4 (sha256 (sha256 (b ++ rest)))). intros u C S4. subst b. exists v, ((d ++ p ++ i ++ chain ++ key) ++ rest ++ u).
  split; [exact Q|]. split; [exact V|]. split; [rewrite !app_length, S4; lia|]. repeat rewrite <- app_assoc in C. repeat rewrite <- app_assoc. exact C.
Qed.
Lemma hd_shape b s version depth parent index chain key n (public : bool) : check_text b s -> hd_layout version depth parent index chain key b ->
  network_number n (if public then "hd_public_key" else "hd_private_key") version -> hd_look n public s.
Proof.
  intros C LY NN. rewrite <- (app_nil_r b) in C. destruct (hd_head b [] s _ _ _ _ _ _ C LY) as (v & r & Q & L4 & LR & S). cbn [List.length] in LR.
  destruct (network_number_known _ _ _ NN) as [-> | ->]; destruct public.
  - pose proof (network_number_fun _ _ _ _ NN nn_live_hdpub) as ->. destruct (four58 v r s _ 78 107 [55; 47; 52; 34] "xpub" S Q L4 ltac:(lia) LR) as (A & B); [vm_compute; reflexivity..|]. constructor; assumption.
  - pose proof (network_number_fun _ _ _ _ NN nn_live_hdpriv) as ->. destruct (four58 v r s _ 78 107 [55; 47; 49; 53] "xprv" S Q L4 ltac:(lia) LR) as (A & B); [vm_compute; reflexivity..|]. constructor; assumption.
  - pose proof (network_number_fun _ _ _ _ NN nn_test_hdpub) as ->. destruct (four58 v r s _ 78 107 [51; 47; 52; 34] "tpub" S Q L4 ltac:(lia) LR) as (A & B); [vm_compute; reflexivity..|]. constructor; assumption.
  - pose proof (network_number_fun _ _ _ _ NN nn_test_hdpriv) as ->. destruct (four58 v r s _ 78 107 [51; 47; 49; 53] "tprv" S Q L4 ltac:(lia) LR) as (A & B); [vm_compute; reflexivity..|]. constructor; assumption.
Qed.
Lemma hdpub_shape s h data : hdpub_from_string s = Ok h -> check_text data s -> List.length data = 78%nat -> hd_look (hp_network h) true s.
Proof.
  intros H C L. apply hdpub_from_string_iff in H. destruct H as (b & rest & version & depth & parent & index & chain & key & n & x & y & f & T & LY & NN & _ & _ & _ & _ & ->).
  pose proof (check_text_fun _ _ _ C T) as ->. pose proof (layout_length _ _ _ _ _ _ _ LY) as LB. rewrite app_length in L. destruct rest; [|cbn [List.length] in L; lia].
  rewrite app_nil_r in T. exact (hd_shape b s _ _ _ _ _ _ n true T LY NN).
Qed.
Lemma hdpriv_shape s h data : hdpriv_from_string s = Ok h -> check_text data s -> List.length data = 78%nat -> hd_look (hv_network h) false s.
Proof.
  intros H C L. apply hdpriv_from_string_iff in H. destruct H as (b & rest & version & depth & parent & index & chain & pad & sk & n & x & y & f & T & LY & NN & _ & _ & _ & ->).
  pose proof (check_text_fun _ _ _ C T) as ->. pose proof (layout_length _ _ _ _ _ _ _ LY) as LB. rewrite app_length in L. destruct rest; [|cbn [List.length] in L; lia].
  rewrite app_nil_r in T. exact (hd_shape b s _ _ _ _ _ _ n false T LY NN).
Qed.
Lemma hd_long b rest s version depth parent index chain key : check_text (b ++ rest) s -> hd_layout version depth parent index chain key b -> 70615956 <= version ->
  (111 <= List.length s)%nat.
Proof.
  intros C LY B. destruct (hd_head b rest s _ _ _ _ _ _ C LY) as (v & r & Q & L4 & LR & (V & _)). pose proof (head_value v r version _ Q LR) as (HV & _).
  pose proof (val58_bound _ _ V) as U. assert (P : 58 ^ 110 <= 70615956 * 256 ^ 78) by (vm_compute; discriminate).
  assert (M : 256 ^ 78 <= 256 ^ Z.of_nat (78 + List.length rest)) by (apply Z.pow_le_mono_r; lia).
  assert (K : 58 ^ 110 <= be_val (v ++ r)) by nia. assert (110 < Z.of_nat (List.length s)) by (apply (pow_lt_inv _ _ (be_val (v ++ r))); lia). lia.
Qed.

(** *** which reader accepts a text *)
Lemma check_in58 b s : check_text b s -> Forall in58 s.
Proof. intros (V & _). exact (val58_in58 _ _ V). Qed.
Lemma enc_hex_length b : List.length (encode_hex b) = (2 * List.length b)%nat.
Proof. induction b as [|c b IH]; [reflexivity|]. change (encode_hex (c :: b)) with (hex_digit (bZ c / 16) :: hex_digit (bZ c mod 16) :: encode_hex b). cbn [List.length]. rewrite IH. lia. Qed.
Lemma hex_length s b : decode_hex s = Ok b -> List.length s = (2 * List.length b)%nat.
Proof. intros H. apply decode_hex_ok in H. destruct H as (_ & _ & E). rewrite <- enc_hex_length, E, map_length. reflexivity. Qed.

Definition shape (r : reader) (s : bytes) : Prop :=
  match r with
  | R_address => (26 <= List.length s <= 35)%nat /\ Forall in58 s
  | R_address_hex => List.length s = 42%nat
  | R_wif => (51 <= List.length s <= 52)%nat /\ Forall in58 s
  | R_secret_hex => List.length s = 64%nat
  | R_public_hex => (66 <= List.length s)%nat /\ ~ Forall in58 s
  | R_hd_public => (111 <= List.length s)%nat /\ Forall in58 s
  | R_hd_private => (111 <= List.length s)%nat /\ Forall in58 s
  end.
Lemma address_length n t s : address_look n t s -> (26 <= List.length s <= 35)%nat.
Proof. intros [? L _|? L _|? L _|? L _]; lia. Qed.
Lemma wif_length n c s : wif_look n c s -> (51 <= List.length s <= 52)%nat.
Proof. intros [? L _|? L _|? L _|? L _]; lia. Qed.
Lemma recatch_ok {A} (r : res A) f e x : recatch r f e = Ok x -> r = Ok x.
Proof. unfold recatch. destruct r as [a|e']; [trivial|]. destruct (f e'); discriminate. Qed.
Lemma hd_version_low n (public : bool) v : network_number n (if public then "hd_public_key" else "hd_private_key") v -> 70615956 <= v.
Proof.
  intros NN. destruct (network_number_known _ _ _ NN) as [-> | ->]; destruct public.
  - pose proof (network_number_fun _ _ _ _ NN nn_live_hdpub). lia.
  - pose proof (network_number_fun _ _ _ _ NN nn_live_hdpriv). lia.
  - pose proof (network_number_fun _ _ _ _ NN nn_test_hdpub). lia.
  - pose proof (network_number_fun _ _ _ _ NN nn_test_hdpriv). lia.
Qed.
Lemma sec_first x y c b : sec_of x y c b -> exists h r, b = h :: r /\ bZ h <= 4.
Proof. intros H. inversion H; subst; eexists; eexists; (split; [reflexivity|]); vm_compute; discriminate. Qed.
Lemma hex_zero s h r : decode_hex s = Ok (h :: r) -> bZ h <= 4 -> ~ Forall in58 s.
Proof.
  intros H B. apply decode_hex_ok in H. destruct H as (_ & _ & E). change (encode_hex (h :: r)) with (hex_digit (bZ h / 16) :: hex_digit (bZ h mod 16) :: encode_hex r) in E. pose proof (bZ_range h).
  assert (D0 : bZ h / 16 = 0) by (apply Z.div_small; lia). rewrite D0 in E. clear D0.
  destruct s as [|c s]; [discriminate|]. cbn [map] in E. injection E as E _. change (hex_digit 0) with x30 in E.
  intros F. inversion F as [|? ? I _]; subst. apply I. revert E. clear. destruct c; intros E; try discriminate E; reflexivity.
Qed.
Lemma accepts_shape r s : accepts r s -> shape r s.
Proof.
  destruct r; cbn [accepts shape].
  - intros (a & H). split; [exact (address_length _ _ _ (address_read s a H))|]. apply addr_string_iff in H. destruct H as (V & E). destruct (address_text a s V E) as (v & h & _ & _ & _ & C). exact (check_in58 _ _ C).
  - intros (a & H). unfold addr_from_hex in H. apply bind_ok in H. destruct H as (b & D & H). apply recatch_ok in D. apply hex_length in D. apply addr_from_bytes_ok in H. destruct H as (h & (v & _ & L & E) & _).
    cbn [pyb_bytes] in E. rewrite D, E. cbn [List.length]. lia.
  - intros (k & H). split; [exact (wif_length _ _ _ (wif_read_look s k H))|]. apply priv_from_wif_iff in H. destruct H as (V & E). destruct (wif_text k s V E) as (v & d & _ & _ & C). exact (check_in58 _ _ C).
  - intros (v & c & k & H). unfold priv_from_hex in H. apply bind_ok in H. destruct H as (b & D & H). apply recatch_ok in D. apply hex_length in D. unfold priv_from_bytes in H.
    destruct (blen b =? 32) eqn:L; [|discriminate]. apply Z.eqb_eq in L. unfold blen in L. lia.
  - intros (v & k & H). unfold pk_from_hex in H. apply bind_ok in H. destruct H as (b & D & H). apply recatch_ok in D. apply pk_from_bytes_iff in H.
    destruct H as (n & x & y & c & _ & SR & _). pose proof (sec_reads_length _ _ _ _ SR) as L. destruct SR as (core & rest & E & SO & _). destruct (sec_first _ _ _ _ SO) as (h & r & EC & B).
    split; [apply hex_length in D; lia|]. rewrite E, EC in D. exact (hex_zero s h (r ++ rest) D B).
  - intros (h & H). apply hdpub_from_string_iff in H. destruct H as (b & rest & version & depth & parent & index & chain & key & n & x & y & f & T & LY & NN & _).
    split; [|exact (check_in58 _ _ T)]. exact (hd_long b rest s _ _ _ _ _ _ T LY (hd_version_low n true version NN)).
  - intros (h & H). apply hdpriv_from_string_iff in H. destruct H as (b & rest & version & depth & parent & index & chain & pad & sk & n & x & y & f & T & LY & NN & _).
    split; [|exact (check_in58 _ _ T)]. exact (hd_long b rest s _ _ _ _ _ _ T LY (hd_version_low n false version NN)).
Qed.
Lemma hd_kinds s h h' : hdpub_from_string s = Ok h -> hdpriv_from_string s = Ok h' -> False.
Proof.
  intros H H'. apply hdpub_from_string_iff in H. destruct H as (b & rest & version & depth & parent & index & chain & key & n & x & y & f & T & LY & NN & _).
  apply hdpriv_from_string_iff in H'. destruct H' as (b' & rest' & version' & depth' & parent' & index' & chain' & pad & sk & n' & x' & y' & f' & T' & LY' & NN' & _).
  pose proof (check_text_fun _ _ _ T T') as E. pose proof (layout_slices _ _ _ _ _ _ _ rest LY) as (_ & V & _). pose proof (layout_slices _ _ _ _ _ _ _ rest' LY') as (_ & V' & _).
  rewrite E in V. rewrite V in V'. subst version'. destruct (network_number_known _ _ _ NN) as [-> | ->]; destruct (network_number_known _ _ _ NN') as [-> | ->].
  - pose proof (network_number_fun _ _ _ _ NN nn_live_hdpub). pose proof (network_number_fun _ _ _ _ NN' nn_live_hdpriv). lia.
  - pose proof (network_number_fun _ _ _ _ NN nn_live_hdpub). pose proof (network_number_fun _ _ _ _ NN' nn_test_hdpriv). lia.
  - pose proof (network_number_fun _ _ _ _ NN nn_test_hdpub). pose proof (network_number_fun _ _ _ _ NN' nn_live_hdpriv). lia.
  - pose proof (network_number_fun _ _ _ _ NN nn_test_hdpub). pose proof (network_number_fun _ _ _ _ NN' nn_test_hdpriv). lia.
Qed.
Lemma one_reader r r' s : accepts r s -> accepts r' s -> r = r'.
Proof.
  intros A A'. pose proof (accepts_shape r s A) as S. pose proof (accepts_shape r' s A') as S'.
  destruct r, r'; try reflexivity; cbn [shape] in S, S'; try (exfalso; lia); try (exfalso; destruct S as (_ & S); destruct S' as (_ & S'); contradiction).
  - destruct A as (h & A), A' as (h' & A'). destruct (hd_kinds s h h' A A').
  - destruct A as (h & A), A' as (h' & A'). destruct (hd_kinds s h' h A' A).
Qed.
Lemma hd_prefix_unchecked : ~ (forall s h, hdpriv_from_string s = Ok h -> begins "xprv" s \/ begins "tprv" s).
Proof.
  intros H. set (t := txt "5FQFKc7mTW13jdERCXfpEPF23CEMnP7PfGcjqp8bj3Cv99kzymE8rnRHN1GcbfQWCCqTKMzkyGaU5vMCfGzwAL6UoQDrJtGaFXK1DT2e2katorXk1").
  assert (E : encode_base58h (Str (hd_raw x00 [x00])) = Ok t) by (vm_compute; reflexivity).
  destruct (encode_base58h_text (hd_raw x00 [x00])) as (t' & T & S). rewrite T in E. injection E as ->.
  destruct (hd_raw_accepted x00 [x00] t S) as (f & _ & A). destruct (H t _ A) as [(r & B)|(r & B)]; vm_compute in B; discriminate.
Qed.
