(** Counting, and what follows from there being more things than hashes (lemmas). *)
From Coq Require Import String.
From Coq Require Import ZArith Znumtheory Lia Bool List.
From Verif Require Import Base M_Hash M_Codec S_Codec P_Codec M_Keys S_Keys P_Keys M_Script S_Script P_Script M_Tx S_Tx P_Tx P_TxSign M_EC S_EC P_Cofactor P_DSA P_PubKey P_PubTx
  P_NumTheory P_ECDSA P_KeyArith P_Form M_Sign S_Sign P_Sign P_KeyTheory S_Bind P_Bind S_Count.
Import ListNotations.
Open Scope Z_scope.

(** ** Counting *)
Lemma counted_map {A B} (P : A -> Prop) (Q : B -> Prop) (f : A -> B) n : counted P n -> (forall x, P x -> Q (f x)) ->
  (forall x y, P x -> P y -> f x = f y -> x = y) -> (forall y, Q y -> exists x, P x /\ f x = y) -> counted Q n.
Proof.
  intros (l & ND & L & I) F J S. exists (map f l). split; [|split].
  - apply NoDup_map_on; [exact ND|]. intros x y X Y. apply J; apply I; assumption.
  - rewrite map_length. exact L.
  - intros y. rewrite in_map_iff. split.
    + intros (x & <- & X). apply F, I, X.
    + intros Y. destruct (S y Y) as (x & X & E). exists x. split; [exact E|apply I, X].
Qed.
Lemma counted_ext {A} (P Q : A -> Prop) n : counted P n -> (forall x, P x <-> Q x) -> counted Q n.
Proof. intros (l & ND & L & I) E. exists l. split; [exact ND|]. split; [exact L|]. intros x. rewrite I. apply E. Qed.
Lemma counted_range a n : 0 <= n -> counted (fun z => a <= z < a + n) n.
Proof.
  intros N. exists (map (fun i => a + Z.of_nat i) (seq 0 (Z.to_nat n))). split; [|split].
  - apply NoDup_map_on; [apply seq_NoDup|]. intros. lia.
  - rewrite map_length, seq_length. lia.
  - intros x. rewrite in_map_iff. split.
    + intros (i & <- & I). apply List.in_seq in I. lia.
    + intros B. exists (Z.to_nat (x - a)). split; [lia|]. apply List.in_seq. lia.
Qed.
Lemma NoDup_prod {A B} (l : list A) (l' : list B) : NoDup l -> NoDup l' -> NoDup (list_prod l l').
Proof.
  intros N N'. induction N as [|x l X N IH]; [constructor|]. cbn [list_prod].
  assert (G : forall m, NoDup m -> NoDup (map (fun y => (x, y)) m ++ list_prod l l')).
  { intros m M. induction M as [|y m Y M IM]; [exact IH|]. cbn [map app]. constructor; [|exact IM]. rewrite in_app_iff, in_map_iff, in_prod_iff.
    intros [(y' & E & I)|(I & _)]; [|exact (X I)]. apply Y. congruence. }
  apply G, N'.
Qed.
Lemma counted_prod {A B} (P : A -> Prop) (Q : B -> Prop) n m : counted P n -> counted Q m -> counted (fun z => P (fst z) /\ Q (snd z)) (n * m).
Proof.
  intros (l & ND & L & I) (l' & ND' & L' & I'). exists (list_prod l l'). split; [apply NoDup_prod; assumption|]. split.
  - rewrite prod_length, Nat2Z.inj_mul, L, L'. reflexivity.
  - intros (x, y). rewrite in_prod_iff, I, I'. reflexivity.
Qed.
Lemma counted_bytes k : counted (fun b : bytes => List.length b = k) (256 ^ Z.of_nat k).
Proof.
  apply (counted_map (fun z => 0 <= z < 0 + 256 ^ Z.of_nat k) _ (be_bytes k)).
  - apply counted_range. apply Z.pow_nonneg. lia.
  - intros z _. apply be_bytes_length.
  - intros x y X Y E. apply (f_equal be_val) in E. rewrite !be_val_be_bytes, !Z.mod_small in E by lia. exact E.
  - intros b L. exists (be_val b). pose proof (be_val_bound b) as B. rewrite L in B. split; [lia|].
    apply be_val_inj; [rewrite be_bytes_length; lia|]. rewrite be_val_be_bytes, Z.mod_small by lia. reflexivity.
Qed.
Lemma counted_list {A} (l : list A) : NoDup l -> counted (fun x => In x l) (Z.of_nat (List.length l)).
Proof. intros N. exists l. split; [exact N|]. split; [reflexivity|]. intros. reflexivity. Qed.

(** ** Pigeonholes *)
Lemma filter_split {A} (f : A -> bool) l : (List.length l = List.length (filter f l) + List.length (filter (fun x => negb (f x)) l))%nat.
Proof. induction l as [|x l IH]; [reflexivity|]. cbn [filter]. destruct (f x); cbn [negb List.length]; lia. Qed.
Lemma pigeons {A B} (eqb : B -> B -> bool) (EQ : forall x y, eqb x y = true <-> x = y) (f : A -> B) k : forall ys xs, NoDup xs ->
  (forall x, In x xs -> In (f x) ys) -> (k * List.length ys < List.length xs)%nat -> exists y, In y ys /\ exists l, NoDup l /\ (k < List.length l)%nat /\ forall x, In x l -> In x xs /\ f x = y.
Proof.
  intros ys. induction ys as [|y ys IH]; intros xs ND F L.
  - destruct xs as [|x xs]; [cbn in L; lia|]. exfalso. exact (F x (or_introl eq_refl)).
  - pose proof (filter_split (fun x => eqb (f x) y) xs) as SP. destruct (Nat.ltb_spec k (List.length (filter (fun x => eqb (f x) y) xs))) as [H|H].
    + exists y. split; [left; reflexivity|]. exists (filter (fun x => eqb (f x) y) xs). split; [apply NoDup_filter, ND|]. split; [exact H|].
      intros x X. apply filter_In in X. destruct X as (X & E). split; [exact X|apply EQ, E].
    + cbn [List.length] in L. destruct (IH (filter (fun x => negb (eqb (f x) y)) xs)) as (y' & Y & l & N & K & I).
      * apply NoDup_filter, ND.
      * intros x X. apply filter_In in X. destruct X as (X & E). destruct (F x X) as [E'|G]; [|exact G]. exfalso. cbv beta in E. rewrite (proj2 (EQ (f x) y) (eq_sym E')) in E. discriminate E.
      * lia.
      * exists y'. split; [right; exact Y|]. exists l. split; [exact N|]. split; [exact K|]. intros x X. destruct (I x X) as (G & E). apply filter_In in G. split; [exact (proj1 G)|exact E].
Qed.
Lemma crowded {A B} (eqb : B -> B -> bool) (EQ : forall x y, eqb x y = true <-> x = y) (P : A -> Prop) (Q : B -> Prop) (f : A -> B) n m k :
  counted P n -> counted Q m -> (forall x, P x -> Q (f x)) -> 0 <= k -> k * m < n -> exists y, Q y /\ at_least (fun x => P x /\ f x = y) (k + 1).
Proof.
  intros (xs & ND & L & I) (ys & ND' & L' & I') F K KL.
  destruct (pigeons eqb EQ f (Z.to_nat k) ys xs ND) as (y & Y & l & N & G & H).
  - intros x X. apply I', F, I, X.
  - nia.
  - exists y. split; [apply I', Y|]. exists l. split; [exact N|]. split; [lia|]. apply Forall_forall. intros x X. destruct (H x X) as (A1 & A2). split; [apply I, A1|exact A2].
Qed.
Lemma at_least_two {A} (P : A -> Prop) : at_least P 2 -> exists x y, x <> y /\ P x /\ P y.
Proof.
  intros (l & ND & L & F). destruct l as [|x [|y l]]; [cbn in L; lia|cbn in L; lia|]. inversion F as [|? ? PX F']; subst. inversion F' as [|? ? PY _]; subst.
  inversion ND as [|? ? NX _]; subst. exists x, y. split; [intros ->; apply NX; left; reflexivity|]. split; assumption.
Qed.
(** ** Keys and addresses *)
Lemma order_pos : 0 < curve_order - 1.
Proof. reflexivity. Qed.
Lemma counted_nets : counted known 2.
Proof.
  exists [livenet; testnet]. split; [|split; [reflexivity|]].
  - constructor; [|constructor; [intros []|constructor]]. intros [E|[]]. discriminate E.
  - intros x. unfold known. cbn [In]. intuition.
Qed.
Lemma counted_bools : counted (fun _ : bool => True) 2.
Proof.
  exists [true; false]. split; [|split; [reflexivity|]].
  - constructor; [|constructor; [intros []|constructor]]. intros [E|[]]. discriminate E.
  - intros [|]; cbn [In]; tauto.
Qed.
Lemma counted_types : counted (fun _ : addr_type => True) 2.
Proof.
  exists [T_PublicKey; T_Script]. split; [|split; [reflexivity|]].
  - constructor; [|constructor; [intros []|constructor]]. intros [E|[]]. discriminate E.
  - intros [|]; cbn [In]; tauto.
Qed.
Lemma counted_secrets : counted (fun d => 0 < d < curve_order) (curve_order - 1).
Proof.
  apply (counted_ext (fun z => 1 <= z < 1 + (curve_order - 1))); [apply counted_range; pose proof order_pos; lia|].
  generalize curve_order. intros n x. lia.
Qed.
Lemma counted_keys : counted valid_key (4 * (curve_order - 1)).
Proof.
  replace (4 * (curve_order - 1)) with ((curve_order - 1) * (2 * 2)) by (generalize curve_order; intros; lia).
  apply (counted_map _ _ (fun z => PrivateKey (fst z) (fst (snd z)) (snd (snd z))) _ (counted_prod _ _ _ _ counted_secrets (counted_prod _ _ _ _ counted_nets counted_bools))).
  - intros (d & n & c) (B & K & _). split; assumption.
  - intros (d & n & c) (d' & n' & c') _ _ E. cbn [fst snd] in E. congruence.
  - intros [d n c] (B & K). exists (d, (n, c)). split; [|reflexivity]. split; [exact B|]. split; [exact K|exact I].
Qed.
Definition got {A} (d : A) (r : res A) : A := match r with Ok x => x | Err _ => d end.
Lemma counted_wif : counted (fun s => exists k, priv_from_wif s = Ok k) (4 * (curve_order - 1)).
Proof.
  apply (counted_map _ _ (fun k => got [] (priv_to_wif k)) _ counted_keys).
  - intros k K. destruct (priv_wif_roundtrip k K) as (s & E & F). rewrite E. exists k. exact F.
  - intros k k' K K' E. destruct (priv_wif_roundtrip k K) as (s & A & B). destruct (priv_wif_roundtrip k' K') as (s' & A' & B'). rewrite A, A' in E. cbn [got] in E. congruence.
  - intros s (k & E). apply priv_from_wif_iff in E. exists k. split; [exact (proj1 E)|]. rewrite (proj2 E). reflexivity.
Qed.
Lemma counted_secret_bytes n c : known n -> counted (fun b => exists k, priv_from_bytes b (VNet n) c = Ok k) (curve_order - 1).
Proof.
  intros K. apply (counted_map _ _ (fun d => priv_to_bytes (PrivateKey d n c)) _ counted_secrets).
  - intros d B. exists (PrivateKey d n c). exact (priv_bytes_roundtrip (PrivateKey d n c) B).
  - intros d d' B B' E. apply (f_equal be_val) in E. rewrite !priv_to_bytes_val in E by assumption. exact E.
  - intros b (k & E). pose proof (priv_from_bytes_back _ _ _ _ E) as (F & C). apply priv_from_bytes_ok in E. destruct E as (L & n' & FN & B & ->).
    exists (be_val b). split; [exact B|]. exact F.
Qed.
Lemma counted_addresses : counted valid_addr (4 * 2 ^ 160).
Proof.
  replace (4 * 2 ^ 160) with (2 ^ 160 * (2 * 2)) by (generalize (2 ^ 160); intros; lia).
  apply (counted_map (fun z => List.length (fst z) = 20%nat /\ known (fst (snd z)) /\ True) _ (fun z => Address (Str (fst z)) (fst (snd z)) (snd (snd z)))).
  - exact (counted_prod _ _ _ _ (counted_bytes 20) (counted_prod _ _ _ _ counted_nets counted_types)).
  - intros (h & n & t) (L & K & _). split; [exact K|]. exists h. split; [reflexivity|exact L].
  - intros (h & n & t) (h' & n' & t') _ _ E. cbn [fst snd] in E. congruence.
  - intros [h n t] (K & h' & E & L). cbn [a_phash a_network] in *. subst h. exists (h', (n, t)). split; [|reflexivity]. split; [exact L|]. split; [exact K|exact I].
Qed.
Lemma counted_address_texts : counted (fun s => exists a, addr_from_string s = Ok a) (4 * 2 ^ 160).
Proof.
  apply (counted_map _ _ (fun a => got [] (addr_to_string a)) _ counted_addresses).
  - intros a V. destruct (addr_string_roundtrip a V) as (s & E & F). rewrite E. exists a. exact F.
  - intros a b V V' E. destruct (addr_string_roundtrip a V) as (s & A & B). destruct (addr_string_roundtrip b V') as (s' & A' & B'). rewrite A, A' in E. cbn [got] in E. congruence.
  - intros s (a & E). apply addr_string_iff in E. exists a. split; [exact (proj1 E)|]. rewrite (proj2 E). reflexivity.
Qed.
(** ** Public keys *)
Lemma counted_public_keys : counted (fun K => exists k, valid_key k /\ pk_from_private_key k = Ok K) (4 * (curve_order - 1)).
Proof.
  apply (counted_map _ _ (fun k => got (PublicKey (0, 0) livenet true) (pk_from_private_key k)) _ counted_keys).
  - intros k K. exists k. split; [exact K|]. destruct (valid_key_usable k K) as (p & E & _). rewrite E. reflexivity.
  - intros k k' K K' H. destruct (valid_key_usable k K) as (p & E & _ & N & C). destruct (valid_key_usable k' K') as (p' & E' & _ & N' & C'). rewrite E, E' in H. cbn [got] in H. subst p'.
    pose proof (public_key_inj k k' p p K K' E E' eq_refl) as S. destruct k as [d n c], k' as [d' n' c']. cbn [k_secret k_network k_compressed] in *. congruence.
  - intros p (k & K & E). exists k. split; [exact K|]. rewrite E. reflexivity.
Qed.
Lemma bytes_of_key k p : valid_key k -> pk_from_private_key k = Ok p -> exists b, pk_to_bytes p = Ok b /\ pk_from_bytes (Str b) (VNet livenet) = Ok (PublicKey (pk_pair p) livenet (pk_compressed p)).
Proof.
  intros K E. destruct (valid_key_usable k K) as (p' & E' & U & N & C). assert (p' = p) as -> by congruence. destruct p as [[x y] n c]. unfold usable_pub in U. cbn [pk_pair pk_compressed pk_network] in *.
  destruct U as (ON & X & Y). destruct (pk_roundtrip x y n c ON X Y) as (b & A & S & R). exists b. split; [exact A|].
  destruct (pk_roundtrip x y livenet c ON X Y) as (b' & A' & S' & R'). assert (b' = b) as -> by (unfold pk_to_bytes in A, A'; cbn [pk_pair pk_compressed] in A, A'; congruence). exact R'.
Qed.
Lemma to_livenet k p : pk_from_private_key k = Ok p -> pk_from_private_key (PrivateKey (k_secret k) livenet (k_compressed k)) = Ok (PublicKey (pk_pair p) livenet (pk_compressed p)).
Proof.
  unfold pk_from_private_key. cbn [k_secret k_network k_compressed]. destruct (public_pair_for_secret secp256k1 secp_G (k_secret k)) as [[pr|]|e]; cbn [bind]; try discriminate.
  unfold new_pubkey. destruct (contains_point secp256k1 (fst pr) (snd pr)); cbn [negb].
  - destruct (recatch (find (VNet (k_network k)) (txt "name")) is_unknown_network E_Pub_UnknownNetwork) as [n|e]; cbn [bind]; [|discriminate].
    intros H. assert (p = PublicKey pr n (k_compressed k)) as -> by congruence. reflexivity.
  - destruct (recatch (find (VNet (k_network k)) (txt "name")) is_unknown_network E_Pub_UnknownNetwork) as [n|e]; cbn [bind]; discriminate.
Qed.
Lemma counted_public_bytes : counted (fun b => exists k p, valid_key k /\ pk_from_private_key k = Ok p /\ pk_to_bytes p = Ok b) (2 * (curve_order - 1)).
Proof.
  rewrite Z.mul_comm.
  apply (counted_map _ _ (fun z => got [] (bind (pk_from_private_key (PrivateKey (fst z) livenet (snd z))) pk_to_bytes)) _ (counted_prod _ _ _ _ counted_secrets counted_bools)).
  - intros (d & c) (B & _). cbn [fst snd] in *. assert (K : valid_key (PrivateKey d livenet c)) by (split; [exact B|left; reflexivity]).
    destruct (valid_key_usable _ K) as (p & E & _). destruct (bytes_of_key _ p K E) as (b & F & _). exists (PrivateKey d livenet c), p. split; [exact K|]. split; [exact E|]. rewrite E. cbn [bind]. rewrite F. reflexivity.
  - intros (d & c) (d' & c') (B & _) (B' & _) H. cbn [fst snd] in *. assert (K : valid_key (PrivateKey d livenet c)) by (split; [exact B|left; reflexivity]). assert (K' : valid_key (PrivateKey d' livenet c')) by (split; [exact B'|left; reflexivity]).
    destruct (valid_key_usable _ K) as (p & E & _ & _ & C). destruct (valid_key_usable _ K') as (p' & E' & _ & _ & C'). destruct (bytes_of_key _ p K E) as (b & F & R). destruct (bytes_of_key _ p' K' E') as (b' & F' & R').
    rewrite E, E' in H. cbn [bind] in H. rewrite F, F' in H. cbn [got] in H. subst b'. rewrite R in R'. assert (Q : pk_pair p = pk_pair p') by congruence. assert (Q' : pk_compressed p = pk_compressed p') by congruence.
    pose proof (public_key_inj _ _ p p' K K' E E' Q) as S. cbn [k_secret k_compressed] in *. congruence.
  - intros b (k & p & K & E & F). exists (k_secret k, k_compressed k). split; [split; [exact (proj1 K)|exact I]|]. cbn [fst snd]. rewrite (to_livenet k p E). cbn [bind].
    unfold pk_to_bytes in F |- *. cbn [pk_pair pk_compressed]. rewrite F. reflexivity.
Qed.

(** ** Things with the same hash *)
Lemma at_least_impl {A B} (P : A -> Prop) (Q : B -> Prop) (f : A -> B) n : at_least P n -> (forall x, P x -> Q (f x)) -> (forall x y, P x -> P y -> f x = f y -> x = y) -> at_least Q n.
Proof.
  intros (l & ND & L & F) M J. rewrite Forall_forall in F. exists (map f l). split; [|split].
  - apply NoDup_map_on; [exact ND|]. intros x y X Y. apply J; apply F; assumption.
  - rewrite map_length. exact L.
  - apply Forall_forall. intros y Y. apply in_map_iff in Y. destruct Y as (x & <- & X). apply M, F, X.
Qed.
Lemma address_of d n c : 0 < d < curve_order -> known n -> exists h, List.length h = 20%nat /\ priv_to_address (PrivateKey d n c) = Ok (Address (Str h) n T_PublicKey).
Proof.
  intros B K. destruct (priv_address (PrivateKey d n c)) as (p & h & E & (b & S & H) & A); [split; assumption|]. exists h. split; [rewrite H; apply ripemd160_length|exact A].
Qed.
Lemma crowded_address n c : known n -> exists a, at_least (fun d => 0 < d < curve_order /\ priv_to_address (PrivateKey d n c) = Ok a) (2 ^ 96).
Proof.
  intros K.
  destruct (crowded bytes_eqb bytes_eqb_eq _ _ (fun d => pyb_bytes (a_phash (got (Address (Str []) n T_PublicKey) (priv_to_address (PrivateKey d n c))))) _ _ (2 ^ 96 - 1) counted_secrets (counted_bytes 20)) as (h & L & AL).
  - intros d B. destruct (address_of d n c B K) as (h & L & E). rewrite E. exact L.
  - vm_compute. discriminate.
  - vm_compute. reflexivity.
  - exists (Address (Str h) n T_PublicKey). replace (2 ^ 96) with (2 ^ 96 - 1 + 1) by reflexivity. apply (at_least_impl _ _ (fun d => d) _ AL); [|auto]. intros d (B & H). split; [exact B|].
    destruct (address_of d n c B K) as (h' & L' & E). rewrite E in H. cbn [got a_phash pyb_bytes] in H. rewrite E, H. reflexivity.
Qed.
(** transactions *)
Definition vary (t : tx) (z : bytes * (Z * Z)) : tx :=
  match tx_inputs t with
  | i :: l => Tx (Input (in_class_of i) (encode_hex (fst z)) (fst (snd z)) (in_script i) (in_seq i) :: l) (tx_outputs t) (snd (snd z)) (tx_version t)
  | [] => t
  end.
Lemma encode_hex_chars b : Forall is_hex (encode_hex b).
Proof. exact (proj1 (proj2 (decode_hex_ok _ _ (proj2 (decode_hex_iff _ _) (encode_hex_text b))))). Qed.
Lemma vary_variant t z : tx_fits t -> List.length (fst z) = 32%nat -> u32 (fst (snd z)) -> u32 (snd (snd z)) -> variant t (vary t z).
Proof.
  intros (V & L & NI & LI & FI & NO & LO & FO) A B C. destruct z as (b & x & y). cbn [fst snd] in *. unfold vary. destruct (tx_inputs t) as [|i l] eqn:E; [contradiction|]. cbn [fst snd].
  inversion FI as [|? ? F1 F2]; subst. split; [|split; [reflexivity|split; [reflexivity|]]].
  - split; [exact V|]. split; [exact C|]. cbn [tx_inputs tx_outputs]. split; [discriminate|]. split; [exact LI|]. split; [|split; [exact NO|split; [exact LO|exact FO]]].
    constructor; [|exact F2]. destruct F1 as (_ & _ & _ & F3). split; [cbn [in_tx_id]; rewrite enc_hex_length; lia|]. split; [apply encode_hex_chars|]. split; [exact B|exact F3].
  - exists i. eexists. exists l. split; [exact E|]. split; [reflexivity|]. repeat (split; [reflexivity|]). cbn [in_tx_id]. symmetry. apply lower_hex_encode, encode_hex_text.
Qed.
Lemma vary_inj t z z' : tx_fits t -> vary t z = vary t z' -> z = z'.
Proof.
  intros (_ & _ & NI & _) E. destruct z as (b & x & y), z' as (b' & x' & y'). unfold vary in E. destruct (tx_inputs t) as [|i l]; [contradiction|]. cbn [fst snd] in E.
  assert (H : encode_hex b = encode_hex b') by congruence. apply encode_hex_inj in H. congruence.
Qed.
Lemma crowded_id t : tx_fits t -> exists h, at_least (fun t' => variant t t' /\ tx_get_id t' = Ok h) (2 ^ 64).
Proof.
  intros F.
  destruct (crowded bytes_eqb bytes_eqb_eq _ _ (fun z => got [] (tx_get_id_bytes (vary t z))) _ _ (2 ^ 64 - 1)
    (counted_prod _ _ _ _ (counted_bytes 32) (counted_prod _ _ _ _ (counted_range 0 (2 ^ 32) ltac:(vm_compute; discriminate)) (counted_range 0 (2 ^ 32) ltac:(vm_compute; discriminate)))) (counted_bytes 32)) as (h & L & AL).
  - intros (b & x & y) (A & B & C). cbn [fst snd] in *. destruct (vary_variant t (b, (x, y)) F A) as (FV & _); [unfold u32; cbn [fst snd]; lia|unfold u32; cbn [fst snd]; lia|].
    destruct (tx_write_total _ FV) as (w & W). unfold tx_get_id_bytes. rewrite W. cbn [bind got]. apply sha256_length.
  - vm_compute. discriminate.
  - vm_compute. reflexivity.
  - exists (encode_hex h). replace (2 ^ 64) with (2 ^ 64 - 1 + 1) by reflexivity. apply (at_least_impl _ _ (vary t) _ AL).
    + intros (b & x & y) ((A & B & C) & H). cbn [fst snd] in *. assert (VT : variant t (vary t (b, (x, y)))) by (apply vary_variant; [exact F|exact A|unfold u32; cbn [fst snd]; lia|unfold u32; cbn [fst snd]; lia]).
      split; [exact VT|]. destruct VT as (FV & _). destruct (tx_write_total _ FV) as (w & W). unfold tx_get_id. unfold tx_get_id_bytes in H |- *. rewrite W in H |- *. cbn [bind got] in H |- *. rewrite H. reflexivity.
    + intros z z' _ _. apply vary_inj, F.
Qed.
Lemma variants_agree t t1 t2 : variant t t1 -> variant t t2 -> agree t1 t2 -> t1 = t2.
Proof.
  intros (_ & O1 & V1 & i & i1 & l & E & E1 & C1 & S1 & Q1 & H1) (_ & O2 & V2 & i' & i2 & l' & E' & E2 & C2 & S2 & Q2 & H2) (A & _ & AL & _). rewrite E in E'. assert (i' = i /\ l' = l) as (-> & ->) by (split; congruence).
  unfold lower_ids in A. cbn [tx_inputs] in A. rewrite E1, E2 in A. cbn [map] in A. inversion A as [|? ? ? ? SI _]; subst. destruct SI as (ID & IX & _ & _). unfold lower_input in ID, IX. cbn [in_tx_id in_index] in ID, IX.
  rewrite H1, H2 in ID. cbn [lower_ids tx_lock_time] in AL. destruct t1 as [n1 o1 k1 v1], t2 as [n2 o2 k2 v2]. cbn [tx_inputs tx_outputs tx_lock_time tx_version] in *.
  destruct i1 as [c1 d1 x1 s1 q1], i2 as [c2 d2 x2 s2 q2]. cbn [in_class_of in_tx_id in_index in_script in_seq] in *. congruence.
Qed.
Lemma colliding_ids : ~ (forall t t' h, tx_fits t -> tx_fits t' -> tx_get_id t = Ok h -> tx_get_id t' = Ok h -> agree t t').
Proof.
  intros H. set (t := ex_parent Str). assert (F : tx_fits t) by (apply tx_fitsb_ok; vm_compute; reflexivity).
  destruct (crowded_id t F) as (h & l & ND & L & A). destruct (at_least_two (fun t' => variant t t' /\ tx_get_id t' = Ok h)) as (a & b & NE & (VA & EA) & (VB & EB)).
  - exists l. split; [exact ND|]. split; [|exact A]. apply (Z.le_trans _ (2 ^ 64)); [vm_compute; discriminate|exact L].
  - apply NE. apply (variants_agree t a b VA VB). apply (H a b h); [exact (proj1 VA)|exact (proj1 VB)|exact EA|exact EB].
Qed.
(** scripts *)
Lemma push_bytes d : List.length d = 75%nat -> script_to_bytes (push_script d) = Ok (Zb 75 :: d).
Proof.
  intros L. unfold script_to_bytes, push_script, blen. rewrite L. change (Zb (Z.of_nat 75)) with x4b. change (Zb 75) with x4b. cbn [s_ins ins_list_to_bytes]. unfold ins_to_bytes. cbn [i_op i_data].
  change (compat_chr (bZ x4b)) with (Ok [x4b]). cbn [bind]. change (is_const_push x4b) with true. cbn [pyb_bytes bind app]. rewrite app_nil_r. reflexivity.
Qed.
Lemma crowded_script_address n : known n -> exists a, at_least (fun d => List.length d = 75%nat /\ addr_from_script (push_script d) (VNet n) = Ok a) (2 ^ 440).
Proof.
  intros K. destruct (crowded bytes_eqb bytes_eqb_eq _ _ (fun d => ripemd160 (sha256 (Zb 75 :: d))) _ _ (2 ^ 440 - 1) (counted_bytes 75) (counted_bytes 20)) as (h & L & AL).
  - intros d _. apply ripemd160_length.
  - vm_compute. discriminate.
  - vm_compute. reflexivity.
  - exists (Address (Str h) n T_Script). replace (2 ^ 440) with (2 ^ 440 - 1 + 1) by reflexivity. apply (at_least_impl _ _ (fun d => d) _ AL); [|auto]. intros d (B & H). split; [exact B|].
    rewrite (from_script_address (push_script d) n _ K (push_bytes d B)), H. reflexivity.
Qed.

Lemma colliding_addresses : ~ (forall k k' a, valid_key k -> valid_key k' -> priv_to_address k = Ok a -> priv_to_address k' = Ok a -> k = k').
Proof.
  intros H. destruct (crowded_address livenet true (or_introl eq_refl)) as (a & l & ND & L & A).
  destruct (at_least_two (fun d => 0 < d < curve_order /\ priv_to_address (PrivateKey d livenet true) = Ok a)) as (d & d' & NE & (B & E) & (B' & E')).
  - exists l. split; [exact ND|]. split; [|exact A]. apply (Z.le_trans _ (2 ^ 96)); [vm_compute; discriminate|exact L].
  - apply NE. pose proof (H (PrivateKey d livenet true) (PrivateKey d' livenet true) a (conj B (or_introl eq_refl)) (conj B' (or_introl eq_refl)) E E') as Q. congruence.
Qed.

(** ** Signatures *)
Section Sig.
Context (c : curve) (gx gy n : Z) (D : dsa_group c gx gy n) (BIG : 2 * c_p c + 1 < 3 * n).
Notation G := (PAff gx gy (Some n)).
Let PN : prime n := proj1 (proj2 (proj2 (proj2 D))).
Let N3 : 2 < n := proj1 (proj2 (proj2 (proj2 (proj2 D)))).
Definition made (d val k : Z) : option (Z * Z) :=
  match ecdsa_sign_k c G d val k with Ok (r, s) => if r mod n =? 0 then None else Some (r mod n, s) | Err _ => None end.
Definition works d val k : bool := match made d val k with Some _ => true | None => false end.
Lemma cancel s a b : 1 <= s < n -> 0 <= a < n -> 0 <= b < n -> (s * a) mod n = (s * b) mod n -> a = b.
Proof.
  intros S A B E. assert (X : (n | s * (a - b))).
  { apply Z.mod_divide; [lia|]. rewrite Z.mul_sub_distr_l, Zminus_mod, E, Z.sub_diag. apply Zmod_0_l. }
  apply prime_mult in X; [|exact PN]. destruct X as [X|X]; [apply Z.divide_pos_le in X; lia|].
  destruct (Z.eq_dec a b) as [Q|Q]; [exact Q|exfalso]. apply Z.divide_abs_r in X. apply Z.divide_pos_le in X; lia.
Qed.
Lemma made_inj d val k k' z : 0 < k < n -> 0 < k' < n -> made d val k = Some z -> made d val k' = Some z -> k = k'.
Proof.
  unfold made. intros K K' E E'. destruct (ecdsa_sign_k c G d val k) as [(r & s)|] eqn:A; [|discriminate]. destruct (ecdsa_sign_k c G d val k') as [(r' & s')|] eqn:A'; [|discriminate].
  destruct (r mod n =? 0); [discriminate|]. destruct (r' mod n =? 0); [discriminate|]. assert (R : r mod n = r' mod n) by congruence. assert (s' = s) as -> by congruence.
  apply (sign_iff c gx gy n D) in A; [|exact K]. apply (sign_iff c gx gy n D) in A'; [|exact K']. destruct A as (_ & _ & S & A), A' as (_ & _ & _ & A').
  apply (cancel s); [exact S|lia|lia|]. rewrite A, A'. rewrite <- (Zplus_mod_idemp_r (d * r)), <- (Zmult_mod_idemp_r r), R, Zmult_mod_idemp_r, Zplus_mod_idemp_r. reflexivity.
Qed.
Lemma nonce_x k : 0 < k < n -> exists x y, public_pair_for_secret c G k = Ok (Some (x, y)) /\ (exists o, p_mul c G k = Ok (PAff x y o)) /\ 0 <= x < c_p c.
Proof.
  intros K. destruct (pps_xy c gx gy n D k) as (R & E & RR & _ & P). destruct R as [|x y o].
  - exfalso. cbn [xy] in P. apply (pps_none c gx gy n D) in P. rewrite Z.mod_small in P by lia. lia.
  - exists x, y. split; [exact P|]. split; [exists o; exact E|exact (proj1 RR)].
Qed.
(** a nonce that does not work has one of four abscissas *)
Lemma bad_nonce d val : 0 < d < n -> exists e, forall k, 0 < k < n -> works d val k = false ->
  exists x y, public_pair_for_secret c G k = Ok (Some (x, y)) /\ In x [0; n; e; e + n].
Proof.
  intros Dd. destruct (inverse_mod_spec d n ltac:(lia)) as (IV & _). destruct (IV (gcd_n n PN d ltac:(lia))) as (di & _ & _ & DI).
  exists ((- val * di) mod n). intros k K W. destruct (nonce_x k K) as (x & y & P & (o & E) & X). exists x, y. split; [exact P|].
  assert (Q : x mod n = 0 \/ (val + d * x) mod n = 0).
  { destruct (Z.eq_dec (x mod n) 0) as [Q|Q]; [left; exact Q|]. destruct (Z.eq_dec ((val + d * x) mod n) 0) as [Q'|Q']; [right; exact Q'|exfalso].
    destruct (inverse_mod_spec k n ltac:(lia)) as (IK & _). destruct (IK (gcd_n n PN k ltac:(lia))) as (ki & _ & _ & KI).
    set (s := ((val + d * x) * ki) mod n).
    assert (SK : (s * k) mod n = (val + d * x) mod n).
    { unfold s. rewrite Zmult_mod_idemp_l. replace ((val + d * x) * ki * k) with ((val + d * x) * (k * ki)) by ring. rewrite <- Zmult_mod_idemp_r, KI, Z.mul_1_r. reflexivity. }
    assert (S1 : 1 <= s < n).
    { pose proof (Z.mod_pos_bound ((val + d * x) * ki) n ltac:(lia)) as B. fold s in B. destruct (Z.eq_dec s 0) as [S0|S0]; [|lia]. rewrite S0, Zmod_0_l in SK. congruence. }
    assert (SG : ecdsa_sign_k c G d val k = Ok (x, s)).
    { apply (sign_iff c gx gy n D); [exact K|]. split; [exists y, o; exact E|]. split; [intros ->; apply Q, Zmod_0_l|]. split; [exact S1|exact SK]. }
    unfold works, made in W. rewrite SG in W. destruct (Z.eqb_spec (x mod n) 0); [contradiction|discriminate W]. }
  assert (XQ : x = x mod n \/ x = x mod n + n).
  { pose proof (Z.div_mod x n ltac:(lia)) as DM. pose proof (Z.mod_pos_bound x n ltac:(lia)). assert (Q1 : x / n = 0 \/ x / n = 1) by nia. destruct Q1 as [Q1|Q1]; rewrite Q1 in DM; lia. }
  destruct Q as [Q|Q].
  - rewrite Q in XQ. cbn [In]. lia.
  - assert (R : x mod n = (- val * di) mod n).
    { assert (T : ((val + d * x) * di) mod n = 0) by (rewrite <- Zmult_mod_idemp_l, Q, Z.mul_0_l; apply Zmod_0_l).
      replace x with (1 * x) by lia. rewrite <- (Zmult_mod_idemp_l 1). replace (1 mod n) with 1 by (symmetry; apply Z.mod_1_l; lia).
      rewrite <- DI at 1. rewrite Zmult_mod_idemp_l. replace (d * di * x) with ((val + d * x) * di + - val * di) by ring. rewrite <- Zplus_mod_idemp_l, T. reflexivity. }
    rewrite <- R. cbn [In]. lia.
Qed.
Definition nonces : list Z := map (fun i => Z.of_nat i) (seq 1 (Z.to_nat (n - 1))).
Lemma in_nonces k : In k nonces <-> 0 < k < n.
Proof.
  unfold nonces. rewrite in_map_iff. split.
  - intros (i & <- & I). apply List.in_seq in I. lia.
  - intros B. exists (Z.to_nat k). split; [lia|]. apply List.in_seq. lia.
Qed.
Lemma nonces_nodup : NoDup nonces.
Proof. unfold nonces. apply NoDup_map_on; [apply seq_NoDup|]. intros. lia. Qed.
Lemma few_bad d val : 0 < d < n -> (List.length (filter (fun k => negb (works d val k)) nonces) <= 8)%nat.
Proof.
  intros Dd. destruct (bad_nonce d val Dd) as (e & BAD).
  set (f := fun k => (match public_pair_for_secret c G k with Ok (Some (x, _)) => x | _ => 0 end, 2 * k <? n)).
  set (l := filter (fun k => negb (works d val k)) nonces).
  assert (IL : forall k, In k l -> 0 < k < n /\ works d val k = false).
  { intros k I. apply filter_In in I. destruct I as (I & W). apply in_nonces in I. split; [exact I|]. apply negb_true_iff, W. }
  rewrite <- (map_length f). change 8%nat with (List.length (list_prod [0; n; e; e + n] [true; false])). apply NoDup_incl_length.
  - apply NoDup_map_on; [apply NoDup_filter, nonces_nodup|]. intros k k' I I' E. destruct (IL k I) as (B & W), (IL k' I') as (B' & W').
    destruct (BAD k B W) as (x & y & P & _). destruct (BAD k' B' W') as (x' & y' & P' & _). unfold f in E. rewrite P, P' in E. assert (x' = x) as -> by congruence. assert (L : (2 * k <? n) = (2 * k' <? n)) by congruence.
    destruct (pairs_same_x c gx gy n D k k' x y y' P P') as [H|H].
    + rewrite !Z.mod_small in H by lia. lia.
    + exfalso. replace (- k) with (n - k + (-1) * n) in H by lia. rewrite Z_mod_plus_full, !Z.mod_small in H by lia.
      assert (OD : n <> 2 * k). { intros Q. assert (Dv : (2 | n)) by (exists k; lia). pose proof (prime_divisors n PN 2 Dv). lia. }
      destruct (Z.ltb_spec (2 * k) n), (Z.ltb_spec (2 * k') n); try discriminate L; lia.
  - intros z I. apply in_map_iff in I. destruct I as (k & <- & I). destruct (IL k I) as (B & W). destruct (BAD k B W) as (x & y & P & X). unfold f. rewrite P. apply in_prod_iff. split; [exact X|].
    destruct (2 * k <? n); cbn [In]; tauto.
Qed.
Lemma signature_count d x y val : public_pair_for_secret c G d = Ok (Some (x, y)) -> 0 < d < n ->
  exists m, n - 9 <= m <= n - 1 /\ counted (fun z => ecdsa_verify c G (x, y) val z = Ok true) m.
Proof.
  intros PP Dd. set (l := filter (works d val) nonces). exists (Z.of_nat (List.length l)).
  pose proof (filter_split (works d val) nonces) as SP. pose proof (few_bad d val Dd) as FB. fold l in SP.
  assert (LN : Z.of_nat (List.length nonces) = n - 1) by (unfold nonces; rewrite map_length, seq_length; lia).
  split; [lia|].
  apply (counted_map (fun k => In k l) _ (fun k => match made d val k with Some z => z | None => (0, 0) end) _ (counted_list l (NoDup_filter _ nonces_nodup))).
  - intros k I. apply filter_In in I. destruct I as (I & W). apply in_nonces in I. unfold works in W. destruct (made d val k) as [(r & s)|] eqn:M; [|discriminate W].
    apply (signatures_made c gx gy n D x y d val r s PP). unfold made in M. destruct (ecdsa_sign_k c G d val k) as [(r' & s')|] eqn:E; [|discriminate M]. destruct (Z.eqb_spec (r' mod n) 0) as [|R0]; [discriminate M|].
    assert (r' mod n = r) as <- by congruence. assert (s' = s) as -> by congruence. pose proof (Z.mod_pos_bound r' n ltac:(lia)). split; [lia|]. exists k, r'. auto.
  - intros k k' I I' E. apply filter_In in I. apply filter_In in I'. destruct I as (I & W), I' as (I' & W'). apply in_nonces in I. apply in_nonces in I'. unfold works in W, W'.
    destruct (made d val k) as [z|] eqn:M; [|discriminate W]. destruct (made d val k') as [z'|] eqn:M'; [|discriminate W']. subst z'. exact (made_inj d val k k' z I I' M M').
  - intros (r & s) V. apply (signatures_made c gx gy n D x y d val r s PP) in V. destruct V as (R & k & r' & K & E & M). exists k.
    assert (MD : made d val k = Some (r, s)) by (unfold made; rewrite E, M; destruct (Z.eqb_spec r 0); [lia|reflexivity]).
    split; [|rewrite MD; reflexivity]. apply filter_In. split; [apply in_nonces, K|]. unfold works. rewrite MD. reflexivity.
Qed.
End Sig.
Lemma secp_signature_count x y e : on_curve secp_p 0 7 (EA x y) ->
  exists m, curve_order - 9 <= m <= curve_order - 1 /\ counted (fun z => secp_valid x y e (fst z) (snd z)) m.
Proof.
  intros O. destruct (secp_whole x y O) as (d & P & _). destruct (pp_pair d x y P) as (PP & _).
  destruct (signature_count secp256k1 secp_gx secp_gy key_max secp_group secp_big d x y e PP) as (m & B & C); [rewrite order_is; exact (proj1 P)|].
  exists m. split; [rewrite <- order_is; exact B|]. apply (counted_ext _ _ _ C). intros (r & s). exact (secp_verify_spec d x y e r s P).
Qed.
