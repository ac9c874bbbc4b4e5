(** The joining of a unicode text and its check bytes, and the first hardened index. *)
From Coq Require Import ZArith List Lia.
From Verif Require Import Base M_Hash M_Codec S_Codec P_Codec M_Keys S_Keys P_Keys M_EC S_EC P_PubKey P_PubTx M_HD S_HD P_HD P_Utils S_HDText.
Import ListNotations.
Open Scope Z_scope.

Lemma all_ascii_Forall l : all_ascii l = true <-> Forall (fun b => bZ b < 128) l.
Proof.
  unfold all_ascii, is_ascii. rewrite forallb_forall, Forall_forall. split; intros H b I; specialize (H b I); [apply Z.ltb_lt in H|apply Z.ltb_lt]; exact H.
Qed.

Lemma unicode_checked u : Forall (fun b => bZ b < 128) (firstn 4 (sha256 (sha256 u))) ->
  exists t, b2a_hashed_unicode u = Ok t /\ check_text u t.
Proof.
  intros F. destruct (b2a_ok u) as (t & A & C). exists t. split; [|exact C]. apply all_ascii_Forall in F.
  unfold b2a_hashed_unicode, add_unicode, double_sha256. rewrite F. exact A.
Qed.

Lemma unicode_unchecked u : ~ Forall (fun b => bZ b < 128) (firstn 4 (sha256 (sha256 u))) ->
  b2a_hashed_unicode u = Err E_UnicodeDecodeError.
Proof.
  intros F. unfold b2a_hashed_unicode, add_unicode, double_sha256.
  destruct (all_ascii _) eqn:E; [exfalso; apply F, all_ascii_Forall, E|reflexivity].
Qed.

Lemma first_hardened i : 0 <= i -> (i < hardened_start <-> i < 2 ^ 31).
Proof. intros _. reflexivity. Qed.

Lemma number_in_iff k v b : number_in k v b <-> b = be_bytes k v.
Proof.
  split.
  - intros (L & E). apply be_val_inj; [rewrite be_bytes_length; exact L|]. rewrite be_val_be_bytes. exact E.
  - intros ->. split; [apply be_bytes_length|apply be_val_be_bytes].
Qed.
Lemma hd_fields_iff v d p i c k b : hd_fields v d p i c k b <-> b = be_bytes 4 v ++ be_bytes 1 d ++ be_bytes 4 p ++ be_bytes 4 i ++ c ++ k.
Proof.
  split.
  - intros (bv & bd & bp & bi & E & H1 & H2 & H3 & H4). apply number_in_iff in H1, H2, H3, H4. congruence.
  - intros ->. exists (be_bytes 4 v), (be_bytes 1 d), (be_bytes 4 p), (be_bytes 4 i). split; [reflexivity|]. rewrite !number_in_iff. auto.
Qed.
Lemma ascii_app a b : ascii (a ++ b) <-> ascii a /\ ascii b.
Proof. apply Forall_app. Qed.
Lemma add_spec u s : (ascii s -> add_unicode u s = Ok (u ++ s)) /\ (~ ascii s -> add_unicode u s = Err E_UnicodeDecodeError).
Proof.
  unfold add_unicode. destruct (all_ascii s) eqn:E; split; intros H; try reflexivity.
  - destruct H. apply all_ascii_Forall. exact E.
  - apply all_ascii_Forall in H. congruence.
Qed.
Lemma ascii_dec s : ascii s \/ ~ ascii s.
Proof. destruct (all_ascii s) eqn:E; [left; apply all_ascii_Forall, E|right; intros H; apply all_ascii_Forall in H; congruence]. Qed.
Ltac add_step s :=
  let A := fresh "A" in destruct (ascii_dec s) as [A|A];
  [match goal with |- context[add_unicode ?u s] => rewrite (proj1 (add_spec u s) A) end
  |match goal with |- context[add_unicode ?u s] => rewrite (proj2 (add_spec u s) A) end]; cbn [bind].
Lemma priv_text h : let b := be_bytes 4 (n_hd_private_key (hv_network h)) ++ be_bytes 1 (hv_depth h) ++ be_bytes 4 (hv_parent h) ++ be_bytes 4 (hv_index h) ++ hv_chain h ++ x00 :: priv_to_bytes (hv_privkey h) in
  (ascii (b ++ firstn 4 (sha256 (sha256 b))) -> exists t, hdpriv_to_string h = Ok t /\ check_text b t) /\
  (~ ascii (b ++ firstn 4 (sha256 (sha256 b))) -> hdpriv_to_string h = Err E_UnicodeDecodeError).
Proof.
  intros b. unfold hdpriv_to_string, ib_to_bytes, b. clear b.
  set (v := be_bytes 4 _). set (d := be_bytes 1 _). set (p := be_bytes 4 _). set (i := be_bytes 4 _). set (k := priv_to_bytes _).
  change (x00 :: k) with ([x00] ++ k).
  add_step v; [|split; [rewrite !ascii_app; tauto|reflexivity]].
  add_step d; [|split; [rewrite !ascii_app; tauto|reflexivity]].
  add_step p; [|split; [rewrite !ascii_app; tauto|reflexivity]].
  add_step i; [|split; [rewrite !ascii_app; tauto|reflexivity]].
  add_step (hv_chain h); [|split; [rewrite !ascii_app; tauto|reflexivity]].
  add_step [x00]; [|split; [rewrite !ascii_app; tauto|reflexivity]].
  add_step k; [|split; [rewrite !ascii_app; tauto|reflexivity]].
  set (b := v ++ d ++ p ++ i ++ hv_chain h ++ [x00] ++ k).
  match goal with |- context[b2a_hashed_unicode ?u] => replace u with b by (unfold b; rewrite <- !app_assoc; reflexivity) end.
  assert (AB : ascii b) by (unfold b; rewrite !ascii_app; tauto). split.
  - intros A6. apply (ascii_app b) in A6. exact (unicode_checked b (proj2 A6)).
  - intros N. apply unicode_unchecked. intros H. apply N, (ascii_app b). split; [exact AB|exact H].
Qed.
Lemma pub_text h k : pk_to_bytes (hp_pubkey h) = Ok k ->
  let b := be_bytes 4 (n_hd_public_key (hp_network h)) ++ be_bytes 1 (hp_depth h) ++ be_bytes 4 (hp_parent h) ++ be_bytes 4 (hp_index h) ++ hp_chain h ++ k in
  (ascii (b ++ firstn 4 (sha256 (sha256 b))) -> exists t, hdpub_to_string h = Ok t /\ check_text b t) /\
  (~ ascii (b ++ firstn 4 (sha256 (sha256 b))) -> hdpub_to_string h = Err E_UnicodeDecodeError).
Proof.
  intros K b. unfold hdpub_to_string, ib_to_bytes, b. clear b.
  set (v := be_bytes 4 _). set (d := be_bytes 1 _). set (p := be_bytes 4 _). set (i := be_bytes 4 _).
  add_step v; [|split; [rewrite !ascii_app; tauto|reflexivity]].
  add_step d; [|split; [rewrite !ascii_app; tauto|reflexivity]].
  add_step p; [|split; [rewrite !ascii_app; tauto|reflexivity]].
  add_step i; [|split; [rewrite !ascii_app; tauto|reflexivity]].
  add_step (hp_chain h); [|split; [rewrite !ascii_app; tauto|reflexivity]]. rewrite K. cbn [bind].
  add_step k; [|split; [rewrite !ascii_app; tauto|reflexivity]].
  set (b := v ++ d ++ p ++ i ++ hp_chain h ++ k).
  match goal with |- context[b2a_hashed_unicode ?u] => replace u with b by (unfold b; rewrite <- !app_assoc; reflexivity) end.
  assert (AB : ascii b) by (unfold b; rewrite !ascii_app; tauto). split.
  - intros A6. apply (ascii_app b) in A6. exact (unicode_checked b (proj2 A6)).
  - intros N. apply unicode_unchecked. intros H. apply N, (ascii_app b). split; [exact AB|exact H].
Qed.
(** every network, also one that is not among the library's: what the texts are where there are any *)
Lemma private_text h secret b : 0 < k_secret (hv_privkey h) < curve_order -> length secret = 32%nat -> be_val secret = k_secret (hv_privkey h) ->
  hd_fields (n_hd_private_key (hv_network h)) (hv_depth h) (hv_parent h) (hv_index h) (hv_chain h) (x00 :: secret) b ->
  (ascii (b ++ firstn 4 (sha256 (sha256 b))) -> exists t, hdpriv_to_string h = Ok t /\ check_text b t) /\
  (~ ascii (b ++ firstn 4 (sha256 (sha256 b))) -> hdpriv_to_string h = Err E_UnicodeDecodeError).
Proof.
  intros R L E F. apply hd_fields_iff in F. assert (priv_to_bytes (hv_privkey h) = secret) as P.
  { apply be_val_inj; [rewrite L; apply priv_to_bytes_length|rewrite E; apply priv_to_bytes_val; exact R]. }
  rewrite <- P in F. subst b. exact (priv_text h).
Qed.
Lemma public_text h key b : usable_pub (hp_pubkey h) -> sec_of (fst (pk_pair (hp_pubkey h))) (snd (pk_pair (hp_pubkey h))) (pk_compressed (hp_pubkey h)) key ->
  hd_fields (n_hd_public_key (hp_network h)) (hp_depth h) (hp_parent h) (hp_index h) (hp_chain h) key b ->
  (ascii (b ++ firstn 4 (sha256 (sha256 b))) -> exists t, hdpub_to_string h = Ok t /\ check_text b t) /\
  (~ ascii (b ++ firstn 4 (sha256 (sha256 b))) -> hdpub_to_string h = Err E_UnicodeDecodeError).
Proof.
  intros U S F. apply hd_fields_iff in F. destruct (usable_bytes _ U) as (k & K & S' & _). rewrite (sec_of_fun _ _ _ _ _ S S') in F. subst b. exact (pub_text h k K).
Qed.
