(** How the decoder of DER signatures fails. *)
From Coq Require Import ZArith Lia Bool List.
From Verif Require Import Base M_Codec M_Keys M_EC M_Sign S_Codec S_Keys S_Sign S_Der P_Codec P_Sign.
Import ListNotations.
Open Scope Z_scope.

Lemma read_tag_err tag l e : read_tag tag l = SErr e <-> no_item tag l e.
Proof.
  destruct l as [|b l]; cbn [read_tag].
  { split; [intros H; injection H as <-; constructor|]. inversion 1; reflexivity. }
  destruct (byte_eqb b tag) eqn:T; cbn [negb].
  2:{ apply byte_eqb_neq in T. split; [intros H; injection H as <-; constructor; exact T|]. inversion 1; subst; solve [reflexivity|contradiction]. }
  apply byte_eqb_eq in T. subst b. destruct l as [|b r]; cbn [read_length sbind].
  { split; [intros H; injection H as <-; constructor|]. inversion 1; subst; solve [reflexivity|contradiction]. }
  rewrite land_high, land_low. pose proof (bZ_range b) as BR. destruct (Z.ltb_spec (bZ b) 128) as [B|B].
  { cbn [sbind]. split; [discriminate|]. inversion 1; subst; solve [contradiction|lia]. }
  cbv zeta. rewrite Z.gtb_ltb. destruct (Z.ltb_spec (blen r) (bZ b - 128)) as [S|S].
  { cbn [sbind]. split; [intros H; injection H as <-; constructor; assumption|]. pose proof (blen_nonneg r). inversion 1; subst; solve [reflexivity|contradiction|lia]. }
  destruct (string_to_number (slice_to (bZ b - 128) r)) as [v|e'] eqn:Q; cbn [sbind].
  - apply string_to_number_ok in Q. destruct Q as (NE & _). split; [discriminate|]. inversion 1; subst; try contradiction; try lia.
    destruct NE. replace (bZ b - 128) with 0 by lia. rewrite slice_to_nn by lia. reflexivity.
  - assert (Z0 : bZ b = 128).
    { rewrite slice_to_nn in Q by lia. destruct (Z.eq_dec (bZ b) 128); [assumption|]. destruct r as [|c r]; [rewrite blen_nil in S; lia|].
      destruct (Z.to_nat (bZ b - 128)) eqn:Z0; [lia|]. discriminate Q. }
    rewrite slice_to_nn in Q by lia. rewrite Z0 in Q. cbn in Q. injection Q as <-.
    split; [intros H; injection H as <-; apply ni_indefinite; exact Z0|]. inversion 1; subst; solve [reflexivity|contradiction|lia].
Qed.
Lemma read_tag_item tag l r n : read_tag tag l = SOk (r, n) -> item tag l (firstn (Z.to_nat n) r) (skipn (Z.to_nat n) r) /\ 0 <= n.
Proof. intros H. apply read_tag_ok in H. destruct H as (h & -> & B). split; [exists h, n, r; auto|exact (ber_length_nonneg _ _ B)]. Qed.
Lemma item_read tag l body rest : item tag l body rest -> exists r n, read_tag tag l = SOk (r, n) /\ slice_to n r = body /\ slice_from n r = rest.
Proof.
  intros (h & n & r & -> & B & -> & ->). exists r, n. split; [apply read_tag_ok; exists h; auto|]. pose proof (ber_length_nonneg _ _ B).
  rewrite slice_to_nn, slice_from_nn by lia. auto.
Qed.
Lemma seq_item l body rest : remove_sequence l = SOk (body, rest) <-> item x30 l body rest.
Proof. apply remove_sequence_ok. Qed.
Lemma seq_err l e : remove_sequence l = SErr e <-> no_item x30 l e.
Proof.
  rewrite <- read_tag_err. unfold remove_sequence. destruct (read_tag x30 l) as [(r, n)|e']; cbn [sbind]; [split; discriminate|split; intros H; injection H as ->; reflexivity].
Qed.
Lemma int_ok l v rest : remove_integer l = SOk (v, rest) <-> int_item l v rest.
Proof.
  rewrite remove_integer_ok. unfold int_item, item. split.
  - intros (h & n & r & -> & B & L & -> & ->). exists (firstn (Z.to_nat n) r). split; [exists h, n, r; auto|auto].
  - intros (body & (h & n & r & -> & B & -> & ->) & L & ->). exists h, n, r. auto.
Qed.
Lemma int_err l e : remove_integer l = SErr e <-> no_int l e.
Proof.
  split.
  - unfold remove_integer. destruct (read_tag x02 l) as [(r, n)|e'] eqn:Q; cbn [sbind].
    + apply read_tag_item in Q. destruct Q as (I & N). rewrite slice_to_nn by exact N. destruct (firstn (Z.to_nat n) r) as [|b t].
      * intros H. injection H as <-. exact (nt_empty l _ I).
      * destruct (Z.ltb_spec (bZ b) 128) as [B|B]; [discriminate|]. intros H. injection H as <-. exact (nt_negative l b t _ I B).
    + intros H. injection H as <-. apply nt_item, read_tag_err, Q.
  - unfold remove_integer. intros [l' e' N|l' rest I|l' b t rest I B].
    + apply read_tag_err in N. rewrite N. reflexivity.
    + apply item_read in I. destruct I as (r & n & -> & E & _). cbn [sbind]. rewrite E. reflexivity.
    + apply item_read in I. destruct I as (r & n & -> & E & _). cbn [sbind]. rewrite E. destruct (Z.ltb_spec (bZ b) 128); [lia|reflexivity].
Qed.
Lemma sigdecode_err b e : sigdecode_der b = SErr e <-> no_sig b e.
Proof.
  unfold sigdecode_der. split.
  - destruct (remove_sequence b) as [(body, junk)|e'] eqn:Q; cbn [sbind]; [apply seq_item in Q|apply seq_err in Q; intros H; injection H as <-; apply ns_sequence; exact Q].
    destruct junk as [|c junk]; [|intros H; injection H as <-; exact (ns_after_sequence b body c junk Q)].
    destruct (remove_integer body) as [(r, rest)|e'] eqn:Q1; cbn [sbind]; [apply int_ok in Q1|apply int_err in Q1; intros H; injection H as <-; exact (ns_r b body _ Q Q1)].
    destruct (remove_integer rest) as [(s, junk)|e'] eqn:Q2; cbn [sbind]; [apply int_ok in Q2|apply int_err in Q2; intros H; injection H as <-; exact (ns_s b body r rest _ Q Q1 Q2)].
    destruct junk as [|c junk]; [discriminate|]. intros H. injection H as <-. exact (ns_after_s b body r s rest c junk Q Q1 Q2).
  - intros [b' e' N|b' body c rest I|b' body e' I N|b' body r rest e' I I1 N|b' body r s rest c junk I I1 I2].
    + apply seq_err in N. rewrite N. reflexivity.
    + apply seq_item in I. rewrite I. reflexivity.
    + apply seq_item in I. rewrite I. cbn [sbind]. apply int_err in N. rewrite N. reflexivity.
    + apply seq_item in I. rewrite I. cbn [sbind]. apply int_ok in I1. rewrite I1. cbn [sbind]. apply int_err in N. rewrite N. reflexivity.
    + apply seq_item in I. rewrite I. cbn [sbind]. apply int_ok in I1. rewrite I1. cbn [sbind]. apply int_ok in I2. rewrite I2. reflexivity.
Qed.
Lemma verify_malformed k x y sg m e : public_point (k_secret k) x y -> x < curve_order -> y < curve_order -> no_sig sg e -> priv_verify k sg m = SErr e.
Proof. intros P X Y N. rewrite (verify_unfold k x y sg m P X Y). apply sigdecode_err in N. rewrite N. reflexivity. Qed.
Lemma sig_or_not b : (exists r s, lax_sig r s b) \/ (exists e, no_sig b e).
Proof.
  destruct (sigdecode_der b) as [(r, s)|e] eqn:E; [left; exists r, s; apply sigdecode_ok, E|right; exists e; apply sigdecode_err, E].
Qed.
Lemma sig_not_both b r s e : lax_sig r s b -> no_sig b e -> False.
Proof. intros L N. apply sigdecode_ok in L. apply sigdecode_err in N. congruence. Qed.
