(** Proofs about transactions: construction and signing. *)
From Coq Require Import String.
From Verif Require Import Base M_Hash M_Codec S_Codec P_Codec M_Keys S_Keys P_Keys M_EC M_Script S_Script P_Script M_Tx S_Tx P_Tx.
Open Scope Z_scope.

(** ** constructor *)
Lemma op_name_printable i : is_ok (op_name (i_op i)) = true <-> printable i.
Proof.
  unfold printable. destruct (is_const_push (i_op i)) eqn:C.
  - pose proof (proj1 (const_push_spec _) C) as R. unfold op_name. rewrite C. cbn [is_ok]. tauto.
  - assert (R : ~ 1 <= bZ (i_op i) <= 75) by (intros X; apply const_push_spec in X; congruence).
    destruct (op_name_cases _ R) as [[n [E [N _]]]|[E [N _]]]; rewrite E; cbn [is_ok]; split; try tauto; try discriminate.
    right. exists n. exact N.
Qed.
Lemma repr_ok s : script_repr_fails s = false <-> Forall printable (s_ins s).
Proof.
  unfold script_repr_fails. rewrite negb_false_iff, forallb_forall, Forall_forall. split; intros H i I; apply op_name_printable, H, I.
Qed.
Lemma obj_error_cases o e : (shows o /\ obj_error o e = e) \/ (~ shows o /\ obj_error o e = E_KeyError).
Proof.
  destruct o as [i|x|]; unfold obj_error; cbn [shows].
  - destruct (script_repr_fails (in_script i)) eqn:E.
    + right. split; [|reflexivity]. intros H. apply repr_ok in H. congruence.
    + left. split; [apply repr_ok, E | reflexivity].
  - destruct (script_repr_fails (out_script x)) eqn:E.
    + right. split; [|reflexivity]. intros H. apply repr_ok in H. congruence.
    + left. split; [apply repr_ok, E | reflexivity].
  - left. auto.
Qed.
Lemma all_inputs_cases l : (exists ins, l = map O_In ins /\ all_inputs l = Ok ins) \/
  (exists x, first_wrong an_input l x /\ all_inputs l = Err (obj_error x E_Tx_NotAnInput)).
Proof.
  induction l as [|[i|o|] l IH]; cbn [all_inputs].
  - left. exists []. auto.
  - destruct IH as [[ins [-> E]]|[x [[a [r [-> [F N]]]] E]]]; rewrite E; cbn [bind].
    + left. exists (i :: ins). auto.
    + right. exists x. split; [|reflexivity]. exists (O_In i :: a), r. split; [reflexivity|]. split; [|exact N]. constructor; [exists i; reflexivity | exact F].
  - right. exists (O_Out o). split; [|reflexivity]. exists [], l. split; [reflexivity|]. split; [constructor|]. intros [i X]. discriminate.
  - right. exists O_Other. split; [|reflexivity]. exists [], l. split; [reflexivity|]. split; [constructor|]. intros [i X]. discriminate.
Qed.
Lemma all_outputs_cases l : (exists outs, l = map O_Out outs /\ all_outputs l = Ok outs) \/
  (exists x, first_wrong an_output l x /\ all_outputs l = Err (obj_error x E_Tx_NotAnOutput)).
Proof.
  induction l as [|[i|o|] l IH]; cbn [all_outputs].
  - left. exists []. auto.
  - right. exists (O_In i). split; [|reflexivity]. exists [], l. split; [reflexivity|]. split; [constructor|]. intros [x X]. discriminate.
  - destruct IH as [[ins [-> E]]|[x [[a [r [-> [F N]]]] E]]]; rewrite E; cbn [bind].
    + left. exists (o :: ins). auto.
    + right. exists x. split; [|reflexivity]. exists (O_Out o :: a), r. split; [reflexivity|]. split; [|exact N]. constructor; [exists o; reflexivity | exact F].
  - right. exists O_Other. split; [|reflexivity]. exists [], l. split; [reflexivity|]. split; [constructor|]. intros [x X]. discriminate.
Qed.
Lemma first_wrong_fun ok l x y : first_wrong ok l x -> first_wrong ok l y -> x = y.
Proof.
  intros [a [r [-> [F N]]]] [b [s [E [G M]]]]. revert b E G. induction F as [|z a Z F IH]; intros [|w b] E G; cbn [app] in E.
  - injection E as -> ->. reflexivity.
  - injection E as -> E. inversion G; contradiction.
  - injection E as -> E. contradiction.
  - injection E as -> E. inversion G; subst. eapply IH; eassumption.
Qed.
Lemma all_ok_not_wrong {A} (f : A -> obj) (ok : obj -> Prop) l x : (forall a, ok (f a)) -> ~ first_wrong ok (map f l) x.
Proof.
  intros H [a [r [E [F N]]]]. apply N. assert (I : In x (map f l)) by (rewrite E; apply in_or_app; right; left; reflexivity).
  apply in_map_iff in I. destruct I as [y [<- _]]. apply H.
Qed.
Lemma new_tx_ok ins outs lt v t : new_tx ins outs lt v = Ok t <->
  exists i o, ins = map O_In i /\ outs = map O_Out o /\ i <> [] /\ o <> [] /\ u32 lt /\ t = Tx i o lt v.
Proof.
  split.
  - intros H. destruct (all_inputs_cases ins) as [[i [-> E]]|[x [_ E]]].
    2:{ unfold new_tx in H. rewrite E in H. destruct (blen ins =? 0); discriminate. }
    destruct (all_outputs_cases outs) as [[o [-> E']]|[x [_ E']]].
    2:{ unfold new_tx in H. rewrite E, E' in H. destruct (blen (map O_In i) =? 0); [discriminate|]. cbn [bind] in H. destruct (blen outs =? 0); discriminate. }
    apply new_tx_typed in H. destruct H as (A & B & C & D). exists i, o. auto 10.
  - intros (i & o & -> & -> & A & B & C & D). apply new_tx_typed. auto.
Qed.
Lemma new_tx_err ins outs lt v e : new_tx ins outs lt v = Err e <->
  (ins = [] /\ e = E_Tx_NoInputs) \/
  (exists x, first_wrong an_input ins x /\ (shows x /\ e = E_Tx_NotAnInput \/ ~ shows x /\ e = E_KeyError)) \/
  (ins <> [] /\ Forall an_input ins /\
    ((outs = [] /\ e = E_Tx_NoOutputs) \/
     (exists x, first_wrong an_output outs x /\ (shows x /\ e = E_Tx_NotAnOutput \/ ~ shows x /\ e = E_KeyError)) \/
     (outs <> [] /\ Forall an_output outs /\ ~ u32 lt /\ e = E_Tx_InvalidLockTime))).
Proof.
  assert (OE : forall x e0 e1, obj_error x e0 = e1 <-> (shows x /\ e1 = e0 \/ ~ shows x /\ e1 = E_KeyError)).
  { intros x e0 e1. destruct (obj_error_cases x e0) as [[S E]|[S E]]; rewrite E; split.
    - intros <-. auto.
    - intros [[_ ->]|[X _]]; [reflexivity|contradiction].
    - intros <-. auto.
    - intros [[X _]|[_ ->]]; [contradiction|reflexivity]. }
  assert (FI : forall l, Forall an_input (map O_In l)) by (intros l; apply Forall_map, Forall_forall; intros a _; exists a; reflexivity).
  assert (FO : forall l, Forall an_output (map O_Out l)) by (intros l; apply Forall_map, Forall_forall; intros a _; exists a; reflexivity).
  assert (XI : forall l x, ~ first_wrong an_input (map O_In l) x) by (intros l x; apply all_ok_not_wrong; intros a; exists a; reflexivity).
  assert (XO : forall l x, ~ first_wrong an_output (map O_Out l) x) by (intros l x; apply all_ok_not_wrong; intros a; exists a; reflexivity).
  assert (WN : forall ok x, ~ first_wrong ok [] x) by (intros ok x [a [r [E _]]]; destruct a; discriminate).
  assert (WF : forall ok l x, Forall ok l -> ~ first_wrong ok l x).
  { intros ok l x F [a [r [-> [_ N]]]]. apply N. apply Forall_app in F. destruct F as [_ F]. inversion F; assumption. }
  unfold new_tx. destruct (blen ins =? 0) eqn:E0.
  { apply blen_zero in E0. subst ins. split; [intros [= <-]; left; auto|].
    intros [[_ ->]|[[x [W _]]|[N _]]]; [reflexivity|exfalso; eapply WN; exact W|contradiction]. }
  assert (NI : ins <> []) by (intros X; apply blen_zero in X; congruence).
  destruct (all_inputs_cases ins) as [[i [-> E]]|[x [W E]]]; rewrite E; cbn [bind].
  2:{ split.
      - intros [= H]. right. left. exists x. split; [exact W|]. apply OE, H.
      - intros [[X _]|[[y [W' H]]|[_ [F _]]]]; [contradiction| |exfalso; eapply WF; eassumption].
        rewrite (first_wrong_fun _ _ _ _ W' W) in H. apply OE in H. congruence. }
  destruct (blen outs =? 0) eqn:E1.
  { apply blen_zero in E1. subst outs. split; [intros [= <-]; right; right; auto|].
    intros [[X _]|[[x [W _]]|[_ [_ [[_ ->]|[[x [W _]]|[N _]]]]]]]; try contradiction; try reflexivity; exfalso; [eapply XI; exact W|eapply WN; exact W]. }
  assert (NO : outs <> []) by (intros X; apply blen_zero in X; congruence).
  destruct (all_outputs_cases outs) as [[o [-> E']]|[x [W E']]]; rewrite E'; cbn [bind].
  2:{ split.
      - intros [= H]. right. right. split; [exact NI|]. split; [apply FI|]. right. left. exists x. split; [exact W|]. apply OE, H.
      - intros [[X _]|[[y [W' _]]|[_ [_ [[X _]|[[y [W' H]]|[_ [F _]]]]]]]]; try contradiction; try (exfalso; eapply XI; eassumption); try (exfalso; eapply WF; eassumption).
        rewrite (first_wrong_fun _ _ _ _ W' W) in H. apply OE in H. congruence. }
  unfold u32. change 0xFFFFFFFF with 4294967295. destruct ((0 <=? lt) && (lt <=? 4294967295)) eqn:E2; cbn [negb]; split.
  - discriminate.
  - intros [[X _]|[[y [W' _]]|[_ [_ [[X _]|[[y [W' _]]|[_ [_ [R _]]]]]]]]]; try contradiction; exfalso; [eapply XI; eassumption|eapply XO; eassumption|lia].
  - intros [= <-]. right. right. split; [exact NI|]. split; [apply FI|]. right. right. repeat split; auto. lia.
  - intros [[X _]|[[y [W' _]]|[_ [_ [[X _]|[[y [W' _]]|[_ [_ [R ->]]]]]]]]]; try contradiction; try reflexivity; exfalso; [eapply XI; eassumption|eapply XO; eassumption].
Qed.
Lemma new_tx_keeps ins outs lt v t : new_tx ins outs lt v = Ok t ->
  map O_In (tx_inputs t) = ins /\ map O_Out (tx_outputs t) = outs /\ tx_lock_time t = lt /\ tx_version t = v.
Proof. intros H. apply new_tx_ok in H. destruct H as (i & o & -> & -> & _ & _ & _ & ->). auto. Qed.

(** ** lists *)
Lemma mapi_nth {A B} (f : Z -> A -> B) l : forall k j, nth_error (mapi_from f k l) j = option_map (f (k + Z.of_nat j)) (nth_error l j).
Proof.
  induction l as [|a l IH]; intros k [|j]; cbn [mapi_from nth_error option_map]; try reflexivity.
  - rewrite Z.add_0_r. reflexivity.
  - rewrite IH. replace (k + 1 + Z.of_nat j) with (k + Z.of_nat (S j)) by lia. reflexivity.
Qed.
Lemma mapi_length {A B} (f : Z -> A -> B) l : forall k, List.length (mapi_from f k l) = List.length l.
Proof. induction l as [|a l IH]; intros k; cbn [mapi_from List.length]; [reflexivity|]. rewrite IH. reflexivity. Qed.
Lemma nth_error_ext {A} (l l' : list A) : (forall j, nth_error l j = nth_error l' j) -> l = l'.
Proof.
  revert l'. induction l as [|a l IH]; intros [|b l'] H; try reflexivity.
  - specialize (H O). discriminate.
  - specialize (H O). discriminate.
  - pose proof (H O) as H0. injection H0 as ->. f_equal. apply IH. intros j. apply (H (S j)).
Qed.
Lemma mapi_id {A} (f : Z -> A -> A) l k : (forall i a, k <= i -> f i a = a) -> mapi_from f k l = l.
Proof.
  intros H. apply nth_error_ext. intros j. rewrite mapi_nth. destruct (nth_error l j) as [a|]; [|reflexivity]. cbn [option_map]. rewrite H by lia. reflexivity.
Qed.
Lemma mapi_none {A B} (f : Z -> A -> B) l k : mapi_from f k l = [] <-> l = [].
Proof. destruct l; split; try reflexivity; discriminate. Qed.

Lemma replace_inputs_ok t l t' : tx_replace_inputs t l = Ok t' <->
  l <> [] /\ tx_outputs t <> [] /\ u32 (tx_lock_time t) /\ t' = Tx l (tx_outputs t) (tx_lock_time t) (tx_version t).
Proof. apply new_tx_typed. Qed.

(** ** signed messages *)
Definition strip_at (index : Z) (l : list input) : list input :=
  mapi_from (fun i inp => if negb (i =? index) then input_remove_script inp else inp) 0 l.
Lemma strip_at_stripped k l : stripped k l (strip_at (Z.of_nat k) l).
Proof.
  unfold strip_at. split; [apply mapi_length|]. intros j i H. rewrite mapi_nth, H. cbn [option_map]. f_equal.
  destruct (j =? k)%nat eqn:E; [replace (0 + Z.of_nat j =? Z.of_nat k) with true by lia | replace (0 + Z.of_nat j =? Z.of_nat k) with false by lia]; reflexivity.
Qed.
Lemma stripped_fun k l l1 l2 : stripped k l l1 -> stripped k l l2 -> l1 = l2.
Proof.
  intros [L1 H1] [L2 H2]. apply nth_error_ext. intros j. destruct (nth_error l j) as [i|] eqn:E.
  - rewrite (H1 _ _ E), (H2 _ _ E). reflexivity.
  - apply nth_error_None in E. rewrite (proj2 (nth_error_None l1 j)), (proj2 (nth_error_None l2 j)) by lia. reflexivity.
Qed.
Lemma strip_fits i : input_fits i -> input_fits (strip_script i).
Proof.
  intros (L & F & UI & UQ & WR). unfold input_fits, strip_script, writable. cbn [in_tx_id in_index in_seq in_script s_ins].
  repeat split; try assumption; try apply UI; try apply UQ; try constructor.
  - inversion H. unfold blen. cbn. lia.
  - inversion H. reflexivity.
Qed.
Lemma stripped_fits k l l' : stripped k l l' -> Forall input_fits l -> Forall input_fits l'.
Proof.
  intros [L H] F. rewrite Forall_forall in *. intros i I. apply In_nth_error in I. destruct I as [j E].
  destruct (nth_error l j) as [i0|] eqn:E0.
  - rewrite (H _ _ E0) in E. apply nth_error_In, F in E0. destruct (j =? k)%nat; injection E as <-; [exact E0 | apply strip_fits, E0].
  - apply nth_error_None in E0. assert (X : nth_error l' j = None) by (apply nth_error_None; lia). congruence.
Qed.
Lemma stripped_tx_fits k t l : stripped k (tx_inputs t) l -> tx_fits t ->
  tx_fits (Tx l (tx_outputs t) (tx_lock_time t) (tx_version t)).
Proof.
  intros S (UV & UL & NI & UI & FI & NO & UO & FO). pose proof (stripped_fits _ _ _ S FI) as F. destruct S as [L _].
  unfold tx_fits, blen. cbn [tx_inputs tx_outputs tx_lock_time tx_version]. rewrite L. repeat split; try assumption; try apply UV; try apply UL; try apply UI; try apply UO.
  intros ->. destruct (tx_inputs t); [contradiction|discriminate].
Qed.
Lemma preimage_eq t index st : tx_preimage t index st =
  (let! s := tx_replace_inputs t (strip_at index (tx_inputs t)) in let! p := tx_to_bytes s in Ok (p ++ encode_int st false (Some 4%nat))).
Proof. reflexivity. Qed.
Lemma preimage_message t k st m : tx_fits t -> u32 st -> (tx_preimage t (Z.of_nat k) st = Ok m <-> signing_message t k st m).
Proof.
  intros F U. pose proof (strip_at_stripped k (tx_inputs t)) as S. set (l := strip_at (Z.of_nat k) (tx_inputs t)) in *.
  pose proof (stripped_tx_fits _ _ _ S F) as FS. rewrite preimage_eq. fold l.
  assert (R : tx_replace_inputs t l = Ok (Tx l (tx_outputs t) (tx_lock_time t) (tx_version t))).
  { apply replace_inputs_ok. destruct FS as (_ & UL & NI & _ & _ & NO & _). auto. }
  rewrite R. cbn [bind]. unfold signing_message. split.
  - intros H. apply bind_ok in H. destruct H as [w [W H]]. injection H as <-. apply (tx_write _ _ FS) in W.
    exists l, w, (encode_int st false (Some 4%nat)). split; [exact S|]. split; [exact W|]. split; [apply (field_u32 _ _ U); reflexivity|reflexivity].
  - intros (l' & w & tb & S' & W & T & ->). rewrite (stripped_fun _ _ _ _ S' S) in W. apply (tx_write _ _ FS) in W. rewrite W. cbn [bind].
    apply (field_u32 _ _ U) in T. rewrite T. reflexivity.
Qed.
Lemma preimage_total t index st : tx_fits t -> exists m, tx_preimage t index st = Ok m.
Proof.
  intros F. rewrite preimage_eq.
  assert (X : exists k, strip_at index (tx_inputs t) = strip_at (Z.of_nat k) (tx_inputs t)).
  { destruct (Z.lt_ge_cases index 0) as [L|L]; [|exists (Z.to_nat index); rewrite Z2Nat.id by lia; reflexivity].
    exists (List.length (tx_inputs t)). apply nth_error_ext. intros j. unfold strip_at. rewrite !mapi_nth.
    destruct (nth_error (tx_inputs t) j) eqn:E; [|reflexivity]. cbn [option_map].
    assert (j < List.length (tx_inputs t))%nat by (apply nth_error_Some; congruence).
    replace (0 + Z.of_nat j =? index) with false by lia. replace (0 + Z.of_nat j =? Z.of_nat (List.length (tx_inputs t))) with false by lia. reflexivity. }
  destruct X as [k ->]. pose proof (strip_at_stripped k (tx_inputs t)) as S. pose proof (stripped_tx_fits _ _ _ S F) as FS.
  assert (R : tx_replace_inputs t (strip_at (Z.of_nat k) (tx_inputs t)) = Ok (Tx (strip_at (Z.of_nat k) (tx_inputs t)) (tx_outputs t) (tx_lock_time t) (tx_version t))).
  { apply replace_inputs_ok. destruct FS as (_ & UL & NI & _ & _ & NO & _). auto. }
  rewrite R. cbn [bind]. destruct (tx_write_total _ FS) as [w ->]. cbn [bind]. eauto.
Qed.

(** independence of the other scripts *)
Lemma preimage_other_scripts t t' k st :
  tx_outputs t' = tx_outputs t -> tx_lock_time t' = tx_lock_time t -> tx_version t' = tx_version t ->
  Forall2 same_but_script (tx_inputs t) (tx_inputs t') ->
  (0 <= k -> nth_error (tx_inputs t) (Z.to_nat k) = nth_error (tx_inputs t') (Z.to_nat k)) ->
  tx_preimage t' k st = tx_preimage t k st.
Proof.
  intros O L V F N. rewrite !preimage_eq.
  assert (X : strip_at k (tx_inputs t') = strip_at k (tx_inputs t)).
  { apply nth_error_ext. intros j. unfold strip_at. rewrite !mapi_nth.
    destruct (0 + Z.of_nat j =? k) eqn:E; cbn [negb].
    - assert (J : Z.to_nat k = j) by lia. rewrite J in N. rewrite N by lia. reflexivity.
    - clear - F. revert j. induction F as [|a b l l' S F IH]; intros [|j]; cbn [nth_error option_map]; try reflexivity; [|apply IH].
      destruct S as [S1 [S2 S3]]. unfold input_remove_script, input_replace_script. rewrite S1, S2, S3. reflexivity. }
  rewrite X. unfold tx_replace_inputs. rewrite O, L, V. reflexivity.
Qed.

(** what a message determines *)
Lemma stripped_nth k l l' j i : stripped k l l' -> nth_error l j = Some i -> nth_error l' j = Some (if (j =? k)%nat then i else strip_script i).
Proof. intros [_ H]. apply H. Qed.
Lemma Forall2_nth {A B} (R : A -> B -> Prop) l l' : Forall2 R l l' -> forall j a, nth_error l j = Some a -> exists b, nth_error l' j = Some b /\ R a b.
Proof. induction 1 as [|x y l l' H F IH]; intros [|j] a; cbn [nth_error]; try discriminate; [intros [= <-]; eauto | apply IH]. Qed.
Lemma Forall2_of_nth {A B} (R : A -> B -> Prop) l l' : List.length l = List.length l' ->
  (forall j a b, nth_error l j = Some a -> nth_error l' j = Some b -> R a b) -> Forall2 R l l'.
Proof.
  revert l'. induction l as [|a l IH]; intros [|b l'] L H; try discriminate; constructor.
  - apply (H O); reflexivity.
  - apply IH; [injection L as L; exact L|]. intros j. apply (H (S j)).
Qed.
Lemma F2_length {A B} (R : A -> B -> Prop) l l' : Forall2 R l l' -> List.length l = List.length l'.
Proof. induction 1; cbn [List.length]; lia. Qed.
Lemma message_commits t t' k k' st st' m i i' :
  tx_fits t -> tx_fits t' -> u32 st -> u32 st' ->
  nth_error (tx_inputs t) k = Some i -> nth_error (tx_inputs t') k' = Some i' ->
  signing_message t k st m -> signing_message t' k' st' m ->
  st = st' /\ tx_version t = tx_version t' /\ tx_lock_time t = tx_lock_time t' /\
  Forall2 same_output (tx_outputs t) (tx_outputs t') /\
  Forall2 (fun a b => same_but_script (lower_input a) (lower_input b)) (tx_inputs t) (tx_inputs t') /\
  ((k = k' /\ same_script (in_script i) (in_script i')) \/ (s_ins (in_script i) = [] /\ s_ins (in_script i') = [])).
Proof.
  intros F F' U U' I I' (l & w & tb & S & W & T & ->) (l' & w' & tb' & S' & W' & T' & E).
  apply app_inj_len_r in E; [|destruct T, T'; congruence]. destruct E as [E1 E2]. subst tb' w'.
  pose proof (proj1 (tx_prefix compact_size compact_prefix _ _ w w [] [] W W' eq_refl)) as [SI [SO [SL SV]]].
  cbn [lower_ids tx_inputs tx_outputs tx_lock_time tx_version] in SI, SO, SL, SV.
  split; [destruct T as [_ <-], T' as [_ <-]; reflexivity|]. split; [exact SV|]. split; [exact SL|]. split; [exact SO|].
  assert (P : forall j a b, nth_error l j = Some a -> nth_error l' j = Some b -> same_input (lower_input a) (lower_input b)).
  { intros j a b Ha Hb. destruct (Forall2_nth _ _ _ SI j (lower_input a)) as [b' [Hb' R]].
    - rewrite nth_error_map, Ha. reflexivity.
    - rewrite nth_error_map, Hb in Hb'. injection Hb' as <-. exact R. }
  assert (LL : List.length l = List.length l').
  { apply F2_length in SI. rewrite !map_length in SI. exact SI. }
  pose proof (proj1 S) as L1. pose proof (proj1 S') as L2. split.
  - apply Forall2_of_nth; [lia|]. intros j a b Ha Hb.
    pose proof (P j _ _ (stripped_nth _ _ _ _ _ S Ha) (stripped_nth _ _ _ _ _ S' Hb)) as [R1 [R2 [_ R3]]].
    unfold same_but_script. destruct (j =? k)%nat, (j =? k')%nat; cbn in *; auto.
  - destruct (Nat.eq_dec k k') as [<-|N].
    + left. split; [reflexivity|]. pose proof (P k _ _ (stripped_nth _ _ _ _ _ S I) (stripped_nth _ _ _ _ _ S' I')) as [_ [_ [R _]]].
      rewrite Nat.eqb_refl in R. exact R.
    + right. split.
      * destruct (nth_error (tx_inputs t') k) as [b|] eqn:Hb.
        -- pose proof (P k _ _ (stripped_nth _ _ _ _ _ S I) (stripped_nth _ _ _ _ _ S' Hb)) as [_ [_ [R _]]].
           rewrite Nat.eqb_refl in R. replace (k =? k')%nat with false in R by lia. unfold same_script in R. cbn in R.
           apply map_eq_nil in R. exact R.
        -- apply nth_error_None in Hb. assert (k < List.length (tx_inputs t))%nat by (apply nth_error_Some; congruence). lia.
      * destruct (nth_error (tx_inputs t) k') as [b|] eqn:Hb.
        -- pose proof (P k' _ _ (stripped_nth _ _ _ _ _ S Hb) (stripped_nth _ _ _ _ _ S' I')) as [_ [_ [R _]]].
           rewrite Nat.eqb_refl in R. replace (k' =? k)%nat with false in R by lia. unfold same_script in R. cbn in R.
           symmetry in R. apply map_eq_nil in R. exact R.
        -- apply nth_error_None in Hb. assert (k' < List.length (tx_inputs t'))%nat by (apply nth_error_Some; congruence). lia.
Qed.

(** ** signing *)
Lemma input_sign_ok sg i keys p st i' : input_sign sg i keys p st = Ok i' ->
  in_class_of i <> C_Input /\ in_class_of i' = C_Input /\ same_but_script i i'.
Proof.
  unfold input_sign, same_but_script. destruct (in_class_of i) eqn:C; try discriminate.
  - destruct keys as [|k [|? ?]]; try discriminate. intros H. apply bind_ok in H. destruct H as [pub [_ H]].
    apply bind_ok in H. destruct H as [c [_ H]]. apply bind_ok in H. destruct H as [s [_ H]]. injection H as <-. cbn. repeat split; discriminate.
  - intros H. apply bind_ok in H. destruct H as [sigs [_ H]]. apply bind_ok in H. destruct H as [s [_ H]]. injection H as <-. cbn. repeat split; discriminate.
  - intros H. apply bind_ok in H. destruct H as [sigs [_ H]]. apply bind_ok in H. destruct H as [s [_ H]]. injection H as <-. cbn. repeat split; discriminate.
Qed.
Lemma py_index_pos {A} (l : list A) k : 0 <= k -> py_index l k = match nth_error l (Z.to_nat k) with Some a => Ok a | None => Err E_IndexError end.
Proof.
  intros H. unfold py_index. replace (k <? 0) with false by lia. replace (k <? 0) with false by lia. cbn [orb].
  destruct (blen l <=? k) eqn:E; [|reflexivity]. unfold blen in E. rewrite (proj2 (nth_error_None l (Z.to_nat k))) by lia. reflexivity.
Qed.
Lemma py_index_neg {A} (l : list A) k : - blen l <= k < 0 -> py_index l k = match nth_error l (Z.to_nat (k + blen l)) with Some a => Ok a | None => Err E_IndexError end.
Proof.
  intros H. unfold py_index. replace (k <? 0) with true by lia. replace (k + blen l <? 0) with false by lia. cbn [orb].
  replace (blen l <=? k + blen l) with false by lia. reflexivity.
Qed.
Lemma py_index_out {A} (l : list A) k : ~ - blen l <= k < blen l -> py_index l k = Err E_IndexError.
Proof.
  intros H. unfold py_index. pose proof (blen_nonneg l). destruct (k <? 0) eqn:E.
  - replace (k + blen l <? 0) with true by lia. reflexivity.
  - replace (blen l <=? k) with true by lia. rewrite orb_true_r. reflexivity.
Qed.
Lemma py_index_in {A} (l : list A) k a : py_index l k = Ok a -> - blen l <= k < blen l /\ In a l.
Proof.
  intros H. destruct (Z_le_dec (- blen l) k) as [L|L]; [|rewrite py_index_out in H by lia; discriminate].
  destruct (Z_lt_dec k (blen l)) as [R|R]; [|rewrite py_index_out in H by lia; discriminate]. split; [lia|].
  destruct (Z_lt_dec k 0).
  - rewrite py_index_neg in H by lia. destruct (nth_error l (Z.to_nat (k + blen l))) eqn:E; [|discriminate]. injection H as ->. eapply nth_error_In, E.
  - rewrite py_index_pos in H by lia. destruct (nth_error l (Z.to_nat k)) eqn:E; [|discriminate]. injection H as ->. eapply nth_error_In, E.
Qed.
(** the result of a successful call *)
Lemma tx_sign_inv sg t keys k st t' : tx_sign sg t keys k st = Ok t' ->
  exists m inp inp', tx_preimage t k st = Ok m /\ py_index (tx_inputs t) k = Ok inp /\
    input_sign sg inp keys (sha256 (sha256 m)) st = Ok inp' /\ tx_inputs t <> [] /\ tx_outputs t <> [] /\ u32 (tx_lock_time t) /\
    t' = Tx (mapi_from (fun i x => if i =? k then inp' else x) 0 (tx_inputs t)) (tx_outputs t) (tx_lock_time t) (tx_version t).
Proof.
  unfold tx_sign. intros H. apply bind_ok in H. destruct H as [m [M H]]. apply bind_ok in H. destruct H as [inp [I H]].
  apply bind_ok in H. destruct H as [inp' [S H]]. apply replace_inputs_ok in H. destruct H as (N & O & U & ->).
  exists m, inp, inp'. repeat split; try assumption; try apply U. intros X. rewrite X in N. apply N. reflexivity.
Qed.
Lemma tx_sign_intro sg t keys k st m inp inp' : tx_preimage t k st = Ok m -> py_index (tx_inputs t) k = Ok inp ->
    input_sign sg inp keys (sha256 (sha256 m)) st = Ok inp' -> tx_inputs t <> [] -> tx_outputs t <> [] -> u32 (tx_lock_time t) ->
  tx_sign sg t keys k st = Ok (Tx (mapi_from (fun i x => if i =? k then inp' else x) 0 (tx_inputs t)) (tx_outputs t) (tx_lock_time t) (tx_version t)).
Proof.
  intros M I S N O U. unfold tx_sign. rewrite M. cbn [bind]. rewrite I. cbn [bind]. rewrite S. cbn [bind].
  apply replace_inputs_ok. repeat split; try assumption; try apply U. intros X. apply mapi_none in X. contradiction.
Qed.
Lemma sign_frame sg t keys k st t' : 0 <= k -> tx_sign sg t keys k st = Ok t' ->
  tx_outputs t' = tx_outputs t /\ tx_lock_time t' = tx_lock_time t /\ tx_version t' = tx_version t /\
  equal_but (Z.to_nat k) (tx_inputs t) (tx_inputs t') /\
  exists i i', nth_error (tx_inputs t) (Z.to_nat k) = Some i /\ nth_error (tx_inputs t') (Z.to_nat k) = Some i' /\
    same_but_script i i' /\ in_class_of i' = C_Input.
Proof.
  intros K H. apply tx_sign_inv in H. destruct H as (m & inp & inp' & M & I & S & N & O & U & ->).
  cbn [tx_outputs tx_lock_time tx_version tx_inputs]. do 3 (split; [reflexivity|]). split.
  - split; [symmetry; apply mapi_length|]. intros j J. rewrite mapi_nth. replace (0 + Z.of_nat j =? k) with false by lia.
    destruct (nth_error (tx_inputs t) j); reflexivity.
  - rewrite py_index_pos in I by lia. destruct (nth_error (tx_inputs t) (Z.to_nat k)) as [i|] eqn:E; [|discriminate]. injection I as ->.
    exists inp, inp'. split; [reflexivity|]. rewrite mapi_nth, E. cbn [option_map]. replace (0 + Z.of_nat (Z.to_nat k) =? k) with true by lia.
    split; [reflexivity|]. apply input_sign_ok in S. tauto.
Qed.
Lemma sign_negative sg t keys k st t' : k < 0 -> tx_sign sg t keys k st = Ok t' -> t' = t.
Proof.
  intros K H. apply tx_sign_inv in H. destruct H as (m & inp & inp' & M & I & S & N & O & U & ->).
  rewrite mapi_id; [destruct t; reflexivity|]. intros i a L. replace (i =? k) with false by lia. reflexivity.
Qed.
Lemma sign_out_of_range sg t keys k st : tx_fits t -> ~ - blen (tx_inputs t) <= k < blen (tx_inputs t) ->
  tx_sign sg t keys k st = Err E_IndexError.
Proof.
  intros F R. unfold tx_sign. destruct (preimage_total t k st F) as [m ->]. cbn [bind]. rewrite py_index_out by exact R. reflexivity.
Qed.
Lemma sign_only_in_range sg t keys k st t' : tx_sign sg t keys k st = Ok t' -> - blen (tx_inputs t) <= k < blen (tx_inputs t).
Proof. intros H. apply tx_sign_inv in H. destruct H as (m & inp & inp' & M & I & _). apply py_index_in in I. tauto. Qed.
Lemma sign_plain sg t keys k st i : tx_fits t -> py_index (tx_inputs t) k = Ok i -> in_class_of i = C_Input ->
  tx_sign sg t keys k st = Err E_In_UnknownSignatureMethod.
Proof.
  intros F I C. unfold tx_sign. destruct (preimage_total t k st F) as [m ->]. cbn [bind]. rewrite I. cbn [bind].
  unfold input_sign. rewrite C. reflexivity.
Qed.
Lemma sign_parsed sg b t keys k st : tx_from_bytes b = Ok t -> exists e, tx_sign sg t keys k st = Err e.
Proof.
  intros H. destruct (tx_sign sg t keys k st) as [t'|e] eqn:E; [|eauto]. exfalso.
  apply tx_sign_inv in E. destruct E as (m & inp & inp' & M & I & S & _). apply py_index_in in I. destruct I as [_ I].
  apply tx_from_bytes_ok in H. destruct H as [w [r [_ [_ (F & _)]]]]. rewrite Forall_forall in F. apply F in I. destruct I as [C _].
  apply input_sign_ok in S. tauto.
Qed.
Lemma sign_again sg sg' t keys keys' k st st' t' : 0 <= k -> tx_sign sg t keys k st = Ok t' ->
  exists e, tx_sign sg' t' keys' k st' = Err e.
Proof.
  intros K H. apply (sign_frame _ _ _ _ _ _ K) in H. destruct H as (_ & _ & _ & _ & i & i' & _ & E & _ & C).
  destruct (tx_sign sg' t' keys' k st') as [t2|e] eqn:X; [|eauto]. exfalso.
  apply tx_sign_inv in X. destruct X as (m & inp & inp' & M & I & S & _). rewrite py_index_pos, E in I by lia. injection I as <-.
  apply input_sign_ok in S. tauto.
Qed.
Lemma same_but_refl i : same_but_script i i.
Proof. repeat split. Qed.
Lemma Forall2_refl {A} (R : A -> A -> Prop) l : (forall a, R a a) -> Forall2 R l l.
Proof. intros H. induction l; constructor; auto. Qed.
(** signatures on different inputs commute *)
Lemma mapi_same k inp inp' l : 0 <= k -> nth_error l (Z.to_nat k) = Some inp -> same_but_script inp inp' ->
  Forall2 same_but_script l (mapi_from (fun i x => if i =? k then inp' else x) 0 l).
Proof.
  intros K E S. apply Forall2_of_nth; [symmetry; apply mapi_length|]. intros j a b Ha Hb. rewrite mapi_nth, Ha in Hb. cbn [option_map] in Hb.
  injection Hb as <-. destruct (Z.of_nat j =? k) eqn:J; [|apply same_but_refl]. assert (X : Z.to_nat k = j) by lia. rewrite X, Ha in E.
  injection E as ->. exact S.
Qed.
Lemma same_but_sym a b : same_but_script a b -> same_but_script b a.
Proof. intros [A [B C]]. repeat split; symmetry; assumption. Qed.
Lemma mapi_nth_other k inp' (l : list input) j : j <> k -> 0 <= j ->
  nth_error (mapi_from (fun i x => if i =? k then inp' else x) 0 l) (Z.to_nat j) = nth_error l (Z.to_nat j).
Proof.
  intros N J. rewrite mapi_nth. destruct (nth_error l (Z.to_nat j)) eqn:E; [|reflexivity]. cbn [option_map].
  replace (0 + Z.of_nat (Z.to_nat j) =? k) with false by lia. reflexivity.
Qed.
Lemma sign_commute sg1 sg2 t t1 t12 keys1 keys2 i j st1 st2 : 0 <= i -> 0 <= j -> i <> j ->
  tx_sign sg1 t keys1 i st1 = Ok t1 -> tx_sign sg2 t1 keys2 j st2 = Ok t12 ->
  exists t2, tx_sign sg2 t keys2 j st2 = Ok t2 /\ tx_sign sg1 t2 keys1 i st1 = Ok t12.
Proof.
  intros I J N H1 H2. apply tx_sign_inv in H1. destruct H1 as (m1 & a & a' & M1 & X1 & S1 & NI & NO & U & ->).
  apply tx_sign_inv in H2. destruct H2 as (m2 & b & b' & M2 & X2 & S2 & _ & _ & _ & ->).
  cbn [tx_inputs tx_outputs tx_lock_time tx_version] in *. rewrite py_index_pos in X1, X2 by lia.
  destruct (nth_error (tx_inputs t) (Z.to_nat i)) as [a0|] eqn:EA; [|discriminate]. injection X1 as ->.
  rewrite mapi_nth_other in X2 by lia.
  destruct (nth_error (tx_inputs t) (Z.to_nat j)) as [b0|] eqn:EB; [|discriminate]. injection X2 as ->.
  pose proof (proj2 (proj2 (input_sign_ok _ _ _ _ _ _ S1))) as SA. pose proof (proj2 (proj2 (input_sign_ok _ _ _ _ _ _ S2))) as SB.
  assert (P2 : tx_preimage t j st2 = Ok m2).
  { rewrite <- M2. symmetry. apply preimage_other_scripts; try reflexivity; cbn [tx_inputs].
    - eapply mapi_same; eassumption.
    - intros _. rewrite mapi_nth_other by lia. reflexivity. }
  eexists. split.
  - eapply tx_sign_intro; [exact P2 | rewrite py_index_pos, EB by lia; reflexivity | exact S2 | assumption..].
  - assert (P1 : tx_preimage (Tx (mapi_from (fun i x => if i =? j then b' else x) 0 (tx_inputs t)) (tx_outputs t) (tx_lock_time t) (tx_version t)) i st1 = Ok m1).
    { rewrite <- M1. apply preimage_other_scripts; try reflexivity; cbn [tx_inputs].
      - eapply mapi_same; eassumption.
      - intros _. rewrite mapi_nth_other by lia. reflexivity. }
    erewrite tx_sign_intro; [ | exact P1 | cbn [tx_inputs]; rewrite py_index_pos, mapi_nth_other, EA by lia; reflexivity | exact S1 | | assumption..].
    2:{ cbn [tx_inputs]. intros X. apply mapi_none in X. contradiction. }
    cbn [tx_inputs tx_outputs tx_lock_time tx_version]. do 2 f_equal.
    apply nth_error_ext. intros n. rewrite !mapi_nth. destruct (nth_error (tx_inputs t) n); [|reflexivity]. cbn [option_map]. f_equal.
    destruct (0 + Z.of_nat n =? i) eqn:E1, (0 + Z.of_nat n =? j) eqn:E2; try reflexivity. lia.
Qed.

(** ** input classes *)
Lemma address_sign_count sg i keys p st : in_class_of i = C_AddressInput -> (forall k, keys <> [k]) ->
  input_sign sg i keys p st = Err (E_In_InvalidSignatureCount 1 (blen keys)).
Proof. intros C N. unfold input_sign. rewrite C. destruct keys as [|k [|? ?]]; try reflexivity. exfalso. apply (N k). reflexivity. Qed.
Lemma address_sign_ok sg i k p st i' : in_class_of i = C_AddressInput -> input_sign sg i [k] p st = Ok i' ->
  exists pub kb, priv_to_public_key k = Ok pub /\ pk_to_bytes pub = Ok kb /\ 0 <= st <= 255 /\
    s_class (in_script i') = Some PayToPubkeyIn /\ shape PayToPubkeyIn (s_ins (in_script i')) /\
    get_signature (in_script i') = Ok (Some (Str (sg 0%nat (k_secret k) p ++ [Zb st]))) /\
    data_at (in_script i') 1 = Ok (Some (Str kb)).
Proof.
  intros C. unfold input_sign. rewrite C. intros H. apply bind_ok in H. destruct H as [pub [P H]].
  apply bind_ok in H. destruct H as [c [E H]]. apply bind_ok in H. destruct H as [s [S H]]. injection H as <-.
  unfold py_chr in E. destruct ((0 <=? st) && (st <? 256)) eqn:R; [|discriminate]. injection E as <-.
  pose proof (p2pk_in_ok _ _ _ S) as (kb & K & SH & SC & G & _). exists pub, kb. cbn [input_replace_script in_script].
  repeat split; try assumption; try lia.
  unfold p2pk_in_create in S. rewrite K in S. cbn [bind] in S. apply sub_create_inv in S. destruct S as [_ F].
  unfold data_at. remember (s_ins s) as l eqn:L. clear - F. inversion F as [|x y ? l' H1 F2]; subst. inversion F2 as [|x' y' ? l'' H2 F3]; subst.
  cbn [nth_error]. unfold to_instruction in H2. apply bind_ok in H2. destruct H2 as [o [_ H2]]. apply new_instr_ok in H2.
  destruct H2 as [-> _]. reflexivity.
Qed.
Lemma address_sign_ignores_script sg i s keys p st : in_class_of i = C_AddressInput ->
  input_sign sg (Input C_AddressInput (in_tx_id i) (in_index i) s (in_seq i)) keys p st = input_sign sg i keys p st.
Proof. intros C. unfold input_sign. cbn [in_class_of]. rewrite C. reflexivity. Qed.
Lemma address_create_ok id n a q i : address_input_create id n a q = Ok i ->
  in_class_of i = C_AddressInput /\ in_tx_id i = id /\ in_index i = n /\ in_seq i = q /\
  s_class (in_script i) = Some PayToPubkeyOut /\ shape PayToPubkeyOut (s_ins (in_script i)) /\
  get_address_hash (in_script i) = Ok (Some (a_phash a)).
Proof.
  unfold address_input_create. intros H. apply bind_ok in H. destruct H as [s [S H]]. injection H as <-.
  apply p2pk_out_ok in S. cbn. tauto.
Qed.
Lemma address_can_sign_ok id n a q i k : address_input_create id n a q = Ok i -> forall b, address_can_sign i [k] = Ok b ->
  exists ka, priv_to_address k = Ok ka /\ (b = true <-> pyb_bytes (a_phash ka) = pyb_bytes (a_phash a)).
Proof.
  intros H b. apply address_create_ok in H. destruct H as (_ & _ & _ & _ & C & _ & G). unfold address_can_sign. intros E.
  apply bind_ok in E. destruct E as [ka [K E]]. rewrite C, G in E. cbn [bind] in E. injection E as <-. exists ka. split; [exact K|].
  unfold pyb_eqb. apply bytes_eqb_eq.
Qed.
Lemma address_can_sign_count i keys : (forall k, keys <> [k]) -> address_can_sign i keys = Ok false.
Proof. intros N. destruct keys as [|k [|? ?]]; try reflexivity. exfalso. apply (N k). reflexivity. Qed.

(** ** ids *)
Lemma get_id_ok t h : tx_fits t -> (tx_get_id t = Ok h <-> exists w, tx_wire compact_size t w /\ h = encode_hex (sha256 (sha256 w))).
Proof.
  intros F. unfold tx_get_id, tx_get_id_bytes. split.
  - intros H. apply bind_ok in H. destruct H as [b [H E]]. apply bind_ok in H. destruct H as [w [W H]]. injection H as <-. injection E as <-.
    exists w. split; [apply (tx_write _ _ F), W | reflexivity].
  - intros [w [W ->]]. apply (tx_write _ _ F) in W. rewrite W. reflexivity.
Qed.
Lemma outpoint_reversed i w : input_to_bytes i = Ok w -> forall d, hex_text (in_tx_id i) d -> exists r, w = rev d ++ r.
Proof.
  unfold input_to_bytes. intros H d X. apply bind_ok in H. destruct H as [sb [_ H]]. rewrite (proj2 (decode_hex_iff _ _) X) in H. cbn [bind] in H.
  unfold buf_write in H. cbn [app] in H. rewrite <- !app_assoc in H. injection H as <-. eauto.
Qed.

(** ** outputs *)
Lemma output_create_iff a s o : output_create a s = Ok o <->
  out_amount o = a /\ s_ins (out_script o) = s_ins s /\ classifiable s /\ output_class_by_template o.
Proof.
  assert (K : forall c, classify (s_ins s) = Ok c -> forall x, c = Some x <-> shape x (s_ins s)).
  { intros c E x. rewrite <- classify_some, E. split; [congruence | intros [= <-]; reflexivity]. }
  unfold output_create, script_create, classifiable. destruct (classify (s_ins s)) as [c|e] eqn:E; cbn [bind].
  - specialize (K c eq_refl). cbn [s_class]. unfold output_class_by_template, read_class. split.
    + intros [= <-]. cbn [out_amount out_script out_class_of s_ins s_class]. split; [reflexivity|]. split; [reflexivity|]. split.
      { intros B. assert (X : classify (s_ins s) = Err E_AttributeError) by (apply classify_err; auto). congruence. }
      split; [exact K|]. rewrite <- !K. destruct c as [[]|]; repeat split; congruence.
    + destruct o as [oc oa [sc ins]]. cbn [out_amount out_script out_class_of s_ins s_class]. intros (-> & -> & _ & R & A & B & D & N).
      assert (sc = c). { destruct sc as [x|]; [symmetry; apply K, R; reflexivity|]. destruct c as [x|]; [|reflexivity]. apply R, K. reflexivity. }
      subst sc. f_equal. f_equal. rewrite <- K in A, B, D. destruct c as [[]|] eqn:KK; symmetry;
      try (apply A; reflexivity); try (apply B; reflexivity); try (apply D; reflexivity);
      (destruct oc; [reflexivity|
        (pose proof (proj1 A eq_refl); discriminate) || congruence|
        (pose proof (proj1 B eq_refl); discriminate) || congruence|
        congruence|
        (pose proof (proj1 D eq_refl); discriminate) || congruence]).
  - split; [discriminate|]. intros (_ & _ & C & _). exfalso. apply C. apply classify_err in E. apply E.
Qed.
Lemma output_create_err a s e : output_create a s = Err e <-> e = E_AttributeError /\ ~ classifiable s.
Proof.
  unfold output_create, script_create, classifiable. destruct (classify (s_ins s)) as [c|e'] eqn:E; cbn [bind].
  - split; [discriminate|]. intros [_ N]. exfalso. apply N. intros B. assert (X : classify (s_ins s) = Err E_AttributeError) by (apply classify_err; auto). congruence.
  - apply classify_err in E. destruct E as [-> B]. split; [intros [= <-]; tauto | intros [-> _]; reflexivity].
Qed.
Lemma address_output_ok amt a o : address_output_create amt a = Ok o ->
  out_class_of o = C_AddressOutput /\ out_amount o = amt /\ shape PayToPubkeyOut (s_ins (out_script o)) /\
  get_address_hash (out_script o) = Ok (Some (a_phash a)).
Proof. unfold address_output_create. intros H. apply bind_ok in H. destruct H as [s [S H]]. injection H as <-. apply p2pk_out_ok in S. cbn. tauto. Qed.
Lemma script_output_ok amt r o : script_output_create amt r = Ok o ->
  exists rb, script_to_bytes r = Ok rb /\ out_class_of o = C_ScriptOutput /\ out_amount o = amt /\ shape PayToScriptOut (s_ins (out_script o)) /\
  get_script_hash (out_script o) = Ok (Some (Str (ripemd160 (sha256 rb)))).
Proof.
  unfold script_output_create. intros H. apply bind_ok in H. destruct H as [s [S H]]. injection H as <-. apply p2sh_out_ok in S.
  destruct S as [rb [R [A [B C]]]]. exists rb. cbn. tauto.
Qed.
(** MultisigOutput pays to the bare redeem script. *)
Lemma multisig_output_ok amt ks m o : multisig_output_create amt ks m = Ok o ->
  out_class_of o = C_MultisigOutput /\ out_amount o = amt /\ s_class (out_script o) = Some RedeemMultisig /\
  (ks <> [] -> shape RedeemMultisig (s_ins (out_script o))).
Proof.
  unfold multisig_output_create. intros H. apply bind_ok in H. destruct H as [s [S H]]. injection H as <-. apply multisig_ok in S.
  destruct S as [bs [_ [C [_ [_ [_ [X _]]]]]]]. cbn. auto.
Qed.
Lemma multisig_output_not_p2sh amt ks m o : multisig_output_create amt ks m = Ok o -> ~ shape PayToScriptOut (s_ins (out_script o)).
Proof.
  intros H S. unfold multisig_output_create in H. apply bind_ok in H. destruct H as [s [M H]]. injection H as <-. cbn [out_script] in S.
  destruct ks as [|k ks].
  - apply multisig_no_keys in M. apply classify_none in M. destruct M as [N _]. apply N. eauto.
  - apply multisig_ok in M. destruct M as [bs [_ [_ [_ [_ [_ [X _]]]]]]]. specialize (X ltac:(discriminate)).
    apply classify_some in S, X. congruence.
Qed.
(** ... and comes back as a plain Output. *)
Lemma multisig_output_reads_plain b o : output_from_bytes b = Ok o -> out_class_of o <> C_MultisigOutput.
Proof.
  unfold output_from_bytes. destruct (output_from_buffer b) as [[x|e] r] eqn:E; cbn [fst]; intros [= <-].
  apply output_reader_inv in E. destruct E as [w [_ [_ [T _]]]]. apply T.
Qed.

(** data outputs *)
Lemma data_output_ok d o : data_output_create d = Ok o <->
  exists b, d = Str b /\ 1 <= blen b <= 80 /\ out_class_of o = C_DataOutput /\ out_amount o = 0 /\
    s_class (out_script o) = Some OpReturnOut /\ map content (s_ins (out_script o)) = [(x6a, None); (Zb (if blen b <=? 75 then blen b else 76), Some b)] /\
    Forall data_str (s_ins (out_script o)).
Proof.
  unfold data_output_create. split.
  - destruct (pyb_len d >? 80) eqn:E; [discriminate|]. intros H. apply bind_ok in H. destruct H as [s [S H]]. injection H as <-.
    destruct d as [b|b]; [|unfold op_return_create, sub_create in S; cbn in S; discriminate].
    exists b. split; [reflexivity|]. unfold pyb_len in E. cbn [pyb_bytes] in E.
    assert (L : 1 <= blen b) by (apply (proj2 (op_return_total b)); eauto).
    split; [unfold blen in *; lia|]. cbn [out_class_of out_amount out_script]. split; [reflexivity|]. split; [reflexivity|].
    unfold op_return_create in S. apply sub_create_inv in S. destruct S as [C F]. split; [exact C|].
    remember (s_ins s) as l eqn:EL. clear EL C. inversion F as [|x y ? l' H1 F2]; subst. inversion F2 as [|x' y' ? l'' H2 F3]; subst. inversion F3; subst.
    unfold to_instruction in H1, H2. apply bind_ok in H2. destruct H2 as [o [O H2]]. apply new_instr_ok in H1, H2. destruct H1 as [-> _]. destruct H2 as [-> _].
    split; [|constructor; [exact I | constructor; [exact I | constructor]]].
    apply op_push_for_ok in O. replace (Zb (if blen b <=? 75 then blen b else 76)) with o; [reflexivity|]. apply bZ_inj. unfold blen in *.
    rewrite bZ_Zb by (destruct (Z.of_nat (List.length b) <=? 75) eqn:E5; lia). destruct (Z.of_nat (List.length b) <=? 75) eqn:E5; lia.
  - intros (b & -> & L & C & A & K & M & F). unfold pyb_len. cbn [pyb_bytes]. replace (Z.of_nat (List.length b) >? 80) with false by (unfold blen in L; lia).
    destruct (proj1 (op_return_total b)) as [s S]; [lia|]. rewrite S. cbn [bind]. f_equal. destruct o as [oc oa [sc ins]].
    cbn [out_class_of out_amount out_script s_class s_ins] in *. subst. f_equal.
    assert (X : s_class s = Some OpReturnOut /\ map content (s_ins s) = [(x6a, None); (Zb (if blen b <=? 75 then blen b else 76), Some b)] /\ Forall data_str (s_ins s)).
    { unfold op_return_create in S. apply sub_create_inv in S. destruct S as [C F']. split; [exact C|].
      remember (s_ins s) as l eqn:EL. clear EL C. inversion F' as [|x y ? l' H1 F2]; subst. inversion F2 as [|x' y' ? l'' H2 F3]; subst. inversion F3; subst.
      unfold to_instruction in H1, H2. apply bind_ok in H2. destruct H2 as [o [O H2]]. apply new_instr_ok in H1, H2. destruct H1 as [-> _]. destruct H2 as [-> _].
      split; [|constructor; [exact I | constructor; [exact I | constructor]]].
      apply op_push_for_ok in O. replace (Zb (if blen b <=? 75 then blen b else 76)) with o; [reflexivity|]. apply bZ_inj. unfold blen in *.
      rewrite bZ_Zb by (destruct (Z.of_nat (List.length b) <=? 75) eqn:E5; lia). destruct (Z.of_nat (List.length b) <=? 75) eqn:E5; lia. }
    destruct X as [X1 [X2 X3]]. destruct s as [sc' ins']. cbn [s_class s_ins] in *. subst sc'. f_equal.
    rewrite <- X2 in M. clear - M F X3. revert ins' M X3. induction ins as [|i l IH]; intros [|i' l'] M X3; try discriminate; [reflexivity|].
    cbn [map] in M. injection M as M1 M2 M3. inversion F; inversion X3; subst. f_equal; [|apply IH; assumption].
    rewrite <- (str_content i), <- (str_content i') by assumption. unfold content. rewrite M1, M2. reflexivity.
Qed.
Lemma data_output_too_much d : 80 < pyb_len d -> data_output_create d = Err E_Out_TooMuchData.
Proof. intros H. unfold data_output_create. replace (pyb_len d >? 80) with true by lia. reflexivity. Qed.
Lemma data_output_others d : pyb_len d <= 80 -> (exists b, d = BA b) \/ d = Str [] ->
  data_output_create d = Err (match d with BA _ => E_TypeError | Str _ => E_Op_InvalidConstPushLength end).
Proof.
  intros L [[b ->]| ->]; unfold data_output_create; [|reflexivity]. replace (pyb_len (BA b) >? 80) with false by lia. reflexivity.
Qed.
Lemma data_output_unwritable d o : data_output_create d = Ok o -> 76 <= pyb_len d -> output_to_bytes o = Err E_TypeError.
Proof.
  intros H L. apply data_output_ok in H. destruct H as (b & -> & LB & _ & _ & _ & M & F). unfold pyb_len in L. cbn [pyb_bytes] in L.
  fold (blen b) in L. replace (blen b <=? 75) with false in M by lia. unfold output_to_bytes, script_to_bytes.
  destruct (s_ins (out_script o)) as [|i [|j [|? ?]]]; try discriminate. cbn [map] in M. injection M as M1 M2 M3 M4.
  unfold content in *. cbn [ins_list_to_bytes].
  assert (E2 : ins_to_bytes j = Err E_TypeError). { apply ins_to_bytes_pushdata. unfold pushdata. rewrite M3. vm_compute. intuition discriminate. }
  rewrite E2. destruct (ins_to_bytes i) eqn:E1; cbn [bind]; [reflexivity|].
  destruct i as [oi di]. cbn [i_op i_data] in *. subst oi. destruct di; [discriminate|]. discriminate E1.
Qed.

(** ** Input.create *)
Lemma input_create_ok id n s q i : input_create id n s q = Ok i <->
  in_tx_id i = id /\ in_index i = n /\ in_seq i = q /\ s_ins (in_script i) = s_ins s /\
  ((shape PayToPubkeyIn (s_ins s) /\ in_class_of i = C_AddressInput /\ s_class (in_script i) = Some PayToPubkeyIn) \/
   (shape PayToScriptIn (s_ins s) /\ in_class_of i = C_ScriptInput /\ s_class (in_script i) = Some PayToScriptIn)).
Proof.
  unfold input_create, script_create. split.
  - intros H. apply bind_ok in H. destruct H as [s' [S H]]. apply bind_ok in S. destruct S as [c [C S]]. injection S as <-. cbn [s_class] in H.
    destruct c as [[]|]; try discriminate; injection H as <-; cbn; apply classify_some in C; tauto.
  - destruct i as [ic ii ix [sc ins] iq]. cbn [in_tx_id in_index in_seq in_script in_class_of s_ins s_class].
    intros (-> & -> & -> & -> & [[S [-> ->]]|[S [-> ->]]]); apply classify_some in S; rewrite S; reflexivity.
Qed.
Lemma input_create_other id n s q : ~ shape PayToPubkeyIn (s_ins s) -> ~ shape PayToScriptIn (s_ins s) -> classifiable s ->
  input_create id n s q = Err E_NameError.
Proof.
  intros A B C. unfold input_create, script_create. destruct (classify (s_ins s)) as [c|e] eqn:E; cbn [bind s_class].
  - destruct c as [[]|]; try reflexivity; apply classify_some in E; contradiction.
  - exfalso. apply C. apply classify_err in E. apply E.
Qed.
Lemma input_create_breaks id n s q : ~ classifiable s -> input_create id n s q = Err E_AttributeError.
Proof.
  intros C. unfold input_create, script_create. destruct (classify (s_ins s)) as [c|e] eqn:E; cbn [bind].
  - exfalso. apply C. intros B. assert (X : classify (s_ins s) = Err E_AttributeError) by (apply classify_err; auto). congruence.
  - apply classify_err in E. destruct E as [-> _]. reflexivity.
Qed.
Lemma created_cannot_sign id n s q i k b : input_create id n s q = Ok i -> address_can_sign i [k] <> Ok b.
Proof.
  intros H. apply input_create_ok in H. destruct H as (_ & _ & _ & _ & C). unfold address_can_sign.
  intros E. apply bind_ok in E. destruct E as [ka [_ E]]. destruct C as [[_ [_ C]]|[_ [_ C]]]; rewrite C in E; discriminate.
Qed.

(** ** script inputs *)
Definition sig_of (sg : signer) (p : bytes) (st : Z) (n : nat) (k : privkey) : pyb := Str (sg n (k_secret k) p ++ [Zb st]).
Lemma signatures_ok sg p st keys : forall n l, signatures sg n keys p st = Ok l <->
  (keys = [] \/ 0 <= st <= 255) /\ List.length l = List.length keys /\
  forall j k, nth_error keys j = Some k -> nth_error l j = Some (sig_of sg p st (n + j) k).
Proof.
  induction keys as [|k keys IH]; intros n l; cbn [signatures].
  - split.
    + intros [= <-]. split; [left; reflexivity|]. split; [reflexivity|]. intros [|j] k; discriminate.
    + intros [_ [L _]]. destruct l; [reflexivity | discriminate].
  - unfold py_chr. destruct ((0 <=? st) && (st <? 256)) eqn:R; cbn [bind].
    + split.
      * intros H. apply bind_ok in H. destruct H as [t [T H]]. injection H as <-. apply IH in T. destruct T as [_ [L T]].
        split; [right; lia|]. split; [cbn [List.length]; lia|]. intros [|j] k'; cbn [nth_error].
        -- intros [= <-]. rewrite Nat.add_0_r. reflexivity.
        -- intros H. rewrite (T _ _ H). do 2 f_equal. lia.
      * intros [_ [L T]]. destruct l as [|x l]; [discriminate|].
        assert (E : signatures sg (S n) keys p st = Ok l).
        { apply IH. split; [right; lia|]. split; [cbn [List.length] in L; lia|]. intros j k' H. specialize (T (S j) k' H). cbn [nth_error] in T. rewrite T. do 2 f_equal. lia. }
        rewrite E. cbn [bind]. specialize (T O k eq_refl). cbn [nth_error] in T. injection T as ->. unfold sig_of. rewrite Nat.add_0_r. reflexivity.
    + split; [discriminate|]. intros [[X|X] _]; [discriminate | lia].
Qed.
Lemma script_sign_ok sg i keys p st i' : in_class_of i = C_ScriptInput \/ in_class_of i = C_MultisigInput -> keys <> [] ->
  input_sign sg i keys p st = Ok i' ->
  exists rb sigs, script_to_bytes (in_script i) = Ok rb /\ 0 <= st <= 255 /\ List.length sigs = List.length keys /\
    (forall j k, nth_error keys j = Some k -> nth_error sigs j = Some (Str (sg j (k_secret k) p ++ [Zb st]))) /\
    s_class (in_script i') = Some PayToScriptIn /\ shape PayToScriptIn (s_ins (in_script i')) /\
    get_signatures (in_script i') = map Some sigs /\ get_script (in_script i') = script_from_bytes rb.
Proof.
  intros C N. unfold input_sign. intros H.
  assert (H' : (let! sigs := signatures sg 0 keys p st in let! s := p2sh_in_create (in_script i) sigs in Ok (input_replace_script i s)) = Ok i').
  { destruct C as [C|C]; rewrite C in H; exact H. }
  clear H C. apply bind_ok in H'. destruct H' as [sigs [S H]]. apply bind_ok in H. destruct H as [s [P H]]. injection H as <-.
  apply signatures_ok in S. destruct S as [R [L T]]. destruct (p2sh_in_ok _ _ _ P) as [rb [B [SH [SC [G1 G2]]]]].
  { intros ->. destruct keys; [contradiction|discriminate]. }
  exists rb, sigs. cbn [input_replace_script in_script]. repeat split; try assumption; destruct R as [R|R]; try contradiction; lia.
Qed.

(** ** checking that concrete objects fit *)
Definition wfb (i : instr) : bool :=
  (match i_data i with
   | None => negb ((1 <=? bZ (i_op i)) && (bZ (i_op i) <=? 78))
   | Some d => (1 <=? bZ (i_op i)) && (bZ (i_op i) <=? 75) && (pyb_len d =? bZ (i_op i))
   end).
Lemma wfb_ok i : wfb i = true -> well_formed i /\ ~ pushdata (i_op i).
Proof.
  unfold wfb, well_formed, push_length, pushes, pushdata. destruct (i_data i) as [d|]; intros H; split; lia.
Qed.
Definition writableb (s : script) : bool :=
  forallb wfb (s_ins s) && match script_to_bytes s with Ok b => blen b <? 2 ^ 64 | _ => false end.
Lemma writableb_ok s : writableb s = true -> writable s.
Proof.
  unfold writableb. rewrite andb_true_iff, forallb_forall. intros [F B].
  assert (W : Forall well_formed (s_ins s)) by (apply Forall_forall; intros i I; apply wfb_ok, F, I).
  assert (N : Forall (fun i => ~ pushdata (i_op i)) (s_ins s)) by (apply Forall_forall; intros i I; apply wfb_ok, F, I).
  split; [exact W|]. split; [exact N|]. intros w WS. destruct (script_to_bytes s) as [b|] eqn:E; [|discriminate].
  pose proof (to_bytes_inv _ _ W E) as [_ WS']. replace w with b; [unfold u64; pose proof (blen_nonneg b); lia|].
  clear - WS WS' N. revert b WS' w WS N. generalize (s_ins s). intros l. induction l as [|i l IH]; cbn [map]; intros sb W v' W' N.
  - inversion W; inversion W'; reflexivity.
  - inversion W as [|? w ? r W1 W2]; inversion W' as [|? w' ? r' W1' W2']; subst. inversion N as [|? ? N1 N2]; subst.
    rewrite (IH r W2 r' W2' N2). f_equal. unfold pushdata in N1. destruct i as [o d]. unfold content in *. cbn [i_op i_data] in *.
    inversion W1; inversion W1'; subst; unfold length_width in *; try congruence; try lia.
Qed.
Definition u32b (z : Z) : bool := (0 <=? z) && (z <? 2 ^ 32).
Definition u64b (z : Z) : bool := (0 <=? z) && (z <? 2 ^ 64).
Definition input_fitsb (i : input) : bool :=
  (List.length (in_tx_id i) =? 64)%nat && is_ok (decode_hex (in_tx_id i)) && u32b (in_index i) && u32b (in_seq i) && writableb (in_script i).
Lemma input_fitsb_ok i : input_fitsb i = true -> input_fits i.
Proof.
  unfold input_fitsb, input_fits. rewrite !andb_true_iff. intros [[[[A B] C] D] E]. unfold u32b, u32 in *.
  split; [lia|]. split; [|split; [lia|split; [lia|apply writableb_ok, E]]].
  destruct (decode_hex (in_tx_id i)) as [d|] eqn:H; [|discriminate]. apply decode_hex_iff in H. eapply hex_text_hex; exact H.
Qed.
Definition output_fitsb (o : output) : bool := u64b (out_amount o) && writableb (out_script o).
Lemma output_fitsb_ok o : output_fitsb o = true -> output_fits o.
Proof. unfold output_fitsb, output_fits, u64b, u64. rewrite !andb_true_iff. intros [A B]. split; [lia | apply writableb_ok, B]. Qed.
Definition tx_fitsb (t : tx) : bool :=
  u32b (tx_version t) && u32b (tx_lock_time t) && negb (blen (tx_inputs t) =? 0) && u64b (blen (tx_inputs t)) && forallb input_fitsb (tx_inputs t) &&
  negb (blen (tx_outputs t) =? 0) && u64b (blen (tx_outputs t)) && forallb output_fitsb (tx_outputs t).
Lemma tx_fitsb_ok t : tx_fitsb t = true -> tx_fits t.
Proof.
  unfold tx_fitsb, tx_fits. rewrite !andb_true_iff, !forallb_forall. intros [[[[[[[A B] C] D] E] F] G] H]. unfold u32b, u32, u64b, u64 in *.
  split; [lia|]. split; [lia|]. split; [intros X; rewrite X in C; discriminate|]. split; [lia|].
  split; [apply Forall_forall; intros i I; apply input_fitsb_ok, E, I|]. split; [intros X; rewrite X in F; discriminate|]. split; [lia|].
  apply Forall_forall; intros i I; apply output_fitsb_ok, H, I.
Qed.
Definition classifiableb (s : script) : bool := is_ok (classify (s_ins s)).
Lemma classifiableb_ok s : classifiableb s = true -> classifiable s.
Proof. unfold classifiableb, classifiable. intros H B. assert (X : classify (s_ins s) = Err E_AttributeError) by (apply classify_err; auto). rewrite X in H. discriminate. Qed.
Lemma tx_classifiableb_ok t : forallb (fun i => classifiableb (in_script i)) (tx_inputs t) && forallb (fun o => classifiableb (out_script o)) (tx_outputs t) = true -> tx_classifiable t.
Proof.
  rewrite andb_true_iff, !forallb_forall. intros [A B]. split; apply Forall_forall; intros x I; apply classifiableb_ok; [apply A, I | apply B, I].
Qed.

(** ** parse then print *)
Lemma parsed_well_formed s w : sized_script compact_size s w -> parsed_script s -> Forall well_formed (s_ins s).
Proof. intros (lb & sb & _ & W & _) P. eapply script_from_bytes_wf. apply script_from_bytes_iff. split; [exact W | exact P]. Qed.
Definition no_pushdata (s : script) : Prop := Forall (fun x => ~ pushdata (i_op x)) (s_ins s).
Lemma tx_parse_print t w rest : tx_wire compact_size t w -> tx_from_bytes (w ++ rest) = Ok t ->
  Forall (fun i => no_pushdata (in_script i)) (tx_inputs t) -> Forall (fun o => no_pushdata (out_script o)) (tx_outputs t) ->
  tx_to_bytes t = Ok w.
Proof.
  intros W P NI NO. apply tx_from_bytes_ok in P. destruct P as [w' [r' [_ [_ (FI & FO & EI & _ & EO & _)]]]].
  apply (tx_write t w); [|exact W]. eapply writable_fits; try eassumption.
  - destruct W as (vb & nb & iw & mb & ow & lb & _ & _ & E & _). clear - E FI. induction E as [|i v l r Ri E IH]; [constructor|].
    inversion FI as [|? ? [_ [_ P]] F]; subst. constructor; [|auto]. destruct Ri as (id & ib & s & qb & _ & _ & _ & S & _). eapply parsed_well_formed; eassumption.
  - destruct W as (vb & nb & iw & mb & ow & lb & _ & _ & _ & _ & E & _). clear - E FO. induction E as [|i v l r Ri E IH]; [constructor|].
    inversion FO as [|? ? [_ P] F]; subst. constructor; [|auto]. destruct Ri as (ab & s & _ & S & _). eapply parsed_well_formed; eassumption.
Qed.
Lemma sigtype_only_suffix t k st st' m m' : tx_preimage t k st = Ok m -> tx_preimage t k st' = Ok m' ->
  exists w, m = w ++ encode_int st false (Some 4%nat) /\ m' = w ++ encode_int st' false (Some 4%nat).
Proof.
  rewrite !preimage_eq. intros H H'. apply bind_ok in H. destruct H as [s [S H]]. rewrite S in H'. cbn [bind] in H'.
  apply bind_ok in H. destruct H as [p [P H]]. rewrite P in H'. cbn [bind] in H'. injection H as <-. injection H' as <-. eauto.
Qed.
Lemma message_all_outputs t t' k k' st m : tx_fits t -> tx_fits t' -> u32 st -> (k < List.length (tx_inputs t))%nat -> (k' < List.length (tx_inputs t'))%nat ->
  signing_message t k st m -> signing_message t' k' st m ->
  Forall2 same_output (tx_outputs t) (tx_outputs t') /\ List.length (tx_inputs t) = List.length (tx_inputs t') /\
  Forall2 (fun a b => in_seq a = in_seq b) (tx_inputs t) (tx_inputs t').
Proof.
  intros F F' U K K' M M'. apply nth_error_Some in K, K'.
  destruct (nth_error (tx_inputs t) k) as [i|] eqn:E; [|contradiction]. destruct (nth_error (tx_inputs t') k') as [i'|] eqn:E'; [|contradiction].
  destruct (message_commits t t' k k' st st m i i' F F' U U E E' M M') as (_ & _ & _ & O & I & _). split; [exact O|]. split; [eapply F2_length; exact I|].
  clear - I. induction I as [|a b l l' H I IH]; constructor; [apply H | exact IH].
Qed.

(** ** hexadecimal forms of inputs and outputs *)
Lemma hex_write (r : res bytes) (W : bytes -> Prop) h : (forall w, r = Ok w <-> W w) ->
  ((let! b := r in Ok (encode_hex b)) = Ok h <-> exists w, W w /\ hex_text h w /\ map lower h = h).
Proof.
  intros E. split.
  - intros H. apply bind_ok in H. destruct H as (b & R & H). injection H as <-. exists b. split; [apply E, R|].
    assert (X : hex_text (encode_hex b) b) by (apply decode_hex_iff, decode_encode_hex). split; [exact X|].
    symmetry. exact (lower_hex_encode _ _ X).
  - intros (w & R & X & L). apply E in R. rewrite R. cbn [bind]. f_equal. symmetry. exact (hex_text_encode _ _ X L).
Qed.
Lemma input_hex_write i h : input_fits i ->
  (input_to_hex i = Ok h <-> exists w, input_wire compact_size i w /\ hex_text h w /\ map lower h = h).
Proof. intros F. apply hex_write. intros w. apply input_write, F. Qed.
Lemma output_hex_write o h : output_fits o ->
  (output_to_hex o = Ok h <-> exists w, output_wire compact_size o w /\ hex_text h w /\ map lower h = h).
Proof. intros F. apply hex_write. intros w. apply output_write, F. Qed.

Lemma input_from_bytes_iff cls b i : input_from_bytes cls b = Ok i <-> exists w rest, b = w ++ rest /\ input_wire any_size i w /\
  in_class_of i = cls /\ map lower (in_tx_id i) = in_tx_id i /\ parsed_script (in_script i).
Proof.
  unfold input_from_bytes. split.
  - destruct (input_from_buffer cls b) as [[i'|e] r] eqn:E; cbn [fst]; intros [= <-]. apply input_reader_inv in E.
    destruct E as (w & -> & H). exists w, r. split; [reflexivity|exact H].
  - intros (w & rest & -> & W & <- & L & P). destruct (input_reader_parses i w W L P) as [H _]. rewrite H. reflexivity.
Qed.
Lemma output_from_bytes_iff b o : output_from_bytes b = Ok o <-> exists w rest, b = w ++ rest /\ output_wire any_size o w /\ parsed_output o.
Proof.
  unfold output_from_bytes. split.
  - destruct (output_from_buffer b) as [[i'|e] r] eqn:E; cbn [fst]; intros [= <-]. apply output_reader_inv in E.
    destruct E as (w & -> & H). exists w, r. split; [reflexivity|exact H].
  - intros (w & rest & -> & W & P). destruct (output_reader_parses o w W P) as [H _]. rewrite H. reflexivity.
Qed.
Lemma input_hex_read cls h i : input_from_hex cls h = Ok i <-> exists w rest, hex_text h (w ++ rest) /\ input_wire any_size i w /\
  in_class_of i = cls /\ map lower (in_tx_id i) = in_tx_id i /\ parsed_script (in_script i).
Proof.
  unfold input_from_hex. split.
  - intros H. apply bind_ok in H. destruct H as (b & D & H). apply decode_hex_iff in D. apply input_from_bytes_iff in H.
    destruct H as (w & r & -> & H). exists w, r. auto.
  - intros (w & r & D & H). apply decode_hex_iff in D. rewrite D. cbn [bind]. apply input_from_bytes_iff. exists w, r. auto.
Qed.
Lemma output_hex_read h o : output_from_hex h = Ok o <-> exists w rest, hex_text h (w ++ rest) /\ output_wire any_size o w /\ parsed_output o.
Proof.
  unfold output_from_hex. split.
  - intros H. apply bind_ok in H. destruct H as (b & D & H). apply decode_hex_iff in D. apply output_from_bytes_iff in H.
    destruct H as (w & r & -> & H). exists w, r. auto.
  - intros (w & r & D & H). apply decode_hex_iff in D. rewrite D. cbn [bind]. apply output_from_bytes_iff. exists w, r. auto.
Qed.

(** ** created script and multisig inputs *)
Lemma script_create_fields id n s q : let i := script_input_create id n s q in
  in_class_of i = C_ScriptInput /\ in_tx_id i = id /\ in_index i = n /\ in_seq i = q /\ in_script i = s.
Proof. repeat split. Qed.
Lemma multisig_create_fields id n keys m q i : multisig_input_create id n keys m q = Ok i ->
  in_class_of i = C_MultisigInput /\ in_tx_id i = id /\ in_index i = n /\ in_seq i = q /\ multisig_create keys m = Ok (in_script i).
Proof. unfold multisig_input_create. intros H. apply bind_ok in H. destruct H as (s & E & H). injection H as <-. repeat split. exact E. Qed.
