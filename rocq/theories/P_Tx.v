(** Proofs about transactions. *)
From Coq Require Import String.
From Verif Require Import Base M_Hash M_Codec S_Codec P_Codec M_Keys S_Keys P_Keys M_EC M_Script S_Script P_Script M_Tx S_Tx.
Open Scope Z_scope.

(** ** fields and sizes *)
Lemma field_ok k n w : 0 <= n < 256 ^ Z.of_nat k -> (field k n w <-> encode_int n false (Some k) = w).
Proof.
  intros R. rewrite encode_int_fixed_le by lia. unfold field. split.
  - intros [<- <-]. apply le_bytes_le_val.
  - intros <-. rewrite le_bytes_length, le_val_le_bytes, Z.mod_small by lia. auto.
Qed.
Lemma field_u32 n w : u32 n -> (field 4 n w <-> encode_int n false (Some 4%nat) = w).
Proof. intros H. apply field_ok. exact H. Qed.
Lemma field_u64 n w : u64 n -> (field 8 n w <-> encode_int n false (Some 8%nat) = w).
Proof. intros H. apply field_ok. exact H. Qed.
Lemma field_range k n w : field k n w -> 0 <= n < 256 ^ Z.of_nat k.
Proof. intros [<- <-]. apply le_val_bound. Qed.
Lemma compact_any n l : compact_size n l -> any_size n l.
Proof.
  unfold any_size, field. intros [(H & b & -> & E)|[(H & d & -> & L & E)|[(H & d & -> & L & E)|(H & d & -> & L & E)]]].
  - left. exists b. auto with zarith.
  - right. left. eauto.
  - right. right. left. eauto.
  - right. right. right. eauto.
Qed.
Lemma compact_size_iff n l : u64 n -> (compact_size n l <-> encode_varint n = l).
Proof.
  intros H. split; [|intros <-; apply varint_spec, H].
  intros C. eapply compact_size_unique; [apply varint_spec, H | exact C].
Qed.

(** ** readers *)
Definition parses {A} (m : rd A) (w : bytes) (a : A) : Prop :=
  (forall rest, m (w ++ rest) = (Ok a, rest)) /\
  (forall u v, w = u ++ v -> v <> [] -> exists r n s, m u = (Err (E_InsufficientData r n), s)).
Lemma parses_ret {A} (a : A) : parses (rret a) [] a.
Proof. split; [reflexivity|]. intros u v H N. symmetry in H. apply app_eq_nil in H. destruct H. contradiction. Qed.
Lemma parses_lift {A} (r : res A) a : r = Ok a -> parses (lift r) [] a.
Proof. intros ->. apply (parses_ret a). Qed.
Lemma app_split {A} (w w' u v : list A) : w ++ w' = u ++ v ->
  (exists x, w = u ++ x /\ x <> []) \/ (exists u', u = w ++ u' /\ w' = u' ++ v).
Proof.
  revert u. induction w as [|a w IH]; intros u H.
  - right. exists u. auto.
  - destruct u as [|b u].
    + left. exists (a :: w). split; [reflexivity | discriminate].
    + cbn [app] in H. injection H as -> H. destruct (IH u H) as [[x [-> N]]|[u' [-> ->]]].
      * left. exists x. auto.
      * right. exists u'. auto.
Qed.
Lemma parses_bind {A B} (m : rd A) (f : A -> rd B) w w' a b :
  parses m w a -> parses (f a) w' b -> parses (rbind m f) (w ++ w') b.
Proof.
  intros [M1 M2] [F1 F2]. split.
  - intros rest. rewrite <- app_assoc, (rbind_ok _ _ _ _ _ (M1 _)). apply F1.
  - intros u v E N. destruct (app_split _ _ _ _ E) as [[x [E' N']]|[u' [-> E']]].
    + destruct (M2 u x E' N') as [r [n [s H]]]. exists r, n, s. apply (rbind_err _ _ _ _ _ H).
    + destruct (F2 u' v E' N) as [r [n [s H]]]. exists r, n, s. rewrite (rbind_ok _ _ _ _ _ (M1 _)). exact H.
Qed.
Lemma parses_bind_nil {A B} (m : rd A) (f : A -> rd B) w a b :
  parses m w a -> parses (f a) [] b -> parses (rbind m f) w b.
Proof. intros H H'. rewrite <- (app_nil_r w). eapply parses_bind; eassumption. Qed.
Lemma parses_read n d : blen d = n -> parses (buf_read n) d d.
Proof.
  intros <-. split; [intros rest; apply buf_read_app|].
  intros u v -> N. exists (blen u), (blen (u ++ v)), u. apply buf_read_short. rewrite blen_app.
  destruct v; [contradiction|]. rewrite blen_cons. pose proof (blen_nonneg v). lia.
Qed.
Lemma parses_ext {A} (m : rd A) w a w' : parses m w a -> w = w' -> parses m w' a.
Proof. intros H <-. exact H. Qed.

Lemma parses_varint n l : any_size n l -> parses read_varint l n.
Proof.
  assert (W : forall b k, (b = xfd /\ k = 2%nat) \/ (b = xfe /\ k = 4%nat) \/ (b = xff /\ k = 8%nat) -> forall d, List.length d = k -> parses read_varint (b :: d) (le_val d)).
  { intros b k Hk d L. split; [intros rest; apply (read_varint_wide k); assumption|].
    intros [|c u] v E N.
    - exists 0, 1, []. reflexivity.
    - cbn [app] in E. injection E as <- E. exists (blen u), (Z.of_nat k), u.
      assert (S : blen u < Z.of_nat k).
      { subst k. rewrite E. unfold blen. rewrite app_length. destruct v; [contradiction|]. cbn [List.length]. lia. }
      unfold read_varint.
      rewrite (rbind_ok _ _ (b :: u) [b] u) by (apply (buf_read_app_n 1 [b]); reflexivity).
      destruct Hk as [[-> ->]|[[-> ->]|[-> ->]]].
      + change (decode_int [xfd] true) with 253. cbn [Z.ltb Z.eqb Z.compare Pos.compare Pos.compare_cont Pos.eqb]. apply rbind_err, buf_read_short, S.
      + change (decode_int [xfe] true) with 254. cbn [Z.ltb Z.eqb Z.compare Pos.compare Pos.compare_cont Pos.eqb]. apply rbind_err, buf_read_short, S.
      + change (decode_int [xff] true) with 255. cbn [Z.ltb Z.eqb Z.compare Pos.compare Pos.compare_cont Pos.eqb]. apply rbind_err, buf_read_short, S. }
  unfold any_size, field. intros [(b & -> & <- & L)|[(d & -> & L & <-)|[(d & -> & L & <-)|(d & -> & L & <-)]]].
  - split; [intros rest; apply read_varint_1, L|]. intros [|c u] v E N; [exists 0, 1, []; reflexivity|].
    cbn [app] in E. injection E as <- E. symmetry in E. apply app_eq_nil in E. destruct E; contradiction.
  - apply (W _ 2%nat); auto.
  - apply (W _ 4%nat); auto.
  - apply (W _ 8%nat); auto.
Qed.
Lemma read_varint_inv s n r : read_varint s = (Ok n, r) -> exists l, s = l ++ r /\ any_size n l.
Proof.
  unfold read_varint. intros H. apply rbind_inv in H. destruct H as [d [s1 [H1 H2]]].
  apply buf_read_ok in H1; [|lia]. destruct H1 as [-> L].
  destruct d as [|b [|? ?]]; [discriminate L| |unfold blen in L; cbn [List.length] in L; lia].
  rewrite decode_int_be in H2. replace (be_val [b]) with (bZ b) in H2 by (unfold be_val; cbn; lia).
  assert (W : forall k, rbind (buf_read (Z.of_nat k)) (fun d => rret (decode_int d false)) s1 = (Ok n, r) ->
     exists d, s1 = d ++ r /\ field k n d).
  { intros k K. apply rbind_inv in K. destruct K as [d [s2 [K1 K2]]]. apply buf_read_ok in K1; [|lia]. destruct K1 as [-> K1].
    unfold rret in K2. injection K2 as <- <-. rewrite decode_int_le. exists d. unfold field, blen in *. repeat split; lia. }
  destruct (bZ b <? 253) eqn:E1.
  - unfold rret in H2. injection H2 as <- <-. exists [b]. split; [reflexivity|]. left. exists b. repeat split. lia.
  - destruct (bZ b =? 253) eqn:E2; [|destruct (bZ b =? 254) eqn:E3].
    + destruct (W 2%nat H2) as [d [-> F]]. exists (b :: d). split; [reflexivity|]. right. left. exists d. split; [|exact F].
      f_equal. apply bZ_inj. change (bZ xfd) with 253. lia.
    + destruct (W 4%nat H2) as [d [-> F]]. exists (b :: d). split; [reflexivity|]. right. right. left. exists d. split; [|exact F].
      f_equal. apply bZ_inj. change (bZ xfe) with 254. lia.
    + destruct (W 8%nat H2) as [d [-> F]]. exists (b :: d). split; [reflexivity|]. right. right. right. exists d. split; [|exact F].
      f_equal. apply bZ_inj. change (bZ xff) with 255. pose proof (bZ_range b). lia.
Qed.

(** ** scripts *)
Lemma classify_read s : classify (s_ins s) = Ok (s_class s) <-> read_class s /\ classifiable s.
Proof.
  unfold read_class, classifiable. split.
  - intros H. split.
    + intros c. rewrite <- classify_some, H. split; [congruence | intros [= <-]; reflexivity].
    + intros B. assert (X : classify (s_ins s) = Err E_AttributeError) by (apply classify_err; auto). congruence.
  - intros [R N]. destruct (s_class s) as [c|] eqn:C.
    + apply classify_some, R, eq_refl.
    + apply classify_none. split; [|exact N]. intros [c S]. apply R in S. discriminate.
Qed.
Lemma script_from_bytes_iff b s : script_from_bytes b = Ok s <-> wire_script (map content (s_ins s)) b /\ parsed_script s.
Proof. rewrite script_from_bytes_ok, classify_read. unfold parsed_script. tauto. Qed.
Lemma script_create_same s : parsed_script s -> script_create (s_ins s) = Ok s.
Proof. intros [_ H]. apply classify_read in H. unfold script_create. rewrite H. destruct s; reflexivity. Qed.

Lemma lower_hex_encode h d : hex_text h d -> encode_hex d = map lower h.
Proof.
  intros H. apply decode_hex_iff in H. unfold decode_hex in H. pose proof (unhex_spec h) as U.
  destruct (unhex_loop h) as [b|]; [|discriminate]. injection H as ->. apply U.
Qed.
Lemma lower_idem c : lower (lower c) = lower c.
Proof. destruct c; reflexivity. Qed.
Lemma lower_idem_map l : map lower (map lower l) = map lower l.
Proof. rewrite map_map. apply map_ext. exact lower_idem. Qed.
Lemma hex_text_encode h d : hex_text h d -> map lower h = h -> h = encode_hex d.
Proof. intros H E. rewrite (lower_hex_encode h d H). symmetry. exact E. Qed.
Lemma hex_text_length h d : hex_text h d -> List.length h = (2 * List.length d)%nat.
Proof. induction 1; cbn [List.length]; lia. Qed.
Lemma hex_text_hex h d : hex_text h d -> Forall is_hex h.
Proof. induction 1; [constructor|]. constructor; [assumption|]. constructor; assumption. Qed.
Lemma hex_text_total h : forall n, List.length h = (2 * n)%nat -> Forall is_hex h -> exists d, hex_text h d.
Proof.
  intros n L F. pose proof (unhex_spec h) as U. destruct (unhex_loop h) as [b|] eqn:E.
  - exists b. apply decode_hex_iff. unfold decode_hex. rewrite E. reflexivity.
  - exfalso. apply U. split; [exists n; lia | exact F].
Qed.
Lemma hex_text_fun h d d' : hex_text h d -> hex_text h d' -> d = d'.
Proof. rewrite <- !decode_hex_iff. congruence. Qed.
Lemma hex_text_same_lower h h' d : hex_text h d -> hex_text h' d -> map lower h = map lower h'.
Proof. intros H H'. rewrite <- (lower_hex_encode _ _ H), <- (lower_hex_encode _ _ H'). reflexivity. Qed.

(** ** reading *)
Definition script_reader : rd script :=
  do! script_len := read_varint in do! script_bytes := buf_read script_len in lift (script_from_bytes script_bytes).
Lemma any_size_nonneg n l : any_size n l -> 0 <= n.
Proof.
  unfold any_size, field. intros [(b & _ & <- & _)|[(d & _ & _ & <-)|[(d & _ & _ & <-)|(d & _ & _ & <-)]]];
  [apply bZ_range | apply le_val_bound..].
Qed.
Lemma lift_inv {A} (r : res A) s a s' : lift r s = (Ok a, s') -> r = Ok a /\ s' = s.
Proof. unfold lift. intros [= -> ->]. auto. Qed.

Lemma input_reader_inv cls s i r : input_from_buffer cls s = (Ok i, r) ->
  exists w, s = w ++ r /\ input_wire any_size i w /\ in_class_of i = cls /\ map lower (in_tx_id i) = in_tx_id i /\ parsed_script (in_script i).
Proof.
  unfold input_from_buffer. intros H.
  apply rbind_inv in H. destruct H as [id [s1 [H1 H]]]. apply buf_read_ok in H1; [|lia]. destruct H1 as [-> L1].
  apply rbind_inv in H. destruct H as [ib [s2 [H1 H]]]. apply buf_read_ok in H1; [|lia]. destruct H1 as [-> L2].
  apply rbind_inv in H. destruct H as [n [s3 [H1 H]]]. apply read_varint_inv in H1. destruct H1 as [lb [-> L3]].
  apply rbind_inv in H. destruct H as [sb [s4 [H1 H]]]. apply buf_read_ok in H1; [|eapply any_size_nonneg; eassumption]. destruct H1 as [-> L4].
  apply rbind_inv in H. destruct H as [sc [s5 [H1 H]]]. apply lift_inv in H1. destruct H1 as [P ->].
  apply rbind_inv in H. destruct H as [qb [s6 [H1 H]]]. apply buf_read_ok in H1; [|lia]. destruct H1 as [-> L5].
  unfold rret in H. injection H as <- <-. apply script_from_bytes_iff in P. destruct P as [W P].
  exists (id ++ ib ++ (lb ++ sb) ++ qb). split; [rewrite <- !app_assoc; reflexivity|]. cbn [in_class_of in_tx_id in_script].
  split; [|split; [reflexivity|split; [|exact P]]].
  - exists id, ib, (lb ++ sb), qb. cbn [in_tx_id in_index in_script in_seq]. unfold field, blen in *. rewrite !decode_int_le.
    split; [lia|]. split; [apply encode_hex_text|]. split; [split; [lia|reflexivity]|]. split; [|split; [split; [lia|reflexivity]|reflexivity]].
    exists lb, sb. unfold blen. subst n. auto.
  - rewrite <- (lower_hex_encode _ _ (encode_hex_text (rev id))). reflexivity.
Qed.
Lemma sized_parses s w (H : sized_script any_size s w) : parsed_script s -> forall B (f : script -> rd B) w' b,
  parses (f s) w' b ->
  parses (do! script_len := read_varint in do! script_bytes := buf_read script_len in do! sc := lift (script_from_bytes script_bytes) in f sc) (w ++ w') b.
Proof.
  intros P B f w' b F. destruct H as [lb [sb [S [W ->]]]]. rewrite <- app_assoc.
  eapply parses_bind; [apply parses_varint, S|]. eapply parses_bind; [apply parses_read; reflexivity|].
  apply (parses_bind _ _ [] w' s); [|exact F]. apply parses_lift, script_from_bytes_iff. auto.
Qed.
Lemma input_reader_parses i w : input_wire any_size i w -> map lower (in_tx_id i) = in_tx_id i -> parsed_script (in_script i) ->
  parses (input_from_buffer (in_class_of i)) w i.
Proof.
  intros (id & ib & sb & qb & L & X & [LI VI] & S & [LQ VQ] & ->) Low P. unfold input_from_buffer.
  eapply parses_bind; [apply parses_read; unfold blen; lia|].
  eapply parses_bind; [apply parses_read; unfold blen; lia|].
  eapply sized_parses; [exact S | exact P |].
  eapply parses_bind_nil; [apply parses_read; unfold blen; lia|].
  rewrite !decode_int_le, VI, VQ, <- (hex_text_encode _ _ X Low). destruct i; apply parses_ret.
Qed.
Lemma output_create_parsed a s o : parsed_script s -> (output_create a s = Ok o <->
  out_amount o = a /\ out_script o = s /\ output_class_by_template o).
Proof.
  intros P. unfold output_create. rewrite (script_create_same s P). cbn [bind]. destruct P as [_ [R C]].
  unfold output_class_by_template. split.
  - intros [= <-]. cbn [out_amount out_script out_class_of]. split; [reflexivity|]. split; [reflexivity|]. split; [exact R|].
    unfold read_class in R. rewrite <- !R. destruct (s_class s) as [[]|]; repeat split; congruence.
  - destruct o as [oc oa os]. cbn [out_amount out_script out_class_of]. intros (-> & -> & _ & A & B & D & N).
    f_equal. f_equal. unfold read_class in R. rewrite <- R in A, B, D. destruct (s_class s) as [[]|] eqn:K; symmetry;
    try (apply A; reflexivity); try (apply B; reflexivity); try (apply D; reflexivity);
    (destruct oc; [reflexivity|
      (pose proof (proj1 A eq_refl); discriminate) || congruence|
      (pose proof (proj1 B eq_refl); discriminate) || congruence|
      congruence|
      (pose proof (proj1 D eq_refl); discriminate) || congruence]).
Qed.
Lemma output_reader_inv s o r : output_from_buffer s = (Ok o, r) ->
  exists w, s = w ++ r /\ output_wire any_size o w /\ parsed_output o.
Proof.
  unfold output_from_buffer. intros H.
  apply rbind_inv in H. destruct H as [ab [s1 [H1 H]]]. apply buf_read_ok in H1; [|lia]. destruct H1 as [-> L1].
  apply rbind_inv in H. destruct H as [n [s3 [H1 H]]]. apply read_varint_inv in H1. destruct H1 as [lb [-> L3]].
  apply rbind_inv in H. destruct H as [sb [s4 [H1 H]]]. apply buf_read_ok in H1; [|eapply any_size_nonneg; eassumption]. destruct H1 as [-> L4].
  apply rbind_inv in H. destruct H as [sc [s5 [H1 H]]]. apply lift_inv in H1. destruct H1 as [P ->].
  apply lift_inv in H. destruct H as [H ->]. apply script_from_bytes_iff in P. destruct P as [W P].
  apply (output_create_parsed _ _ _ P) in H. destruct H as [E1 [E2 T]].
  exists (ab ++ lb ++ sb). split; [rewrite <- !app_assoc; reflexivity|]. split; [|unfold parsed_output; rewrite E2; auto].
  exists ab, (lb ++ sb). rewrite E1, E2, decode_int_le. unfold field, blen in *. split; [split; [lia|reflexivity]|].
  split; [|reflexivity]. exists lb, sb. subst n. unfold blen. auto.
Qed.
Lemma output_reader_parses o w : output_wire any_size o w -> parsed_output o -> parses output_from_buffer w o.
Proof.
  intros (ab & sb & [L V] & S & ->) [T P]. unfold output_from_buffer.
  eapply parses_bind; [apply parses_read; unfold blen; lia|].
  rewrite <- (app_nil_r sb). eapply sized_parses; [exact S | exact P |].
  apply parses_lift, (output_create_parsed _ _ _ P). rewrite decode_int_le. auto.
Qed.
Lemma read_times_inv {A} (f : rd A) (R : A -> bytes -> Prop) :
  (forall s a r, f s = (Ok a, r) -> exists w, s = w ++ r /\ R a w) ->
  forall n s l r, read_times f n s = (Ok l, r) -> exists w, s = w ++ r /\ each R l w /\ List.length l = n.
Proof.
  intros I. induction n as [|n IH]; intros s l r; cbn [read_times].
  - unfold rret. intros [= <- <-]. exists []. repeat split. constructor.
  - intros H. apply rbind_inv in H. destruct H as [a [s1 [H1 H]]]. apply rbind_inv in H. destruct H as [l' [s2 [H2 H]]].
    unfold rret in H. injection H as <- <-. destruct (I _ _ _ H1) as [w [-> Rw]]. destruct (IH _ _ _ H2) as [w' [-> [E L]]].
    exists (w ++ w'). split; [apply app_assoc|]. split; [constructor; assumption | cbn [List.length]; lia].
Qed.
Lemma read_times_parses {A} (f : rd A) (R : A -> bytes -> Prop) l w :
  each R l w -> (forall a v, In a l -> R a v -> parses f v a) -> parses (read_times f (List.length l)) w l.
Proof.
  induction 1 as [|a w l r Ra E IH]; intros F; cbn [read_times List.length]; [apply parses_ret|].
  eapply parses_bind; [apply F; [left; reflexivity | exact Ra]|].
  eapply parses_bind_nil; [apply IH; intros; apply F; [right; assumption | assumption]|]. apply parses_ret.
Qed.
Lemma each_forall {A} (R : A -> bytes -> Prop) (Q : A -> Prop) l w : each (fun a w => R a w /\ Q a) l w <-> each R l w /\ Forall Q l.
Proof.
  split.
  - induction 1 as [|a w l r [Ra Qa] E [IH1 IH2]]; split; constructor; assumption.
  - intros [E F]. induction E as [|a w l r Ra E IH]; inversion F; constructor; auto.
Qed.
Lemma each_impl {A} (R R' : A -> bytes -> Prop) l w : each R l w -> (forall a w, In a l -> R a w -> R' a w) -> each R' l w.
Proof. induction 1; intros F; constructor; [apply F; [left; reflexivity|assumption] | apply IHeach; intros; apply F; [right; assumption|assumption]]. Qed.

Lemma all_inputs_map l : all_inputs (map O_In l) = Ok l.
Proof. induction l as [|i l IH]; [reflexivity|]. cbn [map all_inputs]. rewrite IH. reflexivity. Qed.
Lemma all_outputs_map l : all_outputs (map O_Out l) = Ok l.
Proof. induction l as [|i l IH]; [reflexivity|]. cbn [map all_outputs]. rewrite IH. reflexivity. Qed.
Lemma blen_map {A B} (f : A -> B) l : blen (map f l) = blen l.
Proof. unfold blen. rewrite map_length. reflexivity. Qed.
Lemma blen_zero {A} (l : list A) : (blen l =? 0) = true <-> l = [].
Proof. destruct l; [split; reflexivity|]. rewrite blen_cons. pose proof (blen_nonneg l). split; [lia | discriminate]. Qed.
Lemma new_tx_typed ins outs lt v t : new_tx (map O_In ins) (map O_Out outs) lt v = Ok t <->
  ins <> [] /\ outs <> [] /\ u32 lt /\ t = Tx ins outs lt v.
Proof.
  unfold new_tx, u32. rewrite !blen_map, all_inputs_map, all_outputs_map. cbn [bind].
  destruct (blen ins =? 0) eqn:E1; [apply blen_zero in E1; split; [discriminate|tauto]|].
  destruct (blen outs =? 0) eqn:E2; [apply blen_zero in E2; split; [discriminate|tauto]|].
  assert (ins <> []) by (intros X; apply blen_zero in X; congruence).
  assert (outs <> []) by (intros X; apply blen_zero in X; congruence).
  change 0xFFFFFFFF with 4294967295. destruct ((0 <=? lt) && (lt <=? 4294967295)) eqn:E; cbn [negb]; split.
  - intros [= <-]. repeat split; auto; lia.
  - intros (_ & _ & _ & ->). reflexivity.
  - discriminate.
  - intros (_ & _ & R & _). lia.
Qed.
Lemma read_range_inv {A} (f : rd A) n s l r : 0 <= n -> read_range f n s = (Ok l, r) ->
  n < 2 ^ 60 /\ read_times f (Z.to_nat n) s = (Ok l, r).
Proof.
  intros N. unfold read_range. destruct (n >? 2 ^ 63 - 1) eqn:E1; [discriminate|]. destruct (n >=? 2 ^ 60) eqn:E2; [discriminate|].
  intros H. split; [lia | exact H].
Qed.
Lemma read_range_eq {A} (f : rd A) n : n < 2 ^ 60 -> read_range f n = read_times f (Z.to_nat n).
Proof.
  intros H. unfold read_range. replace (n >? 2 ^ 63 - 1) with false by lia. replace (n >=? 2 ^ 60) with false by lia. reflexivity.
Qed.

Lemma tx_reader_inv s t r : tx_from_buffer s = (Ok t, r) -> exists w, s = w ++ r /\ tx_wire any_size t w /\ parsed_tx t.
Proof.
  unfold tx_from_buffer. intros H.
  apply rbind_inv in H. destruct H as [vb [s1 [H1 H]]]. apply buf_read_ok in H1; [|lia]. destruct H1 as [-> L1].
  apply rbind_inv in H. destruct H as [n [s2 [H1 H]]]. apply read_varint_inv in H1. destruct H1 as [nb [-> N1]].
  apply rbind_inv in H. destruct H as [ins [s3 [H1 H]]]. apply read_range_inv in H1; [|eapply any_size_nonneg; eassumption]. destruct H1 as [B1 H1].
  apply (read_times_inv _ (fun i w => input_wire any_size i w /\ parsed_input i)) in H1.
  2:{ intros s a r' X. apply input_reader_inv in X. destruct X as [w [-> [W [C [L P]]]]]. exists w. unfold parsed_input. auto. }
  destruct H1 as [iw [-> [E1 M1]]]. apply each_forall in E1. destruct E1 as [E1 F1].
  apply rbind_inv in H. destruct H as [m [s4 [H1 H]]]. apply read_varint_inv in H1. destruct H1 as [mb [-> N2]].
  apply rbind_inv in H. destruct H as [outs [s5 [H1 H]]]. apply read_range_inv in H1; [|eapply any_size_nonneg; eassumption]. destruct H1 as [B2 H1].
  apply (read_times_inv _ (fun i w => output_wire any_size i w /\ parsed_output i)) in H1.
  2:{ intros s a r' X. apply output_reader_inv in X. destruct X as [w [-> [W P]]]. exists w. auto. }
  destruct H1 as [ow [-> [E2 M2]]]. apply each_forall in E2. destruct E2 as [E2 F2].
  apply rbind_inv in H. destruct H as [lb [s6 [H1 H]]]. apply buf_read_ok in H1; [|lia]. destruct H1 as [-> L2].
  apply lift_inv in H. destruct H as [H ->]. apply new_tx_typed in H. destruct H as (NI & NO & R & ->).
  pose proof (any_size_nonneg _ _ N1) as P1. pose proof (any_size_nonneg _ _ N2) as P2.
  exists (vb ++ nb ++ iw ++ mb ++ ow ++ lb). split; [rewrite <- !app_assoc; reflexivity|].
  assert (X1 : blen ins = n) by (unfold blen; lia). assert (X2 : blen outs = m) by (unfold blen; lia).
  rewrite !decode_int_le. split.
  - exists vb, nb, iw, mb, ow, lb. cbn [tx_version tx_inputs tx_outputs tx_lock_time]. rewrite X1, X2. unfold field, blen in *.
    repeat split; try assumption; try lia.
  - unfold parsed_tx. cbn [tx_inputs tx_outputs]. rewrite X1, X2. auto 10.
Qed.
Lemma tx_reader_parses t w : tx_wire any_size t w -> parsed_tx t -> parses tx_from_buffer w t.
Proof.
  intros (vb & nb & iw & mb & ow & lb & [LV VV] & N & EI & M & EO & FL & ->) (FI & FO & NI & BI & NO & BO).
  pose proof (field_range _ _ _ FL) as RL. destruct FL as [LL VL]. unfold tx_from_buffer.
  eapply parses_bind; [apply parses_read; unfold blen; lia|].
  eapply parses_bind; [apply parses_varint, N|]. rewrite (read_range_eq _ _ BI).
  replace (Z.to_nat (blen (tx_inputs t))) with (List.length (tx_inputs t)) by (unfold blen; lia).
  eapply parses_bind.
  { eapply read_times_parses; [exact EI|]. intros a v I W. rewrite Forall_forall in FI. destruct (FI a I) as [C [L P]].
    rewrite <- C. apply input_reader_parses; assumption. }
  eapply parses_bind; [apply parses_varint, M|]. rewrite (read_range_eq _ _ BO).
  replace (Z.to_nat (blen (tx_outputs t))) with (List.length (tx_outputs t)) by (unfold blen; lia).
  eapply parses_bind.
  { eapply read_times_parses; [exact EO|]. intros a v I W. rewrite Forall_forall in FO. apply output_reader_parses; [assumption | apply FO, I]. }
  eapply parses_bind_nil; [apply parses_read; unfold blen; lia|].
  apply parses_lift, new_tx_typed. rewrite !decode_int_le, VV, VL.
  split; [exact NI|]. split; [exact NO|]. split; [exact RL|]. destruct t; reflexivity.
Qed.

(** C40 *)
Lemma tx_from_bytes_ok b t : tx_from_bytes b = Ok t <-> exists w rest, b = w ++ rest /\ tx_wire any_size t w /\ parsed_tx t.
Proof.
  unfold tx_from_bytes. split.
  - destruct (tx_from_buffer b) as [[t'|e] r] eqn:E; cbn [fst]; intros [= <-]. apply tx_reader_inv in E.
    destruct E as [w [-> [W P]]]. eauto.
  - intros [w [rest [-> [W P]]]]. rewrite (proj1 (tx_reader_parses t w W P)). reflexivity.
Qed.
Lemma tx_from_bytes_trailing b t rest : tx_from_bytes b = Ok t -> tx_from_bytes (b ++ rest) = Ok t.
Proof.
  intros H. apply tx_from_bytes_ok in H. destruct H as [w [r [-> [W P]]]]. apply tx_from_bytes_ok.
  exists w, (r ++ rest). rewrite app_assoc. auto.
Qed.
Lemma tx_truncated t w u v : tx_wire any_size t w -> parsed_tx t -> w = u ++ v -> v <> [] ->
  exists r n, tx_from_bytes u = Err (E_InsufficientData r n).
Proof.
  intros W P E N. destruct (proj2 (tx_reader_parses t w W P) u v E N) as [r [n [s H]]].
  exists r, n. unfold tx_from_bytes. rewrite H. reflexivity.
Qed.

(** ** writing *)
Lemma sized_write s : writable s -> exists sb, script_to_bytes s = Ok sb /\ u64 (blen sb) /\
  forall w, sized_script compact_size s w <-> encode_varint (blen sb) ++ sb = w.
Proof.
  intros [W [N U]]. destruct (to_bytes_ok _ W N) as [sb [E WS]]. exists sb. split; [exact E|]. pose proof (U _ WS) as R. split; [exact R|].
  intros w. unfold sized_script. split.
  - intros (lb & sb' & S & W' & ->).
    assert (X : sb' = sb).
    { clear - WS W' N. revert sb' W' N. remember (map content (s_ins s)) as c eqn:C. revert WS C. generalize (s_ins s). intros l WS. revert l.
      induction WS as [|i v l r Wi Wr IH]; intros [|x xs]; cbn [map]; try discriminate; intros C sb' W' N.
      - inversion W'. reflexivity.
      - injection C as C1 C2. inversion W' as [|? v' ? r' Wi' Wr']; subst. inversion N as [|? ? N1 N2]; subst.
        rewrite (IH xs eq_refl r' Wr' N2). f_equal. unfold pushdata, content in *. destruct x as [o d]. cbn [i_op i_data] in *.
        inversion Wi; inversion Wi'; subst; unfold length_width in *; try congruence; try lia. }
    subst sb'. f_equal. apply (compact_size_iff _ _ R), S.
  - intros <-. exists (encode_varint (blen sb)), sb. split; [apply varint_spec, R|]. auto.
Qed.
Lemma input_write i w : input_fits i -> (input_to_bytes i = Ok w <-> input_wire compact_size i w).
Proof.
  intros (L & F & UI & UQ & WR). destruct (sized_write _ WR) as [sb [E [_ SW]]].
  destruct (hex_text_total (in_tx_id i) 32 L F) as [d X].
  pose proof (hex_text_length _ _ X) as LX. unfold input_to_bytes, input_wire.
  rewrite E. cbn [bind]. rewrite (proj2 (decode_hex_iff _ _) X). cbn [bind]. unfold buf_write. cbn [app]. rewrite <- !app_assoc. split.
  - intros [= <-]. exists (rev d), (encode_int (in_index i) false (Some 4%nat)), (encode_varint (blen sb) ++ sb), (encode_int (in_seq i) false (Some 4%nat)).
    rewrite rev_involutive, rev_length. split; [lia|]. split; [exact X|].
    split; [apply (field_u32 _ _ UI); reflexivity|]. split; [apply SW; reflexivity|]. split; [apply (field_u32 _ _ UQ); reflexivity|].
    rewrite <- !app_assoc. reflexivity.
  - intros (id & ib & s & qb & LI & X' & FI & S & FQ & ->).
    rewrite (hex_text_fun _ _ _ X X'), rev_involutive. apply (field_u32 _ _ UI) in FI. apply (field_u32 _ _ UQ) in FQ. apply SW in S.
    subst. rewrite <- !app_assoc. reflexivity.
Qed.
Lemma input_write_total i : input_fits i -> exists w, input_to_bytes i = Ok w.
Proof.
  intros (L & F & UI & UQ & WR). destruct (sized_write _ WR) as [sb [E [_ SW]]].
  destruct (hex_text_total (in_tx_id i) 32 L F) as [d X]. unfold input_to_bytes.
  rewrite E. cbn [bind]. rewrite (proj2 (decode_hex_iff _ _) X). cbn [bind]. eauto.
Qed.
Lemma output_write o w : output_fits o -> (output_to_bytes o = Ok w <-> output_wire compact_size o w).
Proof.
  intros (UA & WR). destruct (sized_write _ WR) as [sb [E [_ SW]]]. unfold output_to_bytes, output_wire.
  rewrite E. cbn [bind]. unfold buf_write. cbn [app]. rewrite <- !app_assoc. split.
  - intros [= <-]. exists (encode_int (out_amount o) false (Some 8%nat)), (encode_varint (blen sb) ++ sb).
    split; [apply (field_u64 _ _ UA); reflexivity|]. split; [apply SW; reflexivity | reflexivity].
  - intros (ab & s & FA & S & ->). apply (field_u64 _ _ UA) in FA. apply SW in S. subst. reflexivity.
Qed.
Lemma output_write_total o : output_fits o -> exists w, output_to_bytes o = Ok w.
Proof.
  intros (UA & WR). destruct (sized_write _ WR) as [sb [E [_ SW]]]. unfold output_to_bytes. rewrite E. cbn [bind]. eauto.
Qed.
Lemma concat_each {A} (f : A -> res bytes) (R : A -> bytes -> Prop) l :
  (forall a w, In a l -> (f a = Ok w <-> R a w)) -> forall w, concat_bytes f l = Ok w <-> each R l w.
Proof.
  induction l as [|a l IH]; intros F w; cbn [concat_bytes].
  - split; [intros [= <-]; constructor | inversion 1; reflexivity].
  - split.
    + intros H. apply bind_ok in H. destruct H as [x [X H]]. apply bind_ok in H. destruct H as [y [Y H]]. injection H as <-.
      constructor; [apply F; [left; reflexivity | exact X] | apply IH; [intros; apply F; right; assumption | exact Y]].
    + inversion 1 as [|? x ? y X Y]; subst. rewrite (proj2 (F a x (or_introl eq_refl)) X). cbn [bind].
      rewrite (proj2 (IH (fun b v I => F b v (or_intror I)) y) Y). reflexivity.
Qed.
Lemma concat_total {A} (f : A -> res bytes) l : (forall a, In a l -> exists w, f a = Ok w) -> exists w, concat_bytes f l = Ok w.
Proof.
  induction l as [|a l IH]; intros F; cbn [concat_bytes]; [eauto|].
  destruct (F a (or_introl eq_refl)) as [x ->]. destruct IH as [y ->]; [intros b I; apply F; right; exact I|]. cbn [bind]. eauto.
Qed.
Lemma tx_write t w : tx_fits t -> (tx_to_bytes t = Ok w <-> tx_wire compact_size t w).
Proof.
  intros (UV & UL & NI & UI & FI & NO & UO & FO). unfold tx_to_bytes, tx_wire. rewrite Forall_forall in FI, FO.
  pose proof (concat_each input_to_bytes (input_wire compact_size) (tx_inputs t) (fun a w I => input_write a w (FI a I))) as CI.
  pose proof (concat_each output_to_bytes (output_wire compact_size) (tx_outputs t) (fun a w I => output_write a w (FO a I))) as CO.
  unfold buf_write. cbn [app]. split.
  - intros H. apply bind_ok in H. destruct H as [iw [HI H]]. apply bind_ok in H. destruct H as [ow [HO H]]. injection H as <-.
    exists (encode_int (tx_version t) false (Some 4%nat)), (encode_varint (blen (tx_inputs t))), iw,
      (encode_varint (blen (tx_outputs t))), ow, (encode_int (tx_lock_time t) false (Some 4%nat)).
    split; [apply (field_u32 _ _ UV); reflexivity|]. split; [apply varint_spec, UI|]. split; [apply CI, HI|].
    split; [apply varint_spec, UO|]. split; [apply CO, HO|]. split; [apply (field_u32 _ _ UL); reflexivity|].
    rewrite <- !app_assoc. reflexivity.
  - intros (vb & nb & iw & mb & ow & lb & FV & N & EI & M & EO & FL & ->).
    apply CI in EI. apply CO in EO. rewrite EI, EO. cbn [bind]. apply (field_u32 _ _ UV) in FV. apply (field_u32 _ _ UL) in FL.
    apply (compact_size_iff _ _ UI) in N. apply (compact_size_iff _ _ UO) in M. subst. rewrite <- !app_assoc. reflexivity.
Qed.
Lemma tx_write_total t : tx_fits t -> exists w, tx_to_bytes t = Ok w.
Proof.
  intros (UV & UL & NI & UI & FI & NO & UO & FO). unfold tx_to_bytes. rewrite Forall_forall in FI, FO.
  destruct (concat_total input_to_bytes (tx_inputs t)) as [x ->]; [intros a I; apply input_write_total, FI, I|]. cbn [bind].
  destruct (concat_total output_to_bytes (tx_outputs t)) as [y ->]; [intros a I; apply output_write_total, FO, I|]. cbn [bind]. eauto.
Qed.
(** Serialising always gives a single result, so the format determines it. *)
Lemma tx_wire_unique t w w' : tx_fits t -> tx_wire compact_size t w -> tx_wire compact_size t w' -> w = w'.
Proof. intros F H H'. apply (tx_write _ _ F) in H, H'. congruence. Qed.

(** What is read back. *)
Definition canon_script (s : script) : script :=
  Script (match classify (s_ins s) with Ok c => c | Err _ => None end) (map (fun i => ba_instr (content i)) (s_ins s)).
Lemma content_canon s : map content (s_ins (canon_script s)) = map content (s_ins s).
Proof. unfold canon_script. cbn [s_ins]. rewrite map_map. apply map_ext. intros i. apply content_ba. Qed.
Lemma canon_parsed s : classifiable s -> parsed_script (canon_script s).
Proof.
  intros C. split.
  - unfold canon_script. cbn [s_ins]. apply Forall_map, Forall_forall. intros i _. unfold data_ba, ba_instr, content. cbn [fst snd i_data].
    destruct (i_data i); exact I.
  - apply classify_read. rewrite (classify_content _ _ (content_canon s)). unfold canon_script. cbn [s_class].
    destruct (classify (s_ins s)) as [c|e] eqn:E; [reflexivity|]. exfalso. apply C. apply classify_err in E. apply E.
Qed.
Definition canon_input (i : input) : input :=
  Input C_Input (map lower (in_tx_id i)) (in_index i) (canon_script (in_script i)) (in_seq i).
Definition canon_output (o : output) : output :=
  Output (match s_class (canon_script (out_script o)) with
          | Some PayToPubkeyOut => C_AddressOutput | Some PayToScriptOut => C_ScriptOutput
          | Some OpReturnOut => C_DataOutput | _ => C_Output end) (out_amount o) (canon_script (out_script o)).
Definition canon_tx (t : tx) : tx :=
  Tx (map canon_input (tx_inputs t)) (map canon_output (tx_outputs t)) (tx_lock_time t) (tx_version t).
Lemma hex_text_lower h d : hex_text h d -> hex_text (map lower h) d.
Proof. intros H. rewrite <- (lower_hex_encode _ _ H). apply encode_hex_text. Qed.
Lemma sized_canon s w : sized_script compact_size s w -> sized_script any_size (canon_script s) w.
Proof. intros (lb & sb & S & W & ->). exists lb, sb. rewrite content_canon. auto using compact_any. Qed.
Lemma canon_input_wire i w : input_wire compact_size i w -> input_wire any_size (canon_input i) w.
Proof.
  intros (id & ib & s & qb & LI & X & FI & S & FQ & ->). exists id, ib, s, qb. cbn [canon_input in_tx_id in_index in_script in_seq].
  split; [exact LI|]. split; [apply hex_text_lower, X|]. split; [exact FI|]. split; [apply sized_canon, S|]. auto.
Qed.
Lemma canon_output_wire o w : output_wire compact_size o w -> output_wire any_size (canon_output o) w.
Proof. intros (ab & s & FA & S & ->). exists ab, s. cbn [canon_output out_amount out_script]. auto using sized_canon. Qed.
Lemma each_map {A B} (R : A -> bytes -> Prop) (R' : B -> bytes -> Prop) (f : A -> B) l w :
  (forall a w, R a w -> R' (f a) w) -> each R l w -> each R' (map f l) w.
Proof. intros H. induction 1; cbn [map]; constructor; auto. Qed.
Lemma canon_output_parsed o : classifiable (out_script o) -> parsed_output (canon_output o).
Proof.
  intros C. pose proof (canon_parsed _ C) as P. split; [|exact P].
  apply (output_create_parsed (out_amount o) (canon_script (out_script o)) (canon_output o) P).
  unfold output_create. rewrite (script_create_same _ P). reflexivity.
Qed.
Lemma canon_tx_ok t w : tx_wire compact_size t w -> tx_classifiable t -> tx_inputs t <> [] -> tx_outputs t <> [] ->
  blen (tx_inputs t) < 2 ^ 60 -> blen (tx_outputs t) < 2 ^ 60 -> tx_wire any_size (canon_tx t) w /\ parsed_tx (canon_tx t).
Proof.
  intros (vb & nb & iw & mb & ow & lb & FV & N & EI & M & EO & FL & ->) [CI CO] NI NO BI BO. split.
  - exists vb, nb, iw, mb, ow, lb. cbn [canon_tx tx_version tx_inputs tx_outputs tx_lock_time]. rewrite !blen_map.
    split; [exact FV|]. split; [apply compact_any, N|]. split; [eapply each_map; [apply canon_input_wire | exact EI]|].
    split; [apply compact_any, M|]. split; [eapply each_map; [apply canon_output_wire | exact EO]|]. auto.
  - unfold parsed_tx. cbn [canon_tx tx_inputs tx_outputs]. rewrite !blen_map. split; [|split].
    + rewrite Forall_map. eapply Forall_impl; [|exact CI]. intros i C. split; [reflexivity|]. split; [apply lower_idem_map | apply canon_parsed, C].
    + rewrite Forall_map. eapply Forall_impl; [|exact CO]. intros o C. apply canon_output_parsed, C.
    + repeat split; try assumption; intros X; apply map_eq_nil in X; contradiction.
Qed.
Lemma canon_same t : same_tx (canon_tx t) (lower_ids t).
Proof.
  unfold same_tx. cbn [canon_tx lower_ids tx_inputs tx_outputs tx_lock_time tx_version]. split; [|split; [|auto]].
  - induction (tx_inputs t) as [|i l IH]; cbn [map]; constructor; [|exact IH]. unfold same_input, canon_input, lower_input, same_script.
    cbn [in_tx_id in_index in_script in_seq]. rewrite content_canon. auto.
  - induction (tx_outputs t) as [|o l IH]; cbn [map]; constructor; [|exact IH]. unfold same_output, canon_output, same_script.
    cbn [out_amount out_script]. rewrite content_canon. auto.
Qed.
Lemma tx_roundtrip t : tx_fits t -> tx_classifiable t -> blen (tx_inputs t) < 2 ^ 60 -> blen (tx_outputs t) < 2 ^ 60 ->
  exists w t', tx_to_bytes t = Ok w /\ tx_from_bytes w = Ok t' /\ same_tx t' (lower_ids t) /\ parsed_tx t'.
Proof.
  intros F C BI BO. destruct (tx_write_total t F) as [w E]. exists w, (canon_tx t). split; [exact E|].
  apply (tx_write _ _ F) in E. destruct F as (UV & UL & NI & UI & FI & NO & UO & FO).
  destruct (canon_tx_ok t w E C NI NO BI BO) as [W P]. split; [|split; [apply canon_same | exact P]].
  apply tx_from_bytes_ok. exists w, []. rewrite app_nil_r. auto.
Qed.
Lemma tx_hex_roundtrip t : tx_fits t -> tx_classifiable t -> blen (tx_inputs t) < 2 ^ 60 -> blen (tx_outputs t) < 2 ^ 60 ->
  exists h t', tx_to_hex t = Ok h /\ tx_from_hex h = Ok t' /\ same_tx t' (lower_ids t).
Proof.
  intros F C BI BO. destruct (tx_roundtrip t F C BI BO) as [w [t' [E [P [S _]]]]]. exists (encode_hex w), t'.
  unfold tx_to_hex, tx_from_hex. rewrite E, decode_encode_hex. auto.
Qed.
(** parse then print: when everything was in shortest form, the same bytes come back *)
Lemma writable_fits t w : tx_wire compact_size t w -> tx_inputs t <> [] -> tx_outputs t <> [] ->
  Forall (fun i => Forall (fun x => ~ pushdata (i_op x)) (s_ins (in_script i))) (tx_inputs t) ->
  Forall (fun o => Forall (fun x => ~ pushdata (i_op x)) (s_ins (out_script o))) (tx_outputs t) ->
  Forall (fun i => Forall well_formed (s_ins (in_script i))) (tx_inputs t) ->
  Forall (fun o => Forall well_formed (s_ins (out_script o))) (tx_outputs t) -> tx_fits t.
Proof.
  assert (SZ : forall n l, compact_size n l -> u64 n) by (intros n l; unfold compact_size, u64; intros H; lia).
  assert (SC : forall s w, sized_script compact_size s w -> Forall (fun x => ~ pushdata (i_op x)) (s_ins s) -> Forall well_formed (s_ins s) -> writable s).
  { intros s v (lb & sb & S & W & _) N WF. split; [exact WF|]. split; [exact N|]. intros v' W'.
    replace v' with sb; [eapply SZ; exact S|]. destruct (to_bytes_ok _ WF N) as [x [E _]].
    clear - W W' N. revert sb W v' W' N. generalize (s_ins s). intros l. induction l as [|i l IH]; cbn [map]; intros sb W v' W' N.
    - inversion W; inversion W'; reflexivity.
    - inversion W as [|? w ? r W1 W2]; inversion W' as [|? w' ? r' W1' W2']; subst. inversion N as [|? ? N1 N2]; subst.
      rewrite (IH r W2 r' W2' N2). f_equal. unfold pushdata in N1. destruct i as [o d]. unfold content in *. cbn [i_op i_data] in *.
      inversion W1; inversion W1'; subst; unfold length_width in *; try congruence; try lia. }
  intros (vb & nb & iw & mb & ow & lb & FV & N & EI & M & EO & FL & ->) NI NO PI PO WI WO.
  split; [exact (field_range 4 _ _ FV)|]. split; [exact (field_range 4 _ _ FL)|]. split; [exact NI|]. split; [eapply SZ; exact N|].
  split; [|split; [exact NO|split; [eapply SZ; exact M|]]].
  - clear - EI PI WI SC. induction EI as [|i w l r Ri E IH]; [constructor|]. inversion PI; inversion WI; subst. constructor; [|auto].
    destruct Ri as (id & ib & s & qb & LI & X & FI & S & FQ & ->). pose proof (hex_text_length _ _ X) as LX. rewrite rev_length in LX.
    split; [lia|]. split; [eapply hex_text_hex; exact X|]. split; [exact (field_range 4 _ _ FI)|]. split; [exact (field_range 4 _ _ FQ)|].
    eapply SC; eassumption.
  - clear - EO PO WO SC. induction EO as [|i w l r Ri E IH]; [constructor|]. inversion PO; inversion WO; subst. constructor; [|auto].
    destruct Ri as (ab & s & FA & S & ->). split; [exact (field_range 8 _ _ FA)|]. eapply SC; eassumption.
Qed.

(** ** unambiguity *)
Lemma size_prefix n n' l l' r r' : any_size n l -> any_size n' l' -> l ++ r = l' ++ r' -> n = n' /\ l = l' /\ r = r'.
Proof.
  intros A A' E. apply parses_varint in A, A'. pose proof (proj1 A r) as H. rewrite E, (proj1 A' r') in H. injection H as -> ->.
  split; [reflexivity|]. split; [|reflexivity]. eapply app_inv_tail; exact E.
Qed.
Definition compact_prefix n n' l l' r r' (A : compact_size n l) (A' : compact_size n' l') (E : l ++ r = l' ++ r') :=
  size_prefix n n' l l' r r' (compact_any _ _ A) (compact_any _ _ A') E.
Lemma field_prefix k n n' w w' r r' : field k n w -> field k n' w' -> w ++ r = w' ++ r' -> n = n' /\ w = w' /\ r = r'.
Proof.
  intros [L V] [L' V'] E. apply app_inj_len in E; [|congruence]. destruct E as [-> ->]. subst. auto.
Qed.
Section Unamb.
Context (size : Z -> bytes -> Prop).
Context (pre : forall n n' l l' r r', size n l -> size n' l' -> l ++ r = l' ++ r' -> n = n' /\ l = l' /\ r = r').
Lemma sized_prefix s s' w w' r r' : sized_script size s w -> sized_script size s' w' -> w ++ r = w' ++ r' ->
  same_script s s' /\ w = w' /\ r = r'.
Proof using pre.
  intros (lb & sb & S & W & ->) (lb' & sb' & S' & W' & ->) E. rewrite <- !app_assoc in E.
  destruct (pre _ _ _ _ _ _ S S' E) as [L [-> E']]. apply app_inj_len in E'; [|unfold blen in L; lia]. destruct E' as [-> ->].
  split; [|auto]. exact (wire_script_fun _ _ _ W W').
Qed.
Lemma input_prefix i i' w w' r r' : input_wire size i w -> input_wire size i' w' -> w ++ r = w' ++ r' ->
  same_input (lower_input i) (lower_input i') /\ w = w' /\ r = r'.
Proof using pre.
  intros (id & ib & s & qb & LI & X & FI & S & FQ & ->) (id' & ib' & s' & qb' & LI' & X' & FI' & S' & FQ' & ->) E.
  rewrite <- !app_assoc in E. apply app_inj_len in E; [|congruence]. destruct E as [-> E].
  destruct (field_prefix _ _ _ _ _ _ _ FI FI' E) as [E1 [-> E2]].
  destruct (sized_prefix _ _ _ _ _ _ S S' E2) as [E3 [-> E4]].
  destruct (field_prefix _ _ _ _ _ _ _ FQ FQ' E4) as [E5 [-> ->]].
  split; [|auto]. unfold same_input, lower_input. cbn [in_tx_id in_index in_script in_seq].
  split; [exact (hex_text_same_lower _ _ _ X X')|]. auto.
Qed.
Lemma output_prefix i i' w w' r r' : output_wire size i w -> output_wire size i' w' -> w ++ r = w' ++ r' ->
  same_output i i' /\ w = w' /\ r = r'.
Proof using pre.
  intros (ab & s & FA & S & ->) (ab' & s' & FA' & S' & ->) E. rewrite <- !app_assoc in E.
  destruct (field_prefix _ _ _ _ _ _ _ FA FA' E) as [E1 [-> E2]]. destruct (sized_prefix _ _ _ _ _ _ S S' E2) as [E3 [-> ->]].
  split; [|auto]. split; assumption.
Qed.
Lemma each_prefix {A} (R : A -> bytes -> Prop) (Q : A -> A -> Prop) :
  (forall a a' w w' r r', R a w -> R a' w' -> w ++ r = w' ++ r' -> Q a a' /\ w = w' /\ r = r') ->
  forall l l' w w' r r', each R l w -> each R l' w' -> List.length l = List.length l' -> w ++ r = w' ++ r' -> Forall2 Q l l' /\ w = w' /\ r = r'.
Proof.
  intros H l l' w w' r r' E. revert l' w' r r'. induction E as [|a w l r0 Ra E IH]; intros l' w' r r' E' L X.
  - inversion E'; subst; [|discriminate]. auto.
  - inversion E' as [|a' v l'' r0' Ra' E'']; subst; [discriminate|]. rewrite <- !app_assoc in X.
    destruct (H _ _ _ _ _ _ Ra Ra' X) as [Q1 [-> X2]]. injection L as L. destruct (IH _ _ _ _ E'' L X2) as [Q2 [-> ->]]. auto.
Qed.
Lemma tx_prefix t t' w w' r r' : tx_wire size t w -> tx_wire size t' w' -> w ++ r = w' ++ r' ->
  same_tx (lower_ids t) (lower_ids t') /\ w = w' /\ r = r'.
Proof using pre.
  intros (vb & nb & iw & mb & ow & lb & FV & N & EI & M & EO & FL & ->) (vb' & nb' & iw' & mb' & ow' & lb' & FV' & N' & EI' & M' & EO' & FL' & ->) E.
  rewrite <- !app_assoc in E.
  destruct (field_prefix _ _ _ _ _ _ _ FV FV' E) as [E1 [-> E2]].
  destruct (pre _ _ _ _ _ _ N N' E2) as [L1 [-> E3]].
  destruct (each_prefix _ (fun i i' => same_input (lower_input i) (lower_input i')) input_prefix _ _ _ _ _ _ EI EI' ltac:(unfold blen in L1; lia) E3) as [QI [-> E4]].
  destruct (pre _ _ _ _ _ _ M M' E4) as [L2 [-> E5]].
  destruct (each_prefix _ same_output output_prefix _ _ _ _ _ _ EO EO' ltac:(unfold blen in L2; lia) E5) as [QO [-> E6]].
  destruct (field_prefix _ _ _ _ _ _ _ FL FL' E6) as [E7 [-> ->]].
  split; [|auto]. unfold same_tx, lower_ids. cbn [tx_inputs tx_outputs tx_lock_time tx_version]. split; [|auto].
  clear - QI. induction QI; cbn [map]; constructor; assumption.
Qed.
End Unamb.
Lemma tx_bytes_injective t t' w : tx_fits t -> tx_fits t' -> tx_to_bytes t = Ok w -> tx_to_bytes t' = Ok w ->
  same_tx (lower_ids t) (lower_ids t').
Proof.
  intros F F' H H'. apply (tx_write _ _ F) in H. apply (tx_write _ _ F') in H'.
  refine (proj1 (tx_prefix compact_size compact_prefix t t' w w [] [] H H' eq_refl)).
Qed.
