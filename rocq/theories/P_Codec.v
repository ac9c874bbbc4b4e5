(** Proofs about the codecs. *)
From Verif Require Import Base M_Hash M_Codec S_Codec.
Ltac Zify.zify_post_hook ::= Z.div_mod_to_equations.

(** ** Positional values *)

Lemma le_val_app a b : le_val (a ++ b) = le_val a + 256 ^ Z.of_nat (length a) * le_val b.
Proof.
  induction a as [|x a IH]; cbn [le_val app length].
  - change (256 ^ Z.of_nat 0) with 1. lia.
  - rewrite IH, Nat2Z.inj_succ, Z.pow_succ_r by lia. ring.
Qed.

Lemma le_val_bound l : 0 <= le_val l < 256 ^ Z.of_nat (length l).
Proof.
  induction l as [|b l IH]; cbn [le_val length]; [cbn; lia|].
  rewrite Nat2Z.inj_succ, Z.pow_succ_r by lia. pose proof (bZ_range b). lia.
Qed.

Lemma le_val_inj a b : length a = length b -> le_val a = le_val b -> a = b.
Proof.
  revert b; induction a as [|x a IH]; intros [|y b]; cbn [le_val length]; intros L E; try discriminate; auto.
  pose proof (bZ_range x); pose proof (bZ_range y).
  assert (bZ x = bZ y /\ le_val a = le_val b) as [H1 H2] by lia.
  apply bZ_inj in H1; subst. f_equal. apply IH; auto.
Qed.

Lemma be_val_inj a b : length a = length b -> be_val a = be_val b -> a = b.
Proof.
  intros L E. apply le_val_inj in E; [|rewrite !rev_length; exact L].
  rewrite <- (rev_involutive a), <- (rev_involutive b), E. reflexivity.
Qed.

Lemma be_val_bound l : 0 <= be_val l < 256 ^ Z.of_nat (length l).
Proof. unfold be_val. rewrite <- (rev_length l). apply le_val_bound. Qed.

Lemma be_val_snoc l b : be_val (l ++ [b]) = 256 * be_val l + bZ b.
Proof. unfold be_val. rewrite rev_app_distr. cbn [rev app le_val]. ring. Qed.

Lemma be_val_cons l b : be_val (b :: l) = bZ b * 256 ^ Z.of_nat (length l) + be_val l.
Proof.
  unfold be_val. cbn [rev]. rewrite le_val_app, rev_length. cbn [le_val]. ring.
Qed.

Lemma be_val_zero_cons l : be_val (x00 :: l) = be_val l.
Proof. rewrite be_val_cons. change (bZ x00) with 0. lia. Qed.

Lemma be_val_zeros_app k l : be_val (zeros k ++ l) = be_val l.
Proof.
  induction k as [|k IH]; [reflexivity|]. cbn [zeros repeat app].
  rewrite be_val_zero_cons. exact IH.
Qed.

Lemma decode_int_be l : decode_int l true = be_val l.
Proof.
  unfold decode_int. induction l as [|b l IH] using rev_ind; [reflexivity|].
  rewrite fold_left_app, be_val_snoc. cbn [fold_left]. rewrite IH.
  rewrite Z.shiftl_mul_pow2 by lia. change (2 ^ 8) with 256. ring.
Qed.

Lemma decode_int_le l : decode_int l false = le_val l.
Proof.
  pose proof (decode_int_be (rev l)) as H. unfold decode_int in *. cbn iota in *. rewrite H.
  unfold be_val. rewrite rev_involutive. reflexivity.
Qed.

Arguments decode_int : simpl never.

(** ** The digit loop *)

Lemma log2_div256 n : 256 <= n -> Z.log2 (n / 256) = Z.log2 n - 8.
Proof.
  intros H. change 256 with (2 ^ 8). rewrite <- Z.shiftr_div_pow2 by lia.
  rewrite Z.log2_shiftr by lia.
  pose proof (Z.log2_le_mono 256 n H). change (Z.log2 256) with 8 in *. lia.
Qed.

Lemma land_255 n : Z.land n 255 = n mod 256.
Proof. change 255 with (Z.ones 8). rewrite Z.land_ones by lia. reflexivity. Qed.

Lemma Zb_land n : Zb (Z.land n 255) = Zb n.
Proof. rewrite land_255. apply Zb_mod. Qed.

Lemma int_loop_f_stable f1 : forall f2 n,
  (Z.to_nat (Z.log2 n) < f1)%nat -> (Z.to_nat (Z.log2 n) < f2)%nat -> int_loop_f f1 n = int_loop_f f2 n.
Proof.
  induction f1 as [|f1 IH]; intros f2 n H1 H2; [lia|].
  destruct f2 as [|f2]; [lia|]. cbn [int_loop_f].
  destruct (n >? 0) eqn:E; [|reflexivity]. f_equal.
  rewrite Z.shiftr_div_pow2 by lia. change (2 ^ 8) with 256.
  destruct (Z.lt_ge_cases n 256) as [L|L].
  - rewrite Z.div_small by lia. destruct f1, f2; reflexivity.
  - pose proof (log2_div256 n L). pose proof (Z.log2_le_mono 256 n L). change (Z.log2 256) with 8 in *.
    apply IH; lia.
Qed.

Lemma int_loop_unfold n : 0 < n -> int_loop n = Zb n :: int_loop (n / 256).
Proof.
  intros H. unfold int_loop at 1. cbn [int_loop_f].
  replace (n >? 0) with true by lia. rewrite Zb_land. f_equal.
  rewrite Z.shiftr_div_pow2 by lia. change (2 ^ 8) with 256.
  destruct (Z.lt_ge_cases n 256) as [L|L].
  - rewrite Z.div_small by lia. destruct (Z.to_nat (Z.log2 n)); reflexivity.
  - pose proof (log2_div256 n L). pose proof (Z.log2_le_mono 256 n L). change (Z.log2 256) with 8 in *.
    apply int_loop_f_stable; lia.
Qed.

Lemma int_loop_nonpos n : n <= 0 -> int_loop n = [].
Proof. intros H. unfold int_loop. cbn [int_loop_f]. replace (n >? 0) with false by lia. reflexivity. Qed.

Lemma int_loop_ind (P : Z -> Prop) :
  (forall n, n <= 0 -> P n) -> (forall n, 0 < n -> P (n / 256) -> P n) -> forall n, P n.
Proof.
  intros H0 H1 n. destruct (Z.le_gt_cases n 0) as [L|L]; [auto|].
  revert n L. refine (well_founded_ind (Z.lt_wf 0) (fun n => 0 < n -> P n) _).
  intros n IH L. apply H1; [exact L|].
  destruct (Z.le_gt_cases (n / 256) 0); [auto|]. apply IH; lia.
Qed.

Lemma le_val_int_loop n : 0 <= n -> le_val (int_loop n) = n.
Proof.
  pattern n. apply int_loop_ind; clear n; intros n H.
  - intros. rewrite int_loop_nonpos by lia. cbn. lia.
  - intros IH _. rewrite int_loop_unfold by lia. cbn [le_val]. rewrite bZ_Zb_mod, IH by lia. lia.
Qed.

Lemma int_loop_last n : 0 < n -> exists l b, int_loop n = l ++ [b] /\ 0 < bZ b.
Proof.
  pattern n. apply int_loop_ind; clear n; intros n H; [lia|].
  intros IH _. rewrite int_loop_unfold by lia.
  destruct (Z.le_gt_cases (n / 256) 0) as [L|L].
  - rewrite (int_loop_nonpos (n / 256)) by lia. exists [], (Zb n). split; [reflexivity|].
    rewrite bZ_Zb_mod. lia.
  - destruct (IH L) as (l & b & E & Hb). rewrite E. exists (Zb n :: l), b. auto.
Qed.

Lemma int_loop_padded k n : 0 <= n -> firstn k (int_loop n ++ zeros k) = le_bytes k n.
Proof.
  revert n; induction k as [|k IH]; intros n H; [reflexivity|].
  destruct (Z.eq_dec n 0) as [->|Hn].
  - rewrite int_loop_nonpos by lia. cbn [app zeros repeat firstn le_bytes].
    change (0 / 256) with 0. f_equal. rewrite <- (IH 0) by lia. rewrite int_loop_nonpos by lia. reflexivity.
  - rewrite int_loop_unfold by lia. cbn [app firstn le_bytes]. f_equal.
    rewrite <- (IH (n / 256)) by lia.
    rewrite !firstn_app. f_equal.
    change (zeros (S k)) with ([x00] ++ zeros k).
    assert (HE : zeros (S k) = zeros k ++ [x00]).
    { unfold zeros. change [x00] with (repeat x00 1). rewrite <- repeat_app. f_equal. lia. }
    change ([x00] ++ zeros k) with (zeros (S k)). rewrite HE, firstn_app.
    rewrite zeros_length.
    replace (k - length (int_loop (n / 256)) - k)%nat with O by lia. cbn [firstn]. apply app_nil_r.
Qed.

Lemma le_val_le_bytes k : forall n, le_val (le_bytes k n) = n mod 256 ^ Z.of_nat k.
Proof.
  induction k as [|k IH]; intros n; cbn [le_bytes le_val].
  - change (256 ^ Z.of_nat 0) with 1. rewrite Z.mod_1_r. reflexivity.
  - rewrite IH, bZ_Zb_mod, Nat2Z.inj_succ, Z.pow_succ_r by lia.
    rewrite Z.rem_mul_r by lia. ring.
Qed.

Lemma le_bytes_nth k : forall n i, (i < k)%nat -> bZ (nth i (le_bytes k n) x00) = n / 256 ^ Z.of_nat i mod 256.
Proof.
  induction k as [|k IH]; intros n i H; [lia|]. cbn [le_bytes].
  destruct i as [|i]; cbn [nth].
  - change (256 ^ Z.of_nat 0) with 1. rewrite Z.div_1_r. apply bZ_Zb_mod.
  - rewrite IH by lia. rewrite Nat2Z.inj_succ, Z.pow_succ_r by lia.
    rewrite Z.div_div by lia. reflexivity.
Qed.

Lemma le_bytes_zero k : le_bytes k 0 = zeros k.
Proof. induction k as [|k IH]; [reflexivity|]. cbn [le_bytes]. change (0 / 256) with 0. rewrite IH. reflexivity. Qed.

Lemma le_bytes_le_val l : le_bytes (length l) (le_val l) = l.
Proof.
  apply le_val_inj; [apply le_bytes_length|]. rewrite le_val_le_bytes.
  apply Z.mod_small, le_val_bound.
Qed.

Lemma be_val_be_bytes k n : be_val (be_bytes k n) = n mod 256 ^ Z.of_nat k.
Proof. unfold be_val, be_bytes. rewrite rev_involutive. apply le_val_le_bytes. Qed.

(** ** encode_int *)

Lemma encode_int_fixed_le n k : 0 <= n -> encode_int n false (Some k) = le_bytes k n.
Proof.
  intros H. unfold encode_int. destruct (n =? 0) eqn:E.
  - replace n with 0 by lia. symmetry. apply le_bytes_zero.
  - apply int_loop_padded; lia.
Qed.

Lemma rev_zeros k : rev (zeros k) = zeros k.
Proof.
  assert (H : forall a, a ++ zeros k = a ++ zeros k -> forall b, b = zeros k -> rev b = b).
  { intros _ _ b ->. apply le_val_inj; [apply rev_length|].
    assert (Z0 : le_val (zeros k) = 0).
    { rewrite <- le_bytes_zero, le_val_le_bytes. apply Z.mod_0_l. lia. }
    assert (Zr : be_val (zeros k) = 0).
    { rewrite <- (app_nil_r (zeros k)), be_val_zeros_app. reflexivity. }
    rewrite Z0. exact Zr. }
  apply (H [] eq_refl); reflexivity.
Qed.

Lemma encode_int_fixed_be n k : encode_int n true (Some k) = rev (encode_int n false (Some k)).
Proof. unfold encode_int. destruct (n =? 0); [rewrite rev_zeros|]; reflexivity. Qed.

Lemma encode_int_fixed_be_bytes n k : 0 <= n -> encode_int n true (Some k) = be_bytes k n.
Proof. intros H. rewrite encode_int_fixed_be, encode_int_fixed_le by exact H. reflexivity. Qed.

Lemma encode_int_neg n k be : n < 0 -> encode_int n be (Some k) = zeros k.
Proof.
  intros H. unfold encode_int. replace (n =? 0) with false by lia.
  rewrite int_loop_nonpos by lia. cbn [app].
  rewrite firstn_all2 by (rewrite zeros_length; lia). destruct be; [apply rev_zeros|reflexivity].
Qed.

Lemma encode_int_length n k be : length (encode_int n be (Some k)) = k.
Proof.
  destruct (Z.lt_ge_cases n 0) as [L|L].
  - rewrite encode_int_neg by exact L. apply zeros_length.
  - destruct be; [rewrite encode_int_fixed_be, rev_length|];
      rewrite encode_int_fixed_le by exact L; apply le_bytes_length.
Qed.

Lemma decode_encode_fixed n k be :
  0 <= n -> decode_int (encode_int n be (Some k)) be = n mod 256 ^ Z.of_nat k.
Proof.
  intros H. destruct be.
  - rewrite decode_int_be, encode_int_fixed_be_bytes by exact H. apply be_val_be_bytes.
  - rewrite decode_int_le, encode_int_fixed_le by exact H. apply le_val_le_bytes.
Qed.

Lemma encode_int_fixed_digits n k i : 0 <= n -> (i < k)%nat ->
  bZ (nth i (encode_int n false (Some k)) x00) = n / 256 ^ Z.of_nat i mod 256.
Proof. intros H Hi. rewrite encode_int_fixed_le by exact H. apply le_bytes_nth, Hi. Qed.

Lemma encode_int_var_be n : encode_int n true None = rev (encode_int n false None).
Proof. unfold encode_int. destruct (n =? 0); reflexivity. Qed.

Lemma le_val_encode_int n : 0 <= n -> le_val (encode_int n false None) = n.
Proof.
  intros H. unfold encode_int. destruct (n =? 0) eqn:E; [cbn; lia|]. apply le_val_int_loop, H.
Qed.

Lemma decode_encode_var n be : 0 <= n -> decode_int (encode_int n be None) be = n.
Proof.
  intros H. destruct be.
  - rewrite decode_int_be. unfold be_val. rewrite encode_int_var_be, rev_involutive.
    apply le_val_encode_int, H.
  - rewrite decode_int_le. apply le_val_encode_int, H.
Qed.

Lemma encode_int_var_nonempty n : 0 <= n -> encode_int n false None <> [].
Proof.
  intros H. unfold encode_int. destruct (n =? 0) eqn:E; [discriminate|].
  rewrite int_loop_unfold by lia. discriminate.
Qed.

Lemma int_loop_shortest n l : 0 < n -> le_val l = n -> (length (int_loop n) <= length l)%nat.
Proof.
  intros H E. destruct (int_loop_last n H) as (a & b & Ea & Hb).
  pose proof (le_val_int_loop n ltac:(lia)) as V. rewrite Ea, le_val_app in V. cbn [le_val] in V.
  rewrite Ea, app_length. cbn [length].
  pose proof (le_val_bound l) as Bl. pose proof (le_val_bound a) as Ba.
  destruct (Nat.le_gt_cases (length a + 1) (length l)) as [G|G]; [exact G|exfalso].
  assert (P : 256 ^ Z.of_nat (length l) <= 256 ^ Z.of_nat (length a)) by (apply Z.pow_le_mono_r; lia).
  nia.
Qed.

Lemma encode_int_var_shortest n l : 0 <= n -> l <> [] -> le_val l = n ->
  (length (encode_int n false None) <= length l)%nat.
Proof.
  intros H Hl E. unfold encode_int. destruct (n =? 0) eqn:En.
  - destruct l; [congruence|cbn; lia].
  - apply int_loop_shortest; lia.
Qed.

Lemma encode_int_var_neg n be : n < 0 -> encode_int n be None = [].
Proof.
  intros H. unfold encode_int. replace (n =? 0) with false by lia.
  rewrite int_loop_nonpos by lia. destruct be; reflexivity.
Qed.

Lemma encode_int_small n be : 0 <= n < 256 -> encode_int n be None = [Zb n].
Proof.
  intros H. unfold encode_int. destruct (n =? 0) eqn:E.
  - replace n with 0 by lia. reflexivity.
  - rewrite int_loop_unfold by lia. rewrite Z.div_small, int_loop_nonpos by lia. destruct be; reflexivity.
Qed.

Arguments encode_int : simpl never.

(** ** Buffer *)

Lemma buf_read_app d rest : buf_read (blen d) (d ++ rest) = (Ok d, rest).
Proof.
  unfold buf_read, blen, slice_to, slice_from. rewrite app_length.
  replace (Z.of_nat (length d + length rest) <? Z.of_nat (length d)) with false by lia.
  replace (Z.of_nat (length d) <? 0) with false by lia.
  unfold blen. rewrite app_length.
  replace (Z.to_nat (Z.min (Z.of_nat (length d)) (Z.of_nat (length d + length rest)))) with (length d) by lia.
  rewrite firstn_app, skipn_app, firstn_all, skipn_all, Nat.sub_diag. cbn [firstn skipn app].
  rewrite app_nil_r. reflexivity.
Qed.

Lemma buf_read_app_n n d rest : n = blen d -> buf_read n (d ++ rest) = (Ok d, rest).
Proof. intros ->. apply buf_read_app. Qed.

Lemma buf_read_ok n s d s' : 0 <= n -> buf_read n s = (Ok d, s') <-> s = d ++ s' /\ blen d = n.
Proof.
  intros H. split.
  - unfold buf_read. destruct (blen s <? n) eqn:E; [discriminate|].
    unfold slice_to, slice_from, blen in *. replace (n <? 0) with false by lia.
    intros X. injection X as <- <-. rewrite firstn_skipn. split; [reflexivity|].
    rewrite firstn_length. lia.
  - intros [-> <-]. apply buf_read_app.
Qed.

Lemma buf_read_short n s : blen s < n -> buf_read n s = (Err (E_InsufficientData (blen s) n), s).
Proof. intros H. unfold buf_read. replace (blen s <? n) with true by lia. reflexivity. Qed.

Lemma buf_read_err n s e s' : buf_read n s = (Err e, s') ->
  blen s < n /\ e = E_InsufficientData (blen s) n /\ s' = s.
Proof. unfold buf_read. destruct (blen s <? n) eqn:E; intros X; inversion X; subst; repeat split; lia. Qed.

Lemma buf_read_le n s : 0 <= n <= blen s -> exists d s', buf_read n s = (Ok d, s') /\ s = d ++ s' /\ blen d = n.
Proof.
  intros H. exists (firstn (Z.to_nat n) s), (skipn (Z.to_nat n) s).
  assert (A : s = firstn (Z.to_nat n) s ++ skipn (Z.to_nat n) s /\ blen (firstn (Z.to_nat n) s) = n).
  { split; [symmetry; apply firstn_skipn|]. unfold blen in *. rewrite firstn_length. lia. }
  split; [apply buf_read_ok; [lia|exact A]|exact A].
Qed.

Lemma blen_app {A} (a b : list A) : blen (a ++ b) = blen a + blen b.
Proof. unfold blen. rewrite app_length. lia. Qed.
Lemma blen_cons {A} (a : A) b : blen (a :: b) = 1 + blen b.
Proof. unfold blen. cbn [length]. lia. Qed.
Lemma blen_nil {A} : blen (@nil A) = 0.
Proof. reflexivity. Qed.
Lemma blen_nonneg {A} (l : list A) : 0 <= blen l.
Proof. unfold blen. lia. Qed.

(** The Buffer as a state machine over the FIFO alphabet. *)
Definition buf_step (s : bytes) (o : fifo_op) : fifo_out * bytes :=
  match o with
  | FRead n => match buf_read (Z.of_nat n) s with
               | (Ok d, s') => (FGot d, s')
               | (Err (E_InsufficientData a b), s') => (FShort a b, s')
               | (Err _, s') => (FDone, s')
               end
  | FWrite d => (FDone, buf_write d s)
  end.
Fixpoint buf_run (s : bytes) (ops : list fifo_op) : list fifo_out * bytes :=
  match ops with
  | [] => ([], s)
  | o :: r => let '(x, s') := buf_step s o in
              let '(xs, s'') := buf_run s' r in (x :: xs, s'')
  end.

Lemma buf_step_fifo s o x s' : buf_step s o = (x, s') <-> fifo_step s o x s'.
Proof.
  split.
  - destruct o as [n|d]; cbn [buf_step].
    + destruct (Z.lt_ge_cases (blen s) (Z.of_nat n)) as [L|L].
      * rewrite buf_read_short by exact L. intros X. injection X as <- <-.
        unfold blen in *. constructor. lia.
      * destruct (buf_read_le (Z.of_nat n) s ltac:(lia)) as (d & t & E & Es & El).
        rewrite E. intros X. injection X as <- <-. constructor; [exact Es|]. unfold blen in El. lia.
    + intros X. injection X as <- <-. constructor.
  - intros H. destruct H as [q d rest n -> <-|q n Hn|q d]; cbn [buf_step].
    + fold (blen d). rewrite buf_read_app. reflexivity.
    + rewrite buf_read_short by (unfold blen; lia). reflexivity.
    + reflexivity.
Qed.

Lemma buf_run_fifo ops : forall s xs s', buf_run s ops = (xs, s') <-> fifo_run s ops xs s'.
Proof.
  induction ops as [|o ops IH]; intros s xs s'; cbn [buf_run].
  - split; [intros X; injection X as <- <-; constructor | intros H; inversion H; reflexivity].
  - destruct (buf_step s o) as [x t] eqn:E1. destruct (buf_run t ops) as [ys u] eqn:E2. split.
    + intros X. injection X as <- <-. econstructor; [apply buf_step_fifo, E1 | apply IH, E2].
    + intros H. inversion H as [|q o' x' q' ops' xs'' q'' H1 H2]; subst.
      apply buf_step_fifo in H1. rewrite E1 in H1. injection H1 as -> ->.
      apply IH in H2. rewrite E2 in H2. injection H2 as -> ->. reflexivity.
Qed.

Lemma buf_run_conserve ops : forall s xs s', buf_run s ops = (xs, s') -> got xs ++ s' = s ++ written ops.
Proof.
  intros s xs s' H. apply buf_run_fifo in H.
  induction H as [q|q o x q' ops xs q'' H1 H2 IH]; cbn [got written]; [rewrite app_nil_r; reflexivity|].
  destruct H1 as [q d rest n -> <-|q n Hn|q d]; cbn [got written].
  - rewrite <- app_assoc, IH, app_assoc. reflexivity.
  - exact IH.
  - rewrite IH, app_assoc. reflexivity.
Qed.

(** ** Varint *)

Lemma rbind_ok {A B} (m : rd A) (f : A -> rd B) s a s' : m s = (Ok a, s') -> rbind m f s = f a s'.
Proof. intros H. unfold rbind. rewrite H. reflexivity. Qed.
Lemma rbind_err {A B} (m : rd A) (f : A -> rd B) s e s' : m s = (Err e, s') -> rbind m f s = (Err e, s').
Proof. intros H. unfold rbind. rewrite H. reflexivity. Qed.
Lemma rbind_inv {A B} (m : rd A) (f : A -> rd B) s b s'' :
  rbind m f s = (Ok b, s'') -> exists a s', m s = (Ok a, s') /\ f a s' = (Ok b, s'').
Proof. unfold rbind. destruct (m s) as [[a|e] s']; [exists a, s'; auto|discriminate]. Qed.

Lemma varint_spec n : 0 <= n < 2 ^ 64 -> compact_size n (encode_varint n).
Proof.
  intros H. unfold compact_size, encode_varint.
  destruct (n <? 253) eqn:E1.
  { left. split; [lia|]. exists (Zb n). rewrite encode_int_small, bZ_Zb by lia. auto. }
  destruct (n <=? 65535) eqn:E2.
  { right; left. split; [lia|]. eexists. split; [reflexivity|].
    split; [apply encode_int_length|]. rewrite encode_int_fixed_le, le_val_le_bytes by lia. apply Z.mod_small. cbn; lia. }
  destruct (n <=? 4294967295) eqn:E3.
  { right; right; left. split; [lia|]. eexists. split; [reflexivity|].
    split; [apply encode_int_length|]. rewrite encode_int_fixed_le, le_val_le_bytes by lia. apply Z.mod_small. cbn; lia. }
  right; right; right. split; [lia|]. eexists. split; [reflexivity|].
  split; [apply encode_int_length|]. rewrite encode_int_fixed_le, le_val_le_bytes by lia. apply Z.mod_small. cbn; lia.
Qed.

Lemma read_varint_1 b rest : bZ b < 253 -> read_varint (b :: rest) = (Ok (bZ b), rest).
Proof.
  intros H. unfold read_varint.
  rewrite (rbind_ok _ _ _ [b] rest) by (exact (buf_read_app [b] rest)).
  rewrite decode_int_be. change (be_val [b]) with (bZ b + 256 * 0).
  replace (bZ b + 256 * 0 <? 253) with true by lia. unfold rret. do 2 f_equal. lia.
Qed.

Lemma read_varint_wide m b d rest : (b = xfd /\ m = 2%nat) \/ (b = xfe /\ m = 4%nat) \/ (b = xff /\ m = 8%nat) ->
  length d = m -> read_varint (b :: d ++ rest) = (Ok (le_val d), rest).
Proof.
  intros Hb Hd. unfold read_varint.
  rewrite (rbind_ok _ _ _ [b] (d ++ rest)) by (exact (buf_read_app [b] (d ++ rest))).
  rewrite decode_int_be.
  destruct Hb as [[-> Hm]|[[-> Hm]|[-> Hm]]]; rewrite Hm in Hd;
    match goal with |- context[be_val [?c]] => let v := eval vm_compute in (be_val [c]) in change (be_val [c]) with v end;
    cbn [Z.ltb Z.eqb Z.compare Pos.compare Pos.compare_cont Pos.eqb];
    (erewrite rbind_ok by (apply buf_read_app_n; unfold blen; rewrite Hd; reflexivity));
    rewrite decode_int_le; reflexivity.
Qed.

Lemma compact_size_read n l rest : compact_size n l -> read_varint (l ++ rest) = (Ok n, rest).
Proof.
  intros [(H & b & -> & <-)|[(H & d & -> & L & <-)|[(H & d & -> & L & <-)|(H & d & -> & L & <-)]]]; cbn [app].
  - apply read_varint_1; lia.
  - eapply read_varint_wide; [left; split; reflexivity|exact L].
  - eapply read_varint_wide; [right; left; split; reflexivity|exact L].
  - eapply read_varint_wide; [right; right; split; reflexivity|exact L].
Qed.

Lemma varint_roundtrip n rest : 0 <= n < 2 ^ 64 -> read_varint (encode_varint n ++ rest) = (Ok n, rest).
Proof. intros H. apply compact_size_read, varint_spec, H. Qed.

Lemma varint_overflow n rest : 2 ^ 64 <= n -> read_varint (encode_varint n ++ rest) = (Ok (n mod 2 ^ 64), rest).
Proof.
  intros H. unfold encode_varint.
  replace (n <? 253) with false by lia. replace (n <=? 65535) with false by lia.
  replace (n <=? 4294967295) with false by lia. cbn [app].
  erewrite read_varint_wide; [|right; right; split; reflexivity|apply encode_int_length].
  rewrite encode_int_fixed_le, le_val_le_bytes by lia. reflexivity.
Qed.

Lemma compact_size_unique n l l' : compact_size n l -> compact_size n l' -> l = l'.
Proof.
  unfold compact_size.
  intros [(H & b & -> & E)|[(H & d & -> & L & E)|[(H & d & -> & L & E)|(H & d & -> & L & E)]]]
         [(H' & b' & -> & E')|[(H' & d' & -> & L' & E')|[(H' & d' & -> & L' & E')|(H' & d' & -> & L' & E')]]];
    try lia.
  - f_equal. apply bZ_inj. lia.
  - f_equal. apply le_val_inj; congruence.
  - f_equal. apply le_val_inj; congruence.
  - f_equal. apply le_val_inj; congruence.
Qed.

(** ** Hex *)

Lemma hex_digit_props z : 0 <= z < 16 ->
  hex_value (hex_digit z) = Some z.
Proof.
  intros H.
  assert (z = 0 \/ z = 1 \/ z = 2 \/ z = 3 \/ z = 4 \/ z = 5 \/ z = 6 \/ z = 7 \/ z = 8 \/ z = 9
          \/ z = 10 \/ z = 11 \/ z = 12 \/ z = 13 \/ z = 14 \/ z = 15) as C by lia.
  repeat (destruct C as [->|C]; [reflexivity|]). subst; reflexivity.
Qed.

Lemma hex_value_spec c : (is_hex c <-> hex_value c <> None) /\
  (forall z, hex_value c = Some z -> 0 <= z < 16 /\ hex_digit z = lower c).
Proof.
  split.
  - unfold is_hex, hex_value. cbv zeta.
    destruct ((48 <=? bZ c) && (bZ c <=? 57)) eqn:E1; [split; [congruence|lia]|].
    destruct ((97 <=? bZ c) && (bZ c <=? 102)) eqn:E2; [split; [congruence|lia]|].
    destruct ((65 <=? bZ c) && (bZ c <=? 70)) eqn:E3; [split; [congruence|lia]|].
    split; [lia|congruence].
  - intros z H. assert (B : 0 <= z < 16).
    { revert H. unfold hex_value. cbv zeta.
      destruct ((48 <=? bZ c) && (bZ c <=? 57)) eqn:E1; [intros X; injection X as <-; lia|].
      destruct ((97 <=? bZ c) && (bZ c <=? 102)) eqn:E2; [intros X; injection X as <-; lia|].
      destruct ((65 <=? bZ c) && (bZ c <=? 70)) eqn:E3; [intros X; injection X as <-; lia|discriminate]. }
    split; [exact B|]. revert z H B. destruct c; cbn; intros z H _; try discriminate; injection H as <-; reflexivity.
Qed.

Lemma decode_encode_hex b : decode_hex (encode_hex b) = Ok b.
Proof.
  unfold decode_hex. assert (H : unhex_loop (encode_hex b) = Some b).
  { induction b as [|x b IH]; [reflexivity|]. cbn [encode_hex unhex_loop].
    pose proof (bZ_range x).
    rewrite !hex_digit_props by lia. rewrite IH. do 2 f_equal.
    rewrite <- (Zb_bZ x) at 3. f_equal. lia. }
  rewrite H. reflexivity.
Qed.

Lemma list_ind2 {A} (P : list A -> Prop) : P [] -> (forall a, P [a]) ->
  (forall a b l, P l -> P (a :: b :: l)) -> forall l, P l.
Proof.
  intros H0 H1 H2. assert (G : forall l, P l /\ forall a, P (a :: l)).
  { induction l as [|x l [IH1 IH2]]; split; auto. }
  intros l. apply G.
Qed.

Lemma unhex_spec s : match unhex_loop s with
  | Some b => Nat.Even (length s) /\ Forall is_hex s /\ encode_hex b = map lower s
  | None => ~ (Nat.Even (length s) /\ Forall is_hex s)
  end.
Proof.
  induction s as [|a|a b s IH] using list_ind2; cbn [unhex_loop].
  - repeat split; [exists O; reflexivity|constructor].
  - intros [[k E] _]. cbn in E. lia.
  - destruct (hex_value_spec a) as [Ha1 Ha2]. destruct (hex_value_spec b) as [Hb1 Hb2].
    destruct (hex_value a) as [x|] eqn:Ea;
      [|intros [_ F]; inversion F; subst; tauto].
    destruct (hex_value b) as [y|] eqn:Eb;
      [|intros [_ F]; inversion F as [|? ? ? F']; subst; inversion F'; subst; tauto].
    destruct (Ha2 x eq_refl) as [Bx Lx]. destruct (Hb2 y eq_refl) as [By Ly].
    destruct (unhex_loop s) as [t|].
    + destruct IH as ([k Ek] & F & M). split; [exists (S k); cbn [length]; lia|]. split.
      * constructor; [apply Ha1; discriminate|]. constructor; [apply Hb1; discriminate|exact F].
      * cbn [encode_hex map]. rewrite M, bZ_Zb by lia. rewrite <- Lx, <- Ly.
        f_equal; [f_equal; lia|]. f_equal. f_equal; lia.
    + intros [[k Ek] F]. apply IH. split; [exists (k - 1)%nat; cbn [length] in Ek; lia|].
      inversion F as [|? ? ? F']; subst. inversion F'; subst. assumption.
Qed.

(** ** Base 58 *)

(** Base-agnostic digit strings (most significant first). *)
Definition dval (base : Z) (ds : list Z) : Z := fold_left (fun a d => a * base + d) ds 0.

Lemma dval_snoc base ds d : dval base (ds ++ [d]) = dval base ds * base + d.
Proof. unfold dval. rewrite fold_left_app. reflexivity. Qed.

Fixpoint lead0 (ds : list Z) : nat :=
  match ds with d :: r => if d =? 0 then S (lead0 r) else O | [] => O end.

Lemma to_long_loop_gen base lookup s : forall v p,
  2 <= base -> 0 <= v -> (forall c d, lookup c = Some d -> 0 <= d < base) ->
  (forall c, In c s -> lookup c <> None) ->
  exists ds, map lookup s = map Some ds /\ Forall (fun d => 0 <= d < base) ds /\
    to_long_loop base lookup s v p
    = Some (fold_left (fun a d => a * base + d) ds v,
            p + if v =? 0 then Z.of_nat (lead0 ds) else 0).
Proof.
  intros v p Hb. revert v p. induction s as [|c s IH]; intros v p Hv Hl Hs.
  - exists []. split; [reflexivity|]. split; [constructor|]. cbn. destruct (v =? 0); do 2 f_equal; lia.
  - destruct (lookup c) as [d|] eqn:E; [|exfalso; apply (Hs c); [left|]; auto].
    pose proof (Hl c d E) as Hd.
    destruct (IH (v * base + d) (if v * base + d =? 0 then p + 1 else p)) as (ds & M & F & R); [nia|exact Hl|intros; apply Hs; right; auto|].
    exists (d :: ds). cbn [map]. rewrite E, M. split; [reflexivity|]. split; [constructor; auto|].
    cbn [to_long_loop]. rewrite E. rewrite R. cbn [fold_left lead0]. f_equal. f_equal.
    destruct (v =? 0) eqn:Ev.
    + replace v with 0 by lia. rewrite Z.mul_0_l, Z.add_0_l. destruct (d =? 0) eqn:Ed; lia.
    + replace (v * base + d =? 0) with false by nia. lia.
Qed.

Lemma to_long_loop_none base lookup s : forall v p c, In c s -> lookup c = None -> to_long_loop base lookup s v p = None.
Proof.
  induction s as [|x s IH]; intros v p c HI E; [destruct HI|]; cbn [to_long_loop]; destruct HI as [->|H].
  - rewrite E. reflexivity.
  - destruct (lookup x); [eapply IH; eauto|reflexivity].
Qed.

Lemma log2_div base v : 2 <= base -> base <= v -> Z.log2 (v / base) < Z.log2 v.
Proof.
  intros Hb Hv.
  assert (H : v / base <= v / 2) by (apply Z.div_le_compat_l; lia).
  pose proof (Z.log2_le_mono _ _ H).
  change (v / 2) with (v / 2 ^ 1) in *. rewrite <- Z.shiftr_div_pow2 in * by lia.
  rewrite Z.log2_shiftr in * by lia. pose proof (Z.log2_le_mono 2 v ltac:(lia)). change (Z.log2 2) with 1 in *. lia.
Qed.

(** Little-endian digits of [v]. *)
Lemma from_long_loop_f_stable base cs f1 : forall f2 v, 2 <= base ->
  (Z.to_nat (Z.log2 v) < f1)%nat -> (Z.to_nat (Z.log2 v) < f2)%nat ->
  from_long_loop_f f1 v base cs = from_long_loop_f f2 v base cs.
Proof.
  induction f1 as [|f1 IH]; intros f2 v Hb H1 H2; [lia|].
  destruct f2 as [|f2]; [lia|]. cbn [from_long_loop_f].
  destruct (v >? 0) eqn:E; [|reflexivity].
  destruct (Z.lt_ge_cases v base) as [L|L].
  - rewrite Z.div_small by lia. destruct f1, f2; reflexivity.
  - pose proof (log2_div base v Hb L). pose proof (Z.log2_nonneg (v / base)). rewrite (IH f2) by lia. reflexivity.
Qed.

Lemma from_long_loop_unfold base cs v : 2 <= base -> 0 < v ->
  from_long_loop v base cs =
  match cs (v mod base), from_long_loop (v / base) base cs with Some c, Some r => Some (c :: r) | _, _ => None end.
Proof.
  intros Hb H. unfold from_long_loop at 1. cbn [from_long_loop_f]. replace (v >? 0) with true by lia.
  assert (E : from_long_loop_f (Z.to_nat (Z.log2 v)) (v / base) base cs = from_long_loop (v / base) base cs).
  { destruct (Z.lt_ge_cases v base) as [L|L].
    - rewrite Z.div_small by lia. destruct (Z.to_nat (Z.log2 v)); reflexivity.
    - pose proof (log2_div base v Hb L). pose proof (Z.log2_nonneg (v / base)). apply from_long_loop_f_stable; lia. }
  rewrite E. reflexivity.
Qed.

Lemma from_long_loop_zero base cs v : v <= 0 -> from_long_loop v base cs = Some [].
Proof. intros H. unfold from_long_loop. cbn [from_long_loop_f]. replace (v >? 0) with false by lia. reflexivity. Qed.

(** Digits after the leading zeros. *)
Definition strip (ds : list Z) : list Z := skipn (lead0 ds) ds.

Lemma strip_lead ds : repeat 0 (lead0 ds) ++ strip ds = ds.
Proof.
  unfold strip. induction ds as [|d ds IH]; [reflexivity|]. cbn [lead0].
  destruct (d =? 0) eqn:E; [|reflexivity]. cbn [repeat skipn app]. rewrite IH. f_equal. lia.
Qed.

Lemma lead0_strip ds : lead0 (strip ds) = O.
Proof.
  unfold strip. induction ds as [|d ds IH]; [reflexivity|]. cbn [lead0].
  destruct (d =? 0) eqn:E; [exact IH|]. cbn [skipn lead0]. rewrite E. reflexivity.
Qed.

Lemma lead0_repeat_app k ds : lead0 ds = O -> lead0 (repeat 0 k ++ ds) = k.
Proof. intros H. induction k as [|k IH]; [exact H|]. cbn. rewrite IH. reflexivity. Qed.

Lemma dval_zeros base k ds : dval base (repeat 0 k ++ ds) = dval base ds.
Proof. unfold dval. rewrite fold_left_app. f_equal. induction k as [|k IH]; [reflexivity|exact IH]. Qed.

Lemma dval_strip base ds : dval base (strip ds) = dval base ds.
Proof. rewrite <- (strip_lead ds) at 2. rewrite dval_zeros. reflexivity. Qed.

Lemma dval_pos base ds : 2 <= base -> Forall (fun d => 0 <= d < base) ds -> lead0 ds = O -> ds <> [] -> 0 < dval base ds.
Proof.
  intros Hb F H0 Hne. destruct ds as [|d ds]; [congruence|]. cbn [lead0] in H0.
  destruct (d =? 0) eqn:E; [discriminate|]. inversion F as [|? ? Hd F']; subst.
  unfold dval. cbn [fold_left]. rewrite Z.mul_0_l, Z.add_0_l.
  assert (G : forall ds v, Forall (fun d => 0 <= d < base) ds -> 0 < v -> 0 < fold_left (fun a d => a * base + d) ds v).
  { clear - Hb. induction ds as [|x ds IH]; intros v F Hv; cbn [fold_left]; [exact Hv|].
    inversion F; subst. apply IH; [assumption|nia]. }
  apply G; [exact F'|lia].
Qed.

Lemma from_long_loop_digits base cs (g : Z -> byte) ds : 2 <= base ->
  (forall d, 0 <= d < base -> cs d = Some (g d)) ->
  Forall (fun d => 0 <= d < base) ds -> lead0 ds = O ->
  from_long_loop (dval base ds) base cs = Some (map g (rev ds)).
Proof.
  intros Hb Hg. induction ds as [|d ds IH] using rev_ind; intros F H0.
  - rewrite from_long_loop_zero by (cbn; lia). reflexivity.
  - apply Forall_app in F as [F Fd]. inversion Fd as [|? ? Hd _]; subst.
    assert (P : 0 < dval base (ds ++ [d])).
    { apply dval_pos; auto; [apply Forall_app; auto|destruct ds; discriminate]. }
    rewrite from_long_loop_unfold by lia. rewrite dval_snoc in *.
    assert (M : (dval base ds * base + d) mod base = d)
      by (rewrite Z.add_comm, Z.mod_add, Z.mod_small; lia).
    assert (D : (dval base ds * base + d) / base = dval base ds)
      by (rewrite Z.add_comm, Z.div_add, Z.div_small; lia).
    rewrite M, D, Hg by exact Hd.
    assert (H0' : lead0 ds = O).
    { destruct ds as [|x ds']; [reflexivity|]. cbn [lead0 app] in *. destruct (x =? 0); [discriminate|reflexivity]. }
    rewrite IH by auto. rewrite rev_app_distr. reflexivity.
Qed.

(** The digit string [v] in base [base], most significant first, no leading zero. *)
Lemma digits_exist base v : 2 <= base -> 0 <= v ->
  exists ds, dval base ds = v /\ Forall (fun d => 0 <= d < base) ds /\ lead0 ds = O.
Proof.
  intros Hb. revert v.
  refine (well_founded_ind (Z.lt_wf 0) (fun v => 0 <= v -> exists ds, dval base ds = v /\
    Forall (fun d => 0 <= d < base) ds /\ lead0 ds = O) _). intros v IH H.
  destruct (Z.eq_dec v 0) as [->|Hv]; [exists []; repeat split; constructor|].
  assert (Q : 0 <= v / base < v) by (split; [apply Z.div_pos|apply Z.div_lt]; lia).
  destruct (IH (v / base) Q) as (ds & E & F & L); [lia|].
  pose proof (Z.mod_pos_bound v base ltac:(lia)) as R.
  exists (ds ++ [v mod base]). rewrite dval_snoc, E. split; [rewrite (Z.div_mod v base) at 3 by lia; ring|].
  split; [apply Forall_app; split; [exact F|constructor; auto]|].
  destruct ds as [|d ds]; cbn [app lead0] in *.
  - cbn in E. rewrite (Z.div_mod v base) in Hv by lia.
    destruct (v mod base =? 0) eqn:X; [exfalso; nia|reflexivity].
  - destruct (d =? 0); [discriminate|reflexivity].
Qed.

Lemma dval_inj base a b : 2 <= base ->
  Forall (fun d => 0 <= d < base) a -> Forall (fun d => 0 <= d < base) b ->
  lead0 a = O -> lead0 b = O -> dval base a = dval base b -> a = b.
Proof.
  intros Hb. revert b. induction a as [|d a IH] using rev_ind; intros b Fa Fb La Lb E.
  - destruct b as [|x b]; [reflexivity|exfalso].
    pose proof (dval_pos base (x :: b) Hb Fb Lb ltac:(discriminate)). change (dval base []) with 0 in E. lia.
  - destruct b as [|x b _] using rev_ind.
    { exfalso. pose proof (dval_pos base (a ++ [d]) Hb Fa La ltac:(destruct a; discriminate)). change (dval base []) with 0 in E. lia. }
    rewrite !dval_snoc in E. apply Forall_app in Fa as [Fa Fd]. apply Forall_app in Fb as [Fb Fx].
    inversion Fd as [|? ? Hd _]; subst. inversion Fx as [|? ? Hx _]; subst.
    assert (d = x /\ dval base a = dval base b) as [-> E'].
    { assert (M : (dval base a * base + d) mod base = (dval base b * base + x) mod base) by (rewrite E; reflexivity).
      rewrite !(Z.add_comm (_ * base)), !Z.mod_add, !Z.mod_small in M by lia. split; [exact M|nia]. }
    f_equal. apply IH; auto.
    + destruct a as [|y a']; [reflexivity|]. cbn [lead0 app] in *. destruct (y =? 0); [discriminate|reflexivity].
    + destruct b as [|y b']; [reflexivity|]. cbn [lead0 app] in *. destruct (y =? 0); [discriminate|reflexivity].
Qed.

(** Digit strings of bytes and of base-58 text. *)
Lemma be_val_dval l : be_val l = dval 256 (map bZ l).
Proof.
  induction l as [|b l IH] using rev_ind; [reflexivity|].
  rewrite be_val_snoc, map_app. cbn [map]. rewrite dval_snoc, IH. ring.
Qed.

Lemma map_bZ_range l : Forall (fun d => 0 <= d < 256) (map bZ l).
Proof. induction l; constructor; [apply bZ_range|assumption]. Qed.

Lemma lead0_map_bZ l : lead0 (map bZ l) = leading x00 l.
Proof.
  induction l as [|b l IH]; [reflexivity|]. cbn [map lead0 leading].
  destruct (byte_eqb b x00) eqn:E.
  - apply byte_eqb_eq in E; subst. change (bZ x00 =? 0) with true. cbn iota. rewrite IH. reflexivity.
  - apply byte_eqb_neq in E. destruct (bZ b =? 0) eqn:X; [|reflexivity].
    exfalso. apply E, bZ_inj. change (bZ x00) with 0. lia.
Qed.

Lemma rank58_lookup c : base58_lookup c = rank58 c.
Proof. destruct c; reflexivity. Qed.

Definition char58 (v : Z) : byte := nth (Z.to_nat v) base58_alphabet x00.

Lemma all58 : forallb (fun z => match base58_char z with
    | Some c => byte_eqb c (char58 z) && match rank58 c with Some r => r =? z | None => false end
    | None => false end) (map Z.of_nat (seq 0 58)) = true.
Proof. vm_compute. reflexivity. Qed.

Lemma char58_props z : 0 <= z < 58 -> base58_char z = Some (char58 z) /\ rank58 (char58 z) = Some z.
Proof.
  intros H. pose proof all58 as A. rewrite forallb_forall in A.
  specialize (A z). rewrite in_map_iff in A.
  assert (I : exists x, Z.of_nat x = z /\ In x (seq 0 58)).
  { exists (Z.to_nat z). split; [lia|]. apply in_seq. lia. }
  specialize (A I). destruct (base58_char z) as [c|]; [|discriminate].
  apply andb_true_iff in A as [A1 A2]. apply byte_eqb_eq in A1. subst.
  destruct (rank58 (char58 z)) as [r|]; [|discriminate]. split; [reflexivity|]. f_equal. lia.
Qed.

Lemma rank58_props c z : rank58 c = Some z -> 0 <= z < 58 /\ char58 z = c.
Proof.
  destruct c; cbv [rank58]; match goal with |- context[bZ ?x] => let v := eval vm_compute in (bZ x) in change (bZ x) with v end;
    cbn; intros H; try discriminate; injection H as <-; (split; [lia|reflexivity]).
Qed.

Lemma rank58_inj a b z : rank58 a = Some z -> rank58 b = Some z -> a = b.
Proof. intros Ha Hb. apply rank58_props in Ha as [_ <-]. apply rank58_props in Hb as [_ <-]. reflexivity. Qed.

Lemma val58_map t v : val58 t v <-> exists ds, map rank58 t = map Some ds /\ dval 58 ds = v.
Proof.
  split.
  - intros H. induction H as [|t v c d H (ds & M & E) Hc]; [exists []; auto|].
    exists (ds ++ [d]). rewrite !map_app. cbn [map]. rewrite M, Hc, dval_snoc, E. split; [reflexivity|ring].
  - revert v. induction t as [|c t IH] using rev_ind; intros v (ds & M & E).
    + destruct ds; [|discriminate]. cbn in E. subst. constructor.
    + destruct ds as [|d ds _] using rev_ind; [rewrite map_app in M; destruct t; discriminate|].
      rewrite !map_app in M. cbn [map] in M. apply app_inj_tail in M as [M Mc].
      rewrite dval_snoc in E. subst v. rewrite Z.mul_comm. constructor; [|exact Mc].
      apply IH. exists ds. auto.
Qed.

Lemma map_rank_range t ds : map rank58 t = map Some ds -> Forall (fun d => 0 <= d < 58) ds /\ map char58 ds = t.
Proof.
  revert ds; induction t as [|c t IH]; intros [|d ds] M; cbn [map] in *; try discriminate; [split; constructor|].
  injection M as Hc M. destruct (IH ds M) as [F E]. destruct (rank58_props c d Hc) as [B C].
  split; [constructor; auto|]. rewrite E, C. reflexivity.
Qed.

Lemma rank_map_char ds : Forall (fun d => 0 <= d < 58) ds -> map rank58 (map char58 ds) = map Some ds.
Proof.
  induction 1 as [|d ds Hd F IH]; [reflexivity|]. cbn [map]. rewrite IH.
  rewrite (proj2 (char58_props d Hd)). reflexivity.
Qed.

Lemma leading_map_char ds : Forall (fun d => 0 <= d < 58) ds -> leading x31 (map char58 ds) = lead0 ds.
Proof.
  induction 1 as [|d ds Hd F IH]; [reflexivity|]. cbn [map leading lead0].
  destruct (d =? 0) eqn:E.
  - replace d with 0 by lia. change (byte_eqb (char58 0) x31) with true. cbn iota. rewrite IH. reflexivity.
  - destruct (byte_eqb (char58 d) x31) eqn:X; [|reflexivity].
    apply byte_eqb_eq in X. pose proof (proj2 (char58_props d Hd)) as R. rewrite X in R.
    change (rank58 x31) with (Some 0) in R. injection R as R. lia.
Qed.

Lemma map_Some_inj {A} (a b : list A) : map Some a = map Some b -> a = b.
Proof.
  revert b; induction a as [|x a IH]; intros [|y b] H; cbn in H; try discriminate; auto.
  injection H as -> H. f_equal. auto.
Qed.

Lemma map_repeat_z (g : Z -> byte) k : map g (repeat 0 k) = repeat (g 0) k.
Proof. induction k as [|k IH]; [reflexivity|]. cbn. rewrite IH. reflexivity. Qed.

Lemma to_long_ok base lookup s ds : 2 <= base -> (forall c d, lookup c = Some d -> 0 <= d < base) ->
  map lookup s = map Some ds -> to_long base lookup s = Ok (dval base ds, Z.of_nat (lead0 ds)).
Proof.
  intros Hb Hl M. unfold to_long.
  destruct (to_long_loop_gen base lookup s 0 0) as (ds' & M' & F & R); try lia; auto.
  { intros c Hc E. apply (in_map lookup) in Hc. rewrite M, E in Hc. apply in_map_iff in Hc as (x & X & _). discriminate. }
  rewrite M in M'. apply map_Some_inj in M'. subst ds'. rewrite R. reflexivity.
Qed.

Lemma from_long_ok base cs (g : Z -> byte) ds : 2 <= base ->
  (forall d, 0 <= d < base -> cs d = Some (g d)) -> Forall (fun d => 0 <= d < base) ds ->
  from_long (dval base ds) (Z.of_nat (lead0 ds)) base cs = Ok (map g (repeat 0 (lead0 ds) ++ strip ds)).
Proof.
  intros Hb Hg F. unfold from_long. rewrite <- dval_strip.
  rewrite (from_long_loop_digits base cs g); auto; [|rewrite <- (strip_lead ds) in F; apply Forall_app in F; tauto|apply lead0_strip].
  rewrite Hg by lia. rewrite Nat2Z.id. rewrite rev_app_distr, map_app, map_rev, rev_involutive. do 2 f_equal.
  rewrite map_repeat_z. clear. induction (lead0 ds) as [|k IH]; [reflexivity|].
  cbn [repeat rev]. rewrite IH. change [g 0] with (repeat (g 0) 1). rewrite <- repeat_app.
  replace (k + 1)%nat with (S k) by lia. reflexivity.
Qed.

Lemma from_long_pv base cs (g : Z -> byte) v k : 2 <= base -> 0 <= v ->
  (forall d, 0 <= d < base -> cs d = Some (g d)) ->
  exists ds, dval base ds = v /\ Forall (fun d => 0 <= d < base) ds /\ lead0 ds = k /\
    from_long v (Z.of_nat k) base cs = Ok (map g ds).
Proof.
  intros Hb Hv Hg. destruct (digits_exist base v Hb Hv) as (es & E & F & L).
  exists (repeat 0 k ++ es).
  assert (F' : Forall (fun d => 0 <= d < base) (repeat 0 k ++ es)).
  { apply Forall_app; split; [|exact F]. clear - Hb. induction k; constructor; [lia|assumption]. }
  assert (L' : lead0 (repeat 0 k ++ es) = k) by (apply lead0_repeat_app, L).
  assert (E' : dval base (repeat 0 k ++ es) = v) by (rewrite dval_zeros; exact E).
  split; [exact E'|]. split; [exact F'|]. split; [exact L'|].
  rewrite <- E' at 1. rewrite <- L' at 2. rewrite (from_long_ok base cs g); auto. rewrite strip_lead. reflexivity.
Qed.

Lemma charset256_ok d : 0 <= d < 256 -> charset256 d = Some (Zb d).
Proof. intros H. unfold charset256. replace ((0 <=? d) && (d <? 256)) with true by lia. reflexivity. Qed.
Lemma base58_char_ok d : 0 <= d < base58_base -> base58_char d = Some (char58 d).
Proof. intros H. change base58_base with 58 in H. apply char58_props, H. Qed.

Lemma map_Zb_bZ l : map Zb (map bZ l) = l.
Proof. induction l as [|b l IH]; [reflexivity|]. cbn. rewrite IH, Zb_bZ. reflexivity. Qed.
Lemma map_bZ_Zb ds : Forall (fun d => 0 <= d < 256) ds -> map bZ (map Zb ds) = ds.
Proof. induction 1 as [|d ds Hd F IH]; [reflexivity|]. cbn. rewrite IH, bZ_Zb by exact Hd. reflexivity. Qed.

Lemma ord_str_map l : map (ord_of (Str l)) l = map Some (map bZ l).
Proof. cbn. induction l as [|b l IH]; [reflexivity|]. cbn. rewrite IH. reflexivity. Qed.

Lemma to_long_str l : to_long 256 (ord_of (Str l)) l = Ok (be_val l, Z.of_nat (leading x00 l)).
Proof.
  rewrite (to_long_ok 256 _ l (map bZ l)); [rewrite be_val_dval, lead0_map_bZ; reflexivity|lia| |apply ord_str_map].
  cbn. intros c d X. injection X as <-. apply bZ_range.
Qed.

Lemma b2a_base58_spec b : exists t, b2a_base58 (Str b) = Ok t /\ base58_of b t.
Proof.
  unfold b2a_base58. cbn [pyb_bytes]. rewrite to_long_str. cbn [bind fst snd].
  change base58_base with 58.
  destruct (from_long_pv 58 base58_char char58 (be_val b) (leading x00 b)) as (ds & E & F & L & R);
    [lia|apply be_val_bound|apply base58_char_ok|].
  rewrite R. eexists; split; [reflexivity|]. split.
  - apply val58_map. exists ds. split; [apply rank_map_char, F|exact E].
  - rewrite leading_map_char by exact F. exact L.
Qed.

Lemma base58_of_a2b b t : base58_of b t -> a2b_base58 t = Ok b.
Proof.
  intros [V L]. apply val58_map in V as (ds & M & E).
  destruct (map_rank_range t ds M) as [F C].
  unfold a2b_base58. change base58_base with 58.
  rewrite (to_long_ok 58 base58_lookup t ds); [|lia| |].
  2:{ intros c d. rewrite rank58_lookup. apply rank58_props. }
  2:{ rewrite <- M. apply map_ext. intros; apply rank58_lookup. }
  cbn [bind fst snd]. rewrite <- C, leading_map_char in L by exact F.
  destruct (from_long_pv 256 charset256 Zb (dval 58 ds) (lead0 ds)) as (es & E' & F' & L' & R);
    [lia|rewrite E; apply be_val_bound|apply charset256_ok|].
  rewrite R. f_equal. rewrite <- (map_Zb_bZ b). f_equal.
  rewrite <- (strip_lead es), <- (strip_lead (map bZ b)).
  rewrite L', lead0_map_bZ, L. f_equal.
  apply (dval_inj 256); try lia.
  - rewrite <- (strip_lead es) in F'. apply Forall_app in F'. tauto.
  - pose proof (map_bZ_range b) as G. rewrite <- (strip_lead (map bZ b)) in G. apply Forall_app in G. tauto.
  - apply lead0_strip.
  - apply lead0_strip.
  - rewrite !dval_strip, E', E. apply be_val_dval.
Qed.

Lemma base58_of_unique_text b t t' : base58_of b t -> base58_of b t' -> t = t'.
Proof.
  intros [V L] [V' L']. apply val58_map in V as (ds & M & E). apply val58_map in V' as (ds' & M' & E').
  destruct (map_rank_range t ds M) as [F C]. destruct (map_rank_range t' ds' M') as [F' C'].
  rewrite <- C, leading_map_char in L by exact F. rewrite <- C', leading_map_char in L' by exact F'.
  rewrite <- C, <- C'. f_equal. rewrite <- (strip_lead ds), <- (strip_lead ds'). rewrite L, L'. f_equal.
  apply (dval_inj 58); try lia; try apply lead0_strip.
  - rewrite <- (strip_lead ds) in F. apply Forall_app in F. tauto.
  - rewrite <- (strip_lead ds') in F'. apply Forall_app in F'. tauto.
  - rewrite !dval_strip, E, E'. reflexivity.
Qed.

Lemma base58_roundtrip b : exists t, b2a_base58 (Str b) = Ok t /\ a2b_base58 t = Ok b.
Proof.
  destruct (b2a_base58_spec b) as (t & E & S). exists t. split; [exact E|]. apply base58_of_a2b, S.
Qed.

Lemma in58_dec c : {in58 c} + {~ in58 c}.
Proof. unfold in58. destruct (rank58 c); [left; discriminate|right; congruence]. Qed.

Lemma in58_ds t : Forall in58 t -> exists ds, map rank58 t = map Some ds.
Proof.
  induction 1 as [|c t Hc F (ds & M)]; [exists []; reflexivity|].
  unfold in58 in Hc. destruct (rank58 c) as [d|] eqn:E; [|congruence].
  exists (d :: ds). cbn. rewrite E, M. reflexivity.
Qed.

Lemma a2b_base58_ok t : Forall in58 t -> exists b, a2b_base58 t = Ok b /\ base58_of b t.
Proof.
  intros H. destruct (in58_ds t H) as (ds & M). destruct (map_rank_range t ds M) as [F C].
  assert (N : 0 <= dval 58 ds).
  { clear - F. induction ds as [|d ds IH] using rev_ind; [cbn; lia|].
    apply Forall_app in F as [F Fd]. inversion Fd; subst. rewrite dval_snoc. specialize (IH F). lia. }
  destruct (from_long_pv 256 charset256 Zb (dval 58 ds) (lead0 ds)) as (es & E' & F' & L' & R);
    [lia|exact N|apply charset256_ok|].
  assert (S : base58_of (map Zb es) t).
  { split.
    - apply val58_map. exists ds. split; [exact M|]. rewrite be_val_dval, map_bZ_Zb by exact F'. congruence.
    - rewrite <- C, leading_map_char by exact F. rewrite <- lead0_map_bZ, map_bZ_Zb by exact F'. congruence. }
  exists (map Zb es). split; [apply base58_of_a2b, S|exact S].
Qed.

Lemma val58_in58 t v : val58 t v -> Forall in58 t.
Proof.
  induction 1 as [|t v c d H IH Hc]; [constructor|]. apply Forall_app. split; [exact IH|].
  constructor; [unfold in58; congruence|constructor].
Qed.

Lemma a2b_base58_fail t : ~ Forall in58 t ->
  a2b_base58 t = Err (if all_ascii t then E_UtilsEncodingError else E_UnicodeDecodeError).
Proof.
  intros H. assert (X : exists c, In c t /\ rank58 c = None).
  { induction t as [|c t IH]; [exfalso; apply H; constructor|].
    destruct (rank58 c) as [d|] eqn:E.
    - destruct IH as (c' & I & N).
      + intros F. apply H. constructor; [unfold in58; congruence|exact F].
      + exists c'. split; [right; exact I|exact N].
    - exists c. split; [left; reflexivity|exact E]. }
  destruct X as (c & I & N). unfold a2b_base58, to_long.
  rewrite (to_long_loop_none _ _ t 0 0 c I) by (rewrite rank58_lookup; exact N). reflexivity.
Qed.

Lemma a2b_base58_canonical t b : a2b_base58 t = Ok b -> b2a_base58 (Str b) = Ok t.
Proof.
  intros H.
  assert (D : Forall in58 t).
  { destruct (Forall_dec in58 in58_dec t) as [F|F]; [exact F|].
    rewrite a2b_base58_fail in H by exact F. discriminate. }
  destruct (a2b_base58_ok t D) as (b' & E & S). rewrite H in E. injection E as <-.
  destruct (b2a_base58_spec b) as (t' & E' & S'). rewrite E'. f_equal. eapply base58_of_unique_text; eauto.
Qed.

Lemma a2b_base58_ok_iff t : (exists b, a2b_base58 t = Ok b) <-> Forall in58 t.
Proof.
  split.
  - intros [b H]. apply a2b_base58_canonical in H. destruct (b2a_base58_spec b) as (t' & E & V & _).
    rewrite H in E. injection E as <-. eapply val58_in58, V.
  - intros F. destruct (a2b_base58_ok t F) as (b & E & _). exists b; exact E.
Qed.

(** ** Base58check *)

Definition checksum (b : bytes) : bytes := firstn 4 (double_sha256 b).
Lemma checksum_length b : length (checksum b) = 4%nat.
Proof. unfold checksum. rewrite firstn_length, double_sha256_length. reflexivity. Qed.

Lemma base58h_roundtrip b : exists t, encode_base58h (Str b) = Ok t /\ decode_base58h t = Ok b.
Proof.
  unfold encode_base58h, b2a_hashed_base58. cbn [pyb_bytes]. fold (checksum b).
  destruct (base58_roundtrip (b ++ checksum b)) as (t & E & D). exists t. split; [exact E|].
  unfold decode_base58h, a2b_hashed_base58. rewrite D. cbn [bind]. cbv zeta.
  rewrite (drop_last_app b (checksum b)), (last_n_app b (checksum b)) by apply checksum_length.
  fold (checksum b). rewrite bytes_eqb_refl. reflexivity.
Qed.

Lemma decode_base58h_canonical t b : decode_base58h t = Ok b -> encode_base58h (Str b) = Ok t.
Proof.
  unfold decode_base58h, recatch. destruct (a2b_hashed_base58 t) as [p|e] eqn:E; [|destruct (is_utils_encoding e); discriminate].
  intros X. injection X as ->. unfold a2b_hashed_base58 in E. apply bind_ok in E as (d & E1 & E2). cbv zeta in E2.
  destruct (bytes_eqb _ _) eqn:C; [|discriminate]. injection E2 as <-. apply bytes_eqb_eq in C.
  unfold encode_base58h, b2a_hashed_base58. cbn [pyb_bytes]. rewrite C, drop_last_last_n.
  apply a2b_base58_canonical, E1.
Qed.

Lemma decode_base58h_iff t b : decode_base58h t = Ok b <-> encode_base58h (Str b) = Ok t.
Proof.
  split; [apply decode_base58h_canonical|]. intros H.
  destruct (base58h_roundtrip b) as (t' & E & D). rewrite H in E. injection E as <-. exact D.
Qed.

Lemma decode_base58h_err t e : decode_base58h t = Err e ->
  e = (if all_ascii t then E_InvalidBase58h else E_UnicodeDecodeError).
Proof.
  unfold decode_base58h, a2b_hashed_base58.
  destruct (Forall_dec in58 in58_dec t) as [F|F].
  - destruct (a2b_base58_ok t F) as (b & E & _). rewrite E. cbn [bind]. cbv zeta.
    assert (A : all_ascii t = true).
    { apply forallb_forall. intros c Hc. rewrite Forall_forall in F. specialize (F c Hc).
      unfold in58 in F. destruct c; try reflexivity; exfalso; apply F; reflexivity. }
    rewrite A. destruct (bytes_eqb _ _); cbn; [discriminate|]. intros X; injection X as <-; reflexivity.
  - rewrite a2b_base58_fail by exact F. destruct (all_ascii t); cbn; intros X; injection X as <-; reflexivity.
Qed.

(** A bytearray cannot be base58-encoded (unless empty): [ord] of an int. *)
Lemma b2a_base58_ba b : b <> [] ->
  b2a_base58 (BA b) = Err (if all_ascii b then E_UtilsEncodingError else E_UnicodeDecodeError).
Proof. intros H. destruct b; [congruence|]. reflexivity. Qed.

(** ** to_bytes_32 / from_bytes_32 *)

Lemma to_bytes_32_ok v : 0 <= v < 2 ^ 256 -> to_bytes_32 v = Ok (be_bytes 32 v).
Proof.
  intros H. unfold to_bytes_32.
  destruct (from_long_pv 256 charset256 Zb v 0) as (ds & E & F & L & R); [lia|lia|apply charset256_ok|].
  change 0 with (Z.of_nat 0). rewrite R. cbn [bind].
  assert (B : be_val (map Zb ds) = v) by (rewrite be_val_dval, map_bZ_Zb by exact F; exact E).
  assert (Len : (length (map Zb ds) <= 32)%nat).
  { destruct (Nat.le_gt_cases (length (map Zb ds)) 32) as [G|G]; [exact G|exfalso].
    rewrite <- B in H. clear R E B.
    destruct ds as [|d ds]; [cbn in G; lia|]. cbn [lead0] in L. destruct (d =? 0) eqn:Z0; [discriminate|].
    inversion F as [|? ? Hd F']; subst. cbn [map] in *. rewrite be_val_cons in H.
    rewrite bZ_Zb in H by exact Hd. pose proof (be_val_bound (map Zb ds)).
    assert (256 ^ 32 <= 256 ^ Z.of_nat (length (map Zb ds))) by (apply Z.pow_le_mono_r; cbn [length] in G; lia).
    change (2 ^ 256) with (256 ^ 32) in H. nia. }
  replace (blen (map Zb ds) >? 32) with false by (unfold blen; lia). f_equal.
  apply be_val_inj.
  - rewrite be_bytes_length. apply last_n_length. rewrite app_length, zeros_length. lia.
  - rewrite be_val_be_bytes. change (256 ^ Z.of_nat 32) with (2 ^ 256). rewrite Z.mod_small by lia.
    rewrite <- B. set (m := map Zb ds) in *.
    assert (X : zeros 32 ++ m = zeros (length m) ++ (zeros (32 - length m) ++ m)).
    { rewrite app_assoc. f_equal. unfold zeros. rewrite <- repeat_app. f_equal. lia. }
    rewrite X, last_n_app by (rewrite app_length, zeros_length; lia).
    apply be_val_zeros_app.
Qed.

Lemma from_bytes_32_str l : from_bytes_32 (Str l) = if blen l =? 32 then Ok (be_val l) else Err E_ValueError.
Proof.
  unfold from_bytes_32. cbn [pyb_bytes]. unfold pyb_len. cbn [pyb_bytes]. fold (blen l).
  destruct (blen l =? 32); [|reflexivity]. cbn [negb]. rewrite to_long_str. reflexivity.
Qed.

Lemma from_bytes_32_ba l : exists e, from_bytes_32 (BA l) = Err e /\
  (e = E_ValueError \/ e = E_UtilsEncodingError \/ e = E_UnicodeDecodeError).
Proof.
  unfold from_bytes_32, pyb_len. cbn [pyb_bytes]. fold (blen l).
  destruct (blen l =? 32) eqn:E; cbn [negb]; [|eexists; split; [reflexivity|auto]].
  destruct l as [|b l]; [discriminate|]. unfold to_long. cbn. unfold to_long_error.
  destruct (all_ascii (b :: l)); eexists; (split; [reflexivity|auto]).
Qed.

(** ** wrappers used by the property files *)
Lemma decode_hex_ok s b : decode_hex s = Ok b ->
  Nat.Even (length s) /\ Forall is_hex s /\ encode_hex b = map lower s.
Proof.
  unfold decode_hex. pose proof (unhex_spec s) as U. destruct (unhex_loop s); [|discriminate].
  intros X. injection X as <-. exact U.
Qed.
Lemma decode_hex_total s : Nat.Even (length s) -> Forall is_hex s -> exists b, decode_hex s = Ok b.
Proof.
  intros E F. unfold decode_hex. pose proof (unhex_spec s) as U. destruct (unhex_loop s); [eauto|tauto].
Qed.
Lemma decode_hex_rejects s : ~ (Nat.Even (length s) /\ Forall is_hex s) -> decode_hex s = Err E_InvalidHex.
Proof.
  intros H. unfold decode_hex. pose proof (unhex_spec s) as U. destruct (unhex_loop s); [tauto|reflexivity].
Qed.
Lemma encode_base58h_text b : exists t, encode_base58h (Str b) = Ok t /\
  base58_of (b ++ firstn 4 (sha256 (sha256 b))) t.
Proof. apply b2a_base58_spec. Qed.
Lemma decode_hex_err s e : decode_hex s = Err e -> e = E_InvalidHex.
Proof. unfold decode_hex. destruct (unhex_loop s); [discriminate|]. congruence. Qed.
