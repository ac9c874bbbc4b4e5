(** Proofs about script numbers. *)
From Verif Require Import Base M_Hash M_Codec S_Codec P_Codec.
Ltac Zify.zify_post_hook ::= Z.div_mod_to_equations.

Lemma land_128 b : Z.land (bZ b) 128 = if bZ b <? 128 then 0 else 128.
Proof. destruct b; reflexivity. Qed.
Lemma land_127 b : Z.land (bZ b) 127 = bZ b mod 128.
Proof. destruct b; reflexivity. Qed.
Lemma lor_128 b : Z.lor (bZ b) 128 = if bZ b <? 128 then bZ b + 128 else bZ b.
Proof. destruct b; reflexivity. Qed.

Lemma byte_at_end_snoc a t : byte_at_end 1 (a ++ [t]) = bZ t.
Proof.
  unfold byte_at_end. rewrite app_length. cbn [length].
  replace (length a + 1 - 1)%nat with (length a) by lia.
  rewrite app_nth2 by lia. rewrite Nat.sub_diag. reflexivity.
Qed.

Lemma byte_at_end_2 a u t : byte_at_end 2 (a ++ [u; t]) = bZ u.
Proof.
  unfold byte_at_end. rewrite app_length. cbn [length].
  replace (length a + 2 - 2)%nat with (length a) by lia.
  rewrite app_nth2 by lia. rewrite Nat.sub_diag. reflexivity.
Qed.

(** magnitude of a number with top byte [t] over the low bytes [a] *)
Definition sm_mag (a : bytes) (t : byte) : Z := le_val a + 256 ^ blen a * (bZ t mod 128).

Lemma sm_val_snoc a t : sm_val (a ++ [t]) = if bZ t <? 128 then sm_mag a t else - sm_mag a t.
Proof.
  unfold sm_val, sm_mag. rewrite rev_app_distr. cbn [rev app]. cbv zeta.
  rewrite rev_involutive, rev_length. fold (blen a). pose proof (bZ_range t).
  destruct (bZ t <? 128) eqn:E.
  - rewrite Z.mod_small by lia. reflexivity.
  - replace (bZ t mod 128) with (bZ t - 128) by lia. reflexivity.
Qed.

Lemma snoc_cases (l : bytes) : l = [] \/ exists a t, l = a ++ [t].
Proof. destruct l as [|t a _] using rev_ind; [left; reflexivity|right; eauto]. Qed.

(** ** decoding without the minimal flag *)

Lemma decode_script_number_snoc a t m size : blen (a ++ [t]) < size ->
  decode_script_number (BA (a ++ [t])) m size =
  if m && (bZ t mod 128 =? 0) && ((blen (a ++ [t]) <=? 1) || (Z.land (byte_at_end 2 (a ++ [t])) 128 =? 0))
  then Err E_InvalidMinimalScriptNumber
  else if bZ t <? 128 then Ok (decode_int (a ++ [t]) false)
  else Ok (decode_int (a ++ encode_int (bZ t mod 128) true None) false * -1).
Proof.
  intros H. unfold decode_script_number. cbn [pyb_bytes].
  replace (blen (a ++ [t]) >=? size) with false by lia.
  cbv zeta. rewrite byte_at_end_snoc, land_128, land_127.
  rewrite (drop_last_app a [t]) by reflexivity.
  destruct (a ++ [t]) as [|x r] eqn:E; [destruct a; discriminate|].
  destruct (bZ t <? 128); reflexivity.
Qed.

Lemma decode_script_number_plain l size : blen l < size ->
  decode_script_number (BA l) false size = Ok (sm_val l).
Proof.
  intros H. destruct (snoc_cases l) as [->|(a & t & ->)].
  { unfold decode_script_number. cbn [pyb_bytes]. replace (blen [] >=? size) with false by lia. reflexivity. }
  rewrite decode_script_number_snoc by exact H. cbn [andb]. rewrite sm_val_snoc.
  pose proof (bZ_range t). unfold sm_mag, blen.
  destruct (bZ t <? 128) eqn:E.
  - rewrite decode_int_le, le_val_app. cbn [le_val]. f_equal. rewrite (Z.mod_small (bZ t)) by lia. ring.
  - rewrite encode_int_small by lia. rewrite decode_int_le, le_val_app. cbn [le_val].
    rewrite bZ_Zb by lia. f_equal. ring.
Qed.

(** ** canonical forms *)

Definition sm_canon (l : bytes) : Prop :=
  match rev l with
  | [] => True
  | [t] => bZ t mod 128 <> 0
  | t :: u :: _ => bZ t mod 128 <> 0 \/ 128 <= bZ u
  end.

(** least magnitude of a canonical number of [k] bytes *)
Definition sm_lo (k : nat) : Z :=
  match k with O => 0 | S O => 1 | S (S j) => 128 * 256 ^ Z.of_nat j end.

Lemma sm_lo_mono j k : (j <= k)%nat -> sm_lo j <= sm_lo k.
Proof.
  intros H. assert (P : forall j, 0 < 256 ^ Z.of_nat j) by (intros; apply Z.pow_pos_nonneg; lia).
  destruct j as [|[|j]], k as [|[|k]]; cbn [sm_lo]; try lia; try (pose proof (P k); lia).
  pose proof (Z.pow_le_mono_r 256 (Z.of_nat j) (Z.of_nat k)). lia.
Qed.

Lemma sm_lo_lt j k : sm_lo j < sm_lo k -> (j < k)%nat.
Proof. intros H. destruct (Nat.le_gt_cases k j) as [G|G]; [pose proof (sm_lo_mono k j G); lia|exact G]. Qed.

Lemma sm_val_upper l : Z.abs (sm_val l) < sm_lo (S (length l)).
Proof.
  destruct (snoc_cases l) as [->|(a & t & ->)]; [cbn; lia|].
  rewrite sm_val_snoc, app_length. cbn [length]. replace (length a + 1)%nat with (S (length a)) by lia.
  cbn [sm_lo]. pose proof (le_val_bound a). pose proof (bZ_range t).
  assert (0 <= sm_mag a t < 128 * 256 ^ Z.of_nat (length a)).
  { unfold sm_mag, blen. assert (0 <= bZ t mod 128 <= 127) by lia. nia. }
  destruct (bZ t <? 128); lia.
Qed.

Lemma sm_canon_iff l : sm_canon l <-> sm_lo (length l) <= Z.abs (sm_val l).
Proof.
  destruct (snoc_cases l) as [->|(a & t & ->)]; [cbn; split; auto; lia|].
  rewrite sm_val_snoc, app_length. cbn [length]. replace (length a + 1)%nat with (S (length a)) by lia.
  pose proof (bZ_range t) as Ht. assert (Hm : 0 <= bZ t mod 128 <= 127) by lia.
  assert (Hmag : 0 <= sm_mag a t).
  { unfold sm_mag, blen. pose proof (le_val_bound a). nia. }
  assert (E : Z.abs (if bZ t <? 128 then sm_mag a t else - sm_mag a t) = sm_mag a t) by (destruct (bZ t <? 128); lia).
  rewrite E. clear E. unfold sm_canon. rewrite rev_app_distr. cbn [rev app].
  destruct (snoc_cases a) as [->|(c & u & ->)].
  - cbn [rev length sm_lo]. unfold sm_mag. cbn [le_val]. change (256 ^ blen []) with 1. lia.
  - rewrite rev_app_distr. cbn [rev app]. rewrite app_length. cbn [length].
    replace (length c + 1)%nat with (S (length c)) by lia. cbn [sm_lo].
    unfold sm_mag. rewrite le_val_app, blen_app. cbn [le_val]. change (blen [u]) with 1.
    unfold blen. rewrite Z.pow_add_r, Z.pow_1_r by lia.
    pose proof (le_val_bound c). pose proof (bZ_range u).
    set (w := 256 ^ Z.of_nat (length c)) in *. assert (0 < w) by (apply Z.pow_pos_nonneg; lia).
    set (m := bZ t mod 128) in *. split.
    + intros [G|G]; nia.
    + intros G. destruct (Z.eq_dec m 0) as [Z0|Z0]; [right|left; exact Z0].
      rewrite Z0 in G. nia.
Qed.

Lemma sm_canon_unique l l' : sm_canon l -> sm_canon l' -> sm_val l = sm_val l' -> l = l'.
Proof.
  intros C C' E. apply sm_canon_iff in C. apply sm_canon_iff in C'.
  pose proof (sm_val_upper l) as U. pose proof (sm_val_upper l') as U'.
  assert (L : length l = length l').
  { assert (length l < S (length l'))%nat by (apply sm_lo_lt; rewrite E in C; lia).
    assert (length l' < S (length l))%nat by (apply sm_lo_lt; rewrite <- E in C'; lia). lia. }
  destruct (snoc_cases l) as [->|(a & t & ->)].
  { destruct l'; [reflexivity|discriminate]. }
  destruct (snoc_cases l') as [->|(a' & t' & ->)].
  { rewrite app_length in L. cbn in L. lia. }
  rewrite !app_length in L. cbn [length] in L.
  assert (P : 0 < sm_lo (length (a ++ [t]))).
  { rewrite app_length. cbn [length]. replace (length a + 1)%nat with (S (length a)) by lia.
    pose proof (sm_lo_mono 1 (S (length a)) ltac:(lia)). cbn [sm_lo] in *. lia. }
  rewrite !sm_val_snoc in *. pose proof (bZ_range t). pose proof (bZ_range t').
  assert (Hmag : forall a t, 0 <= sm_mag a t).
  { intros. unfold sm_mag, blen. pose proof (le_val_bound a0). pose proof (bZ_range t0).
    assert (0 <= bZ t0 mod 128) by lia. nia. }
  pose proof (Hmag a t). pose proof (Hmag a' t').
  assert (Em : sm_mag a t = sm_mag a' t') by (destruct (bZ t <? 128), (bZ t' <? 128); lia).
  assert (Es : (bZ t <? 128) = (bZ t' <? 128)).
  { destruct (bZ t <? 128), (bZ t' <? 128); try reflexivity; lia. }
  unfold sm_mag, blen in Em. assert (La : length a = length a') by lia. rewrite La in Em.
  pose proof (le_val_bound a) as Ba. pose proof (le_val_bound a') as Ba'. rewrite La in Ba.
  set (w := 256 ^ Z.of_nat (length a')) in *.
  assert (le_val a = le_val a' /\ bZ t mod 128 = bZ t' mod 128) as [E1 E2].
  { assert (Hw : 0 < w) by lia. set (m := bZ t mod 128) in *. set (m' := bZ t' mod 128) in *.
    assert (m = m') by nia. split; nia. }
  f_equal; [apply le_val_inj; assumption|]. f_equal. apply bZ_inj.
  destruct (bZ t <? 128) eqn:X, (bZ t' <? 128) eqn:X'; try discriminate; lia.
Qed.

(** ** encoding *)

Lemma encode_script_number_spec n : sm_val (encode_script_number n) = n /\ sm_canon (encode_script_number n).
Proof.
  assert (Hpos : forall m, 0 < m -> exists a b, encode_int m false None = a ++ [b] /\ 0 < bZ b /\ le_val (a ++ [b]) = m).
  { intros m Hm. destruct (int_loop_last m Hm) as (a & b & E & Hb). exists a, b.
    unfold encode_int. replace (m =? 0) with false by lia. split; [exact E|]. split; [exact Hb|].
    rewrite <- E. apply le_val_int_loop. lia. }
  unfold encode_script_number. destruct (n =? 0) eqn:E0.
  { split; [cbn; lia|exact I]. }
  destruct (n >? 0) eqn:Ep; cbv zeta.
  - destruct (Hpos n ltac:(lia)) as (a & b & E & Hb & V). rewrite E.
    rewrite byte_at_end_snoc, land_128. pose proof (bZ_range b).
    destruct (bZ b <? 128) eqn:Eb; cbn [Z.eqb negb].
    + split.
      * rewrite sm_val_snoc, Eb. unfold sm_mag, blen. rewrite le_val_app in V. cbn [le_val] in V.
        rewrite Z.mod_small by lia. lia.
      * unfold sm_canon. rewrite rev_app_distr. cbn [rev app].
        destruct (rev a); [lia|left; lia].
    + rewrite encode_int_small by lia. change (Zb 0) with x00. split.
      * rewrite sm_val_snoc. change (bZ x00) with 0. cbn [Z.ltb Z.compare]. unfold sm_mag.
        change (bZ x00 mod 128) with 0. lia.
      * unfold sm_canon. rewrite !rev_app_distr. cbn [rev app]. right. lia.
  - destruct (Hpos (- n) ltac:(lia)) as (a & b & E & Hb & V). rewrite E.
    rewrite byte_at_end_snoc, land_128. pose proof (bZ_range b).
    destruct (bZ b <? 128) eqn:Eb; cbn [Z.eqb negb].
    + rewrite (drop_last_app a [b]) by reflexivity. rewrite lor_128, Eb.
      rewrite encode_int_small by lia. split.
      * rewrite sm_val_snoc, bZ_Zb by lia. replace (bZ b + 128 <? 128) with false by lia.
        unfold sm_mag, blen. rewrite bZ_Zb by lia. rewrite le_val_app in V. cbn [le_val] in V.
        replace ((bZ b + 128) mod 128) with (bZ b) by lia. lia.
      * unfold sm_canon. rewrite rev_app_distr. cbn [rev app]. rewrite bZ_Zb by lia.
        destruct (rev a); [lia|left; lia].
    + rewrite encode_int_small by lia. change (Zb 128) with x80. split.
      * rewrite sm_val_snoc. change (bZ x80) with 128. cbn [Z.ltb Z.compare Pos.compare Pos.compare_cont]. unfold sm_mag.
        change (bZ x80 mod 128) with 0. lia.
      * unfold sm_canon. rewrite !rev_app_distr. cbn [rev app]. right. lia.
Qed.

Lemma sm_shortest_iff l : sm_shortest l <-> sm_canon l.
Proof.
  split.
  - intros H. apply sm_canon_iff.
    destruct (encode_script_number_spec (sm_val l)) as [V C].
    specialize (H _ V). apply sm_canon_iff in C. rewrite V in C.
    pose proof (sm_lo_mono _ _ H). lia.
  - intros C l' E. apply sm_canon_iff in C. pose proof (sm_val_upper l') as U. rewrite E in U.
    assert (length l < S (length l'))%nat by (apply sm_lo_lt; lia). lia.
Qed.

Lemma sm_shortest_encode n : sm_shortest (encode_script_number n).
Proof. apply sm_shortest_iff, encode_script_number_spec. Qed.
Lemma sm_val_encode n : sm_val (encode_script_number n) = n.
Proof. apply encode_script_number_spec. Qed.
Lemma sm_shortest_unique l l' : sm_shortest l -> sm_shortest l' -> sm_val l = sm_val l' -> l = l'.
Proof. rewrite !sm_shortest_iff. apply sm_canon_unique. Qed.

Lemma encode_sm_val l : sm_shortest l -> encode_script_number (sm_val l) = l.
Proof. intros H. apply sm_shortest_unique; [apply sm_shortest_encode|exact H|apply sm_val_encode]. Qed.

Lemma encode_script_number_fits n k : (1 <= k)%nat ->
  blen (encode_script_number n) < Z.of_nat k <-> Z.abs n < sm_lo k.
Proof.
  intros Hk. destruct (encode_script_number_spec n) as [V C]. apply sm_canon_iff in C. rewrite V in C.
  pose proof (sm_val_upper (encode_script_number n)) as U. rewrite V in U. unfold blen. split.
  - intros H. assert (G : (S (length (encode_script_number n)) <= k)%nat) by lia.
    pose proof (sm_lo_mono _ _ G). lia.
  - intros H. assert (G : (length (encode_script_number n) < k)%nat) by (apply sm_lo_lt; lia). lia.
Qed.

(** ** decoding with the minimal flag *)

Lemma decode_script_number_minimal l size : blen l < size ->
  (sm_shortest l -> decode_script_number (BA l) true size = Ok (sm_val l)) /\
  (~ sm_shortest l -> decode_script_number (BA l) true size = Err E_InvalidMinimalScriptNumber).
Proof.
  intros H. rewrite sm_shortest_iff. pose proof (decode_script_number_plain l size H) as P.
  destruct (snoc_cases l) as [->|(a & t & ->)].
  { unfold decode_script_number. cbn [pyb_bytes]. replace (blen [] >=? size) with false by lia.
    split; [reflexivity|]. intros G. exfalso. apply G. exact I. }
  rewrite decode_script_number_snoc in * by exact H. cbn [andb] in *.
  assert (Q : (bZ t mod 128 =? 0) && ((blen (a ++ [t]) <=? 1) || (Z.land (byte_at_end 2 (a ++ [t])) 128 =? 0)) = true
              <-> ~ sm_canon (a ++ [t])).
  { unfold sm_canon. rewrite rev_app_distr. cbn [rev app].
    destruct (snoc_cases a) as [->|(c & u & ->)].
    - cbn [rev app]. change (blen [t] <=? 1) with true. cbn [orb]. rewrite andb_true_r.
      destruct (bZ t mod 128 =? 0) eqn:X; split; intros; try lia; try congruence; intuition lia.
    - rewrite rev_app_distr. cbn [rev app]. rewrite !blen_app. change (blen [u]) with 1. change (blen [t]) with 1.
      pose proof (blen_nonneg c). replace (blen c + 1 + 1 <=? 1) with false by lia. cbn [orb].
      rewrite <- app_assoc. cbn [app]. rewrite byte_at_end_2, land_128.
      destruct (bZ t mod 128 =? 0) eqn:X, (bZ u <? 128) eqn:Y; cbn [andb Z.eqb];
        (split; [try discriminate; intros _; lia|intros; try reflexivity; exfalso; lia]). }
  destruct ((bZ t mod 128 =? 0) && ((blen (a ++ [t]) <=? 1) || (Z.land (byte_at_end 2 (a ++ [t])) 128 =? 0))) eqn:X.
  - split; [intros C; exfalso; apply Q; [reflexivity|exact C]|reflexivity].
  - split; [intros _; exact P|]. intros G. apply Q in G. discriminate.
Qed.

Lemma sm_shortest_dec l : {sm_shortest l} + {~ sm_shortest l}.
Proof.
  destruct (Z_le_dec (sm_lo (length l)) (Z.abs (sm_val l))) as [G|G];
    [left|right]; rewrite sm_shortest_iff, sm_canon_iff; exact G.
Qed.

Lemma decode_script_number_min_iff l size n : blen l < size ->
  decode_script_number (BA l) true size = Ok n <-> l = encode_script_number n.
Proof.
  intros H. destruct (decode_script_number_minimal l size H) as [D1 D2]. split.
  - destruct (sm_shortest_dec l) as [S|S].
    + rewrite (D1 S). intros X. injection X as <-. symmetry. apply encode_sm_val, S.
    + rewrite (D2 S). discriminate.
  - intros ->. rewrite D1 by apply sm_shortest_encode. rewrite sm_val_encode. reflexivity.
Qed.

Lemma decode_script_number_long p m size : size <= pyb_len p ->
  decode_script_number p m size = Err E_InvalidScriptNumber.
Proof.
  intros H. unfold decode_script_number. unfold pyb_len in H. fold (blen (pyb_bytes p)) in H.
  replace (blen (pyb_bytes p) >=? size) with true by lia. reflexivity.
Qed.

Lemma decode_encode_script_number n m size :
  decode_script_number (BA (encode_script_number n)) m size =
  if blen (encode_script_number n) <? size then Ok n else Err E_InvalidScriptNumber.
Proof.
  destruct (blen (encode_script_number n) <? size) eqn:E.
  - destruct m; [apply decode_script_number_min_iff; [lia|reflexivity]|].
    rewrite decode_script_number_plain, sm_val_encode by lia. reflexivity.
  - apply decode_script_number_long. cbn. unfold pyb_len, blen in *. cbn. lia.
Qed.

Lemma decode_script_number_str l m size : l <> [] -> blen l < size ->
  decode_script_number (Str l) m size = Err E_TypeError.
Proof.
  intros Hl H. unfold decode_script_number. cbn [pyb_bytes]. replace (blen l >=? size) with false by lia.
  destruct l; [congruence|reflexivity].
Qed.

Lemma script_number_default_range n m :
  decode_script_number (BA (encode_script_number n)) m 4 = Ok n <-> - 2 ^ 23 < n < 2 ^ 23.
Proof.
  rewrite decode_encode_script_number.
  pose proof (encode_script_number_fits n 4 ltac:(lia)) as F. change (Z.of_nat 4) with 4 in F.
  change (sm_lo 4) with (2 ^ 23) in F.
  destruct (blen (encode_script_number n) <? 4) eqn:E; split; intros H; try discriminate; try reflexivity; lia.
Qed.
Arguments encode_script_number : simpl never.
Arguments decode_script_number : simpl never.
