(** Demanding two locking scripts at once (proofs). *)
From Coq Require Import ZArith List Lia Bool Strings.Byte.
From Verif Require Import Base M_Hash S_Codec P_Codec M_Keys M_Script S_Script P_Script M_Interp S_Interp S_Ref P_Ref P_RefBtc P_Local S_Formula P_Formula S_Perm P_Perm S_Table P_Table S_Among P_Among S_Both.
Import ListNotations.
Open Scope Z_scope.

Definition with_alt (a : list bytes) (o : option rstate) : option rstate := match o with Some st => Some (RState (r_main st) a (r_cond st) (r_ops st)) | None => None end.
Lemma exec_alt D z s a c k : z <> 107 -> z <> 108 -> z <> 174 -> z <> 175 -> ref_exec D z (RState s a c k) = with_alt a (ref_exec D z (RState s [] c k)).
Proof.
  intros N1 N2 N N'. unfold ref_exec.
  assert (W : (match ref_word D z s with Some s => Some (RState s a c k) | None => None end) = with_alt a (match ref_word D z s with Some s => Some (RState s [] c k) | None => None end)) by (destruct (ref_word D z s); reflexivity).
  destruct z as [|z|z]; try exact W. do 8 (destruct z as [z|z|]; try exact W; try congruence).
Qed.
Lemma exec_noalt D z s c k st : z <> 107 -> z <> 108 -> z <> 174 -> z <> 175 -> ref_exec D z (RState s [] c k) = Some st -> r_alt st = [].
Proof.
  intros N1 N2 N N'. unfold ref_exec. assert (W : (match ref_word D z s with Some s => Some (RState s [] c k) | None => None end) = Some st -> r_alt st = []) by (destruct (ref_word D z s); [intros [= <-]; reflexivity|discriminate]).
  destruct z as [|z|z]; try exact W. do 8 (destruct z as [z|z|]; try exact W; try congruence).
Qed.
Lemma step_alt D z d s a c k : z <> 107 -> z <> 108 -> z <> 174 -> z <> 175 ->
  ref_step D (z, d) (RState s a c k) = with_alt a (ref_step D (z, d) (RState s [] c k)) /\ (forall st, ref_step D (z, d) (RState s [] c k) = Some st -> r_alt st = []).
Proof.
  intros N1 N2 N N'. unfold ref_step. set (k1 := if 96 <? z then k + 1 else k). destruct (520 <? blen _); [split; [reflexivity|discriminate]|].
  destruct ((96 <? z) && (201 <? k1)); [split; [reflexivity|discriminate]|]. destruct (ref_disabled z); [split; [reflexivity|discriminate]|].
  pose proof (exec_alt D z s a c k1 N1 N2 N N') as Y. pose proof (exec_noalt D z s c k1) as X. set (g := forallb (fun b => b) c) in *.
  assert (Dflt : let r a := if g then (if z <=? 78 then (if d_push D z (match d with Some d => d | None => [] end) then Some (RState ((match d with Some d => d | None => [] end) :: s) a c k1) else None) else ref_exec D z (RState s a c k1)) else Some (RState s a c k1) in
     r a = with_alt a (r []) /\ (forall st, r [] = Some st -> r_alt st = [])).
  { cbv zeta. destruct g; [|split; [reflexivity|intros st [= <-]; reflexivity]]. destruct (z <=? 78); [|split; [exact Y|intros st; exact (X st N1 N2 N N')]].
    destruct (d_push D z _); split; try reflexivity; try discriminate. intros st [= <-]. reflexivity. }
  cbv zeta in Dflt. clear X Y.
  destruct (Z.eq_dec z 99) as [-> |N99]; [destruct g, s; cbn; (split; [reflexivity|]); try discriminate; intros st [= <-]; reflexivity|].
  destruct (Z.eq_dec z 100) as [-> |N100]; [destruct g, s; cbn; (split; [reflexivity|]); try discriminate; intros st [= <-]; reflexivity|].
  destruct (Z.eq_dec z 101) as [-> |]; [split; [reflexivity|discriminate]|]. destruct (Z.eq_dec z 102) as [-> |]; [split; [reflexivity|discriminate]|].
  destruct (Z.eq_dec z 103) as [-> |]; [destruct c; (split; [reflexivity|]); try discriminate; intros st [= <-]; reflexivity|].
  destruct (Z.eq_dec z 104) as [-> |N104]; [destruct c; (split; [reflexivity|]); try discriminate; intros st [= <-]; reflexivity|].
  destruct z as [|z|z]; try exact Dflt. do 7 (destruct z as [z|z|]; try exact Dflt; try congruence).
Qed.
(** ** the limit of 1000 items *)
Definition shrinks (D : dialect) : Prop := forall s t, d_drop D s = Some t -> blen t <= blen s.
Lemma bitforge_shrinks fl : shrinks (bitforge fl).
Proof. intros [|x [|y s]] t; cbn [d_drop bitforge]; [discriminate| |]; intros [= <-]; rewrite ?blen_cons; try (pose proof (blen_nonneg s)); unfold blen; cbn [length]; lia. Qed.
Lemma bitcoin_shrinks fl : shrinks (bitcoin fl).
Proof. intros [|x s] t; cbn [d_drop bitcoin]; [discriminate|]. intros [= <-]. rewrite blen_cons. lia. Qed.
Lemma word_grow D o s t : shrinks D -> ref_word D (bZ o) s = Some t -> blen t <= blen s + 3.
Proof.
  intros SD. pose proof (blen_nonneg s) as N0.
  destruct o; intros H; try discriminate H; cbn [ref_word bZ Z.of_N Byte.to_N] in H; unfold num1, num2, hashed in H;
  try (injection H as <-; rewrite ?blen_cons; lia).
  all: try (apply SD in H; lia).
  all: try (destruct s as [|x1 [|x2 [|x3 [|x4 [|x5 [|x6 s]]]]]]; cbn [need1 need2 need3 need4 need6] in H; try discriminate H; sizes; lia).
  - destruct s as [|x1 s]; cbn [need1] in H; [discriminate H|]. injection H as <-. destruct (d_true D x1); unfold blen; cbn [length]; lia.
  - destruct s as [|x1 [|x2 s]]; cbn [need2] in H; try discriminate H. repeat match goal with
      | H : (if ?b then _ else _) = Some _ |- _ => destruct b; try discriminate H
      | H : match ?x with Some _ => _ | None => None end = Some _ |- _ => destruct x eqn:?; try discriminate H
      end. injection H as <-. rewrite blen_cons. cbn [tl]. match goal with |- context[blen (firstn ?k ?l ++ ?r)] => assert (blen (firstn k l ++ r) <= blen l) by exact (roll_size k l) end.
    rewrite (blen_cons x1). lia.
Qed.
Lemma exec_grow D o st t : shrinks D -> bZ o <> 174 -> bZ o <> 175 -> ref_exec D (bZ o) st = Some t -> size t <= size st + 3.
Proof.
  intros SD N N'. destruct st as [s a c n]. destruct (special_dec (bZ o)) as [S|S].
  - cbn [In] in S. destruct S as [<-|[<-|[E|[E|[]]]]]; try congruence; cbn [ref_exec]; unfold size; cbn [r_main r_alt].
    + destruct s as [|x s]; [discriminate|]. intros [= <-]. cbn [r_main r_alt]. rewrite !blen_cons. lia.
    + destruct a as [|x a]; [discriminate|]. intros [= <-]. cbn [r_main r_alt]. rewrite !blen_cons. lia.
  - rewrite exec_word by exact S. destruct (ref_word D (bZ o) s) eqn:E; [|discriminate]. apply word_grow in E; [|exact SD]. intros [= <-]. unfold size. cbn [r_main r_alt]. lia.
Qed.
Lemma step_grow D o d st t : shrinks D -> bZ o <> 174 -> bZ o <> 175 -> ref_step D (bZ o, d) st = Some t -> size t <= size st + 3.
Proof.
  intros SD N N' H. apply step_cases in H. unfold size. destruct H as [(_ & [_ M] & A)|[(n & E)|[(M & A)|(x & M & A)]]].
  - rewrite M, A, blen_cons. lia.
  - apply exec_grow in E; [exact E|exact SD|exact N|exact N'].
  - rewrite M, A. lia.
  - rewrite M, A, blen_cons. lia.
Qed.
Lemma run_grow D l : shrinks D -> no_multisig l -> forall st t, ref_run D (map ref_instr l) st = Some t -> size t <= size st + 3 * blen l.
Proof.
  intros SD. induction 1 as [|i l (N & N') F IH]; intros st t; [cbn; intros [= <-]; unfold blen; cbn [length]; lia|]. cbn [map ref_run]. rewrite blen_cons. destruct (ref_step D (ref_instr i) st) as [st1|] eqn:E; [|discriminate].
  destruct (_ || _); [|discriminate]. intros R. apply IH in R. unfold ref_instr in E. apply step_grow in E; [lia|exact SD|exact N|exact N'].
Qed.
Lemma run_alt D l : shrinks D -> no_alt l -> no_multisig l -> forall s a c k, (d_each D = true -> blen s + blen a + 3 * blen l <= 1000) ->
  ref_run D (map ref_instr l) (RState s a c k) = with_alt a (ref_run D (map ref_instr l) (RState s [] c k)) /\ (forall st, ref_run D (map ref_instr l) (RState s [] c k) = Some st -> r_alt st = []).
Proof.
  intros SD. induction 1 as [|i l (N1 & N2) F IH]; intros M s a c k R; [cbn; split; [reflexivity|intros st [= <-]; reflexivity]|]. inversion M as [|i' l' (N & N') M' Q]; subst i' l'. cbn [map ref_run]. rewrite blen_cons in R. pose proof (blen_nonneg l). pose proof (blen_nonneg a).
  destruct (step_alt D (bZ (i_op i)) (option_map pyb_bytes (i_data i)) s a c k N1 N2 N N') as (E & B). pose proof (step_grow D (i_op i) (option_map pyb_bytes (i_data i)) (RState s [] c k)) as G. fold (ref_instr i) in *. rewrite E.
  destruct (ref_step D (ref_instr i) (RState s [] c k)) as [[s1 a1 c1 k1]|]; [|split; [reflexivity|discriminate]]. specialize (B _ eq_refl). cbn [r_alt] in B. subst a1. cbn [with_alt r_main r_cond r_ops].
  specialize (G _ SD N N' eq_refl). unfold size in G. cbn [r_main r_alt] in G. change (blen (@nil bytes)) with 0 in G.
  assert (L : forall a', blen a' <= blen a -> negb (d_each D) || in_limit (RState s1 a' c1 k1) = true).
  { intros a' A. destruct (d_each D); [|reflexivity]. specialize (R eq_refl). unfold in_limit. cbn [negb orb r_main r_alt]. lia. }
  rewrite !L by (first [lia | exact (blen_nonneg a)]). apply IH; [exact M'|]. intros DE. specialize (R DE). lia.
Qed.
Lemma toalt_step D x s a k : k + 1 <= 201 -> ref_step D (ref_instr (word x6b)) (RState (x :: s) a [] k) = Some (RState s (x :: a) [] (k + 1)).
Proof. intros K. unfold ref_step, ref_instr, word. assert (E : 201 <? k + 1 = false) by lia. cbn -[Z.ltb]. change (520 <? blen []) with false. change (96 <? 107) with true. cbn [andb]. rewrite E. reflexivity. Qed.
Lemma fromalt_step D x s a k : k + 1 <= 201 -> ref_step D (ref_instr (word x6c)) (RState s (x :: a) [] k) = Some (RState (x :: s) a [] (k + 1)).
Proof. intros K. unfold ref_step, ref_instr, word. assert (E : 201 <? k + 1 = false) by lia. cbn -[Z.ltb]. change (520 <? blen []) with false. change (96 <? 108) with true. cbn [andb]. rewrite E. reflexivity. Qed.
Lemma verify_step D s a k : k + 1 <= 201 -> ref_step D (ref_instr (word x69)) (RState s a [] k) = match s with x :: r => if d_true D x then Some (RState r a [] (k + 1)) else None | [] => None end.
Proof.
  intros K. unfold ref_step, ref_instr, word. assert (E : 201 <? k + 1 = false) by lia. cbn -[Z.ltb]. change (520 <? blen []) with false. change (96 <? 105) with true. cbn [andb]. rewrite E. destruct s as [|x r]; [reflexivity|]. cbn. destruct (d_true D x); reflexivity.
Qed.
Lemma toalt_run D s2 : forall s1 a k, k + blen s2 <= 201 -> (d_each D = true -> blen s1 + blen s2 + blen a <= 1000) ->
  ref_run D (map ref_instr (repeat (word x6b) (length s2))) (RState (s2 ++ s1) a [] k) = Some (RState s1 (rev s2 ++ a) [] (k + blen s2)).
Proof.
  induction s2 as [|x s2 IH]; intros s1 a k K R; [cbn; rewrite Z.add_0_r; reflexivity|]. rewrite blen_cons in *. pose proof (blen_nonneg s2). cbn [length repeat map ref_run app]. rewrite toalt_step by lia.
  replace (negb (d_each D) || _) with true by (destruct (d_each D); [specialize (R eq_refl); unfold in_limit; cbn [negb orb r_main r_alt]; rewrite blen_app, blen_cons; lia|reflexivity]).
  rewrite IH by (first [lia | intros DE; specialize (R DE); rewrite blen_cons; lia]). cbn [rev]. rewrite <- app_assoc. cbn [app]. do 2 f_equal. lia.
Qed.
Lemma fromalt_run D r : forall s k, k + blen r <= 201 -> (d_each D = true -> blen s + blen r <= 1000) ->
  ref_run D (map ref_instr (repeat (word x6c) (length r))) (RState s r [] k) = Some (RState (rev r ++ s) [] [] (k + blen r)).
Proof.
  induction r as [|x r IH]; intros s k K R; [cbn; rewrite Z.add_0_r; reflexivity|]. rewrite blen_cons in *. pose proof (blen_nonneg r). cbn [length repeat map ref_run]. rewrite fromalt_step by lia.
  replace (negb (d_each D) || _) with true by (destruct (d_each D); [specialize (R eq_refl); unfold in_limit; cbn [negb orb r_main r_alt]; rewrite blen_cons; lia|reflexivity]).
  rewrite IH by (first [lia | intros DE; specialize (R DE); rewrite blen_cons; lia]). cbn [rev]. rewrite <- app_assoc. cbn [app]. do 2 f_equal. lia.
Qed.
Lemma ops_repeat o m : 96 < bZ o -> ops_of (repeat (word o) m) = Z.of_nat m.
Proof. intros H. induction m as [|m IH]; [reflexivity|]. cbn [repeat]. rewrite ops_cons, IH. unfold cost1. cbn [word i_op]. replace (96 <? bZ o) with true by lia. lia. Qed.
Lemma both_ops m l1 l2 : ops_of (both m l1 l2) = 2 * Z.of_nat m + 1 + ops_of l1 + ops_of l2.
Proof. unfold both. rewrite !ops_app, !ops_repeat by reflexivity. change (ops_of [word x69]) with 1. lia. Qed.
(** what the first leaves, without the limit on items *)
Definition bare (D : dialect) (l : list instr) (s : list bytes) : option (list bytes) := match ref_run D (map ref_instr l) (RState s [] [] 0) with Some st => Some (r_main st) | None => None end.
Lemma both_eval D l1 l2 s1 s2 : shrinks D -> level 0 l1 = true -> no_alt l1 -> no_multisig l2 -> ops_of (both (length s2) l1 l2) <= 201 -> (d_each D = true -> blen s1 + blen s2 + 3 * blen l1 <= 1000) ->
  ref_eval D (map ref_instr (both (length s2) l1 l2)) (s2 ++ s1) =
  match bare D l1 s1 with Some (x :: t) => if d_true D x then ref_eval D (map ref_instr l2) (s2 ++ t) else None | _ => None end.
Proof.
  intros SD L NA NM K R. rewrite both_ops in K. pose proof (ops_pos l1). pose proof (ops_pos l2). pose proof (blen_nonneg l1). assert (BL : blen s2 = Z.of_nat (length s2)) by reflexivity. unfold ref_eval, both, bare. rewrite !map_app. rewrite ref_run_app.
  rewrite toalt_run by (first [lia | intros DE; specialize (R DE); change (blen (@nil bytes)) with 0; lia]). rewrite app_nil_r, Z.add_0_l.
  rewrite ref_run_app. destruct (run_alt D l1 SD NA (level_multisig _ _ L) s1 (rev s2) [] (blen s2)) as (E & _); [rewrite blen_rev; intros DE; specialize (R DE); lia|]. rewrite E. clear E.
  destruct (run_under D l1 s1 [] [] [] 0 L eq_refl) as (_ & C0). pose proof (run_shift D (blen s2) l1 ltac:(lia) (level_multisig _ _ L) s1 [] [] 0 ltac:(lia)) as Q. rewrite Z.add_0_l in Q. rewrite Q. clear Q.
  destruct (ref_run D (map ref_instr l1) (RState s1 [] [] 0)) as [[t a1 c1 k1]|] eqn:RN; [|reflexivity]. specialize (C0 _ eq_refl). cbn [r_cond] in C0. subst c1.
  pose proof (run_ops D l1 (level_multisig _ _ L) s1 [] [] 0 ltac:(lia) _ RN) as KO. pose proof (run_grow D l1 SD (level_multisig _ _ L) _ _ RN) as G. unfold size in G. cbn [r_main r_alt] in G. change (blen (@nil bytes)) with 0 in G. pose proof (blen_nonneg a1).
  cbn [r_ops] in KO. cbn [opt_shift with_alt]. unfold shift. cbn [r_main r_alt r_cond r_ops]. cbn [map app ref_run]. rewrite verify_step by lia.
  destruct t as [|x t]; [reflexivity|]. rewrite blen_cons in G. destruct (d_true D x); [|reflexivity].
  replace (negb (d_each D) || _) with true by (destruct (d_each D); [specialize (R eq_refl); unfold in_limit; cbn [negb orb r_main r_alt]; rewrite blen_rev; lia|reflexivity]). rewrite ref_run_app.
  pose proof (fromalt_run D (rev s2) t (k1 + blen s2 + 1) ltac:(rewrite blen_rev; lia)) as FA. rewrite rev_length, rev_involutive, blen_rev in FA. rewrite FA by (intros DE; specialize (R DE); lia). clear FA.
  pose proof (run_shift D (k1 + blen s2 + 1 + blen s2) l2 ltac:(lia) NM (s2 ++ t) [] [] 0 ltac:(lia)) as Q. rewrite Z.add_0_l in Q. rewrite Q. destruct (ref_run D (map ref_instr l2) (RState (s2 ++ t) [] [] 0)) as [st|]; reflexivity.
Qed.
Lemma one_eval D l s : shrinks D -> level 0 l = true -> no_alt l -> (d_each D = true -> blen s + 3 * blen l <= 1000) -> leaves_one D l s ->
  ref_eval D (map ref_instr l) s = bare D l s /\ (forall t, bare D l s = Some t -> exists x, t = [x]).
Proof.
  intros SD L NA R O. unfold ref_eval, bare. destruct (run_under D l s [] [] [] 0 L eq_refl) as (_ & C0). destruct (run_alt D l SD NA (level_multisig _ _ L) s [] [] 0) as (_ & A0); [intros DE; specialize (R DE); change (blen (@nil bytes)) with 0; lia|].
  unfold leaves_one in O. destruct (ref_run D (map ref_instr l) (RState s [] [] 0)) as [[t a c k]|]; [|split; [reflexivity|discriminate]]. specialize (C0 _ eq_refl). specialize (A0 _ eq_refl). destruct (O _ eq_refl) as (x & X). cbn [r_main r_alt r_cond] in *. subst. split; [reflexivity|]. intros t [= <-]. exists x. reflexivity.
Qed.
Lemma both_accepts D l1 l2 xs1 xs2 : all_pushes D -> shrinks D -> level 0 l1 = true -> no_alt l1 -> no_multisig l2 -> leaves_one D l1 (rev xs1) -> ops_of (both (length xs2) l1 l2) <= 201 ->
  Forall short_item (xs1 ++ xs2) -> blen (xs1 ++ xs2) <= 1000 -> (d_each D = true -> blen (xs1 ++ xs2) + 3 * blen l1 <= 1000) ->
  (ref_accepts D (ref_script (supply (xs1 ++ xs2))) (map ref_instr (both (length xs2) l1 l2)) <-> ref_accepts D (ref_script (supply xs1)) (map ref_instr l1) /\ ref_accepts D (ref_script (supply xs2)) (map ref_instr l2)).
Proof.
  intros P SD L NA NM O K S R RD. pose proof (Forall_app short_item xs1 xs2) as FA. apply FA in S as S'. destruct S' as (S1 & S2). rewrite blen_app in *. pose proof (blen_nonneg xs1). pose proof (blen_nonneg xs2). unfold ref_accepts.
  rewrite (supply_eval D (xs1 ++ xs2) P S) by (rewrite blen_app; lia). rewrite (supply_eval D xs1 P S1) by lia. rewrite (supply_eval D xs2 P S2) by lia. rewrite rev_app_distr.
  pose proof (both_eval D l1 l2 (rev xs1) (rev xs2) SD L NA NM) as E. rewrite rev_length, !blen_rev in E. specialize (E K RD).
  destruct (one_eval D l1 (rev xs1) SD L NA) as (E1 & X1); [rewrite blen_rev; intros DE; specialize (RD DE); lia|exact O|]. split.
  - intros (s & x & t & [= <-] & V & T). rewrite E in V. destruct (bare D l1 (rev xs1)) as [[|y u]|] eqn:B; try discriminate. destruct (d_true D y) eqn:Y; [|discriminate]. destruct (X1 _ eq_refl) as (y' & [= <- ->]). rewrite app_nil_r in V. split.
    + exists (rev xs1), y, []. rewrite E1. auto.
    + exists (rev xs2), x, t. auto.
  - intros ((s & x & t & [= <-] & V & T) & s' & x' & t' & [= <-] & V' & T'). rewrite E1 in V. destruct (X1 _ V) as (y & [= <- ->]). exists (rev xs2 ++ rev xs1), x', t'. split; [reflexivity|]. split; [|exact T']. rewrite E, V, T, app_nil_r. exact V'.
Qed.
Lemma both_sized m l1 l2 : sized (Script None (both m l1 l2)) -> sized (Script None l1) /\ sized (Script None l2).
Proof. unfold both. intros S. apply sized_app in S. destruct S as (_ & S). apply sized_app in S. destruct S as (S1 & S). apply sized_app in S. destruct S as (_ & S). apply sized_app in S. tauto. Qed.
Lemma words_readable o n : ~ pushes o -> readable (Script None (repeat (word o) n)).
Proof. intros N. destruct (fine_word o N) as (R & _). unfold readable in *. cbn [s_ins] in *. inversion R; subst. apply Forall_forall. intros i I. apply repeat_spec in I. subst i. assumption. Qed.
Lemma both_readable m l1 l2 : readable (Script None l1) -> readable (Script None l2) -> readable (Script None (both m l1 l2)).
Proof.
  intros R1 R2. unfold both, readable. cbn [s_ins]. repeat (apply Forall_app; split); try assumption.
  - apply (words_readable x6b m). vm_compute. intuition discriminate.
  - apply (words_readable x69 1). vm_compute. intuition discriminate.
  - apply (words_readable x6c m). vm_compute. intuition discriminate.
Qed.
Lemma both_verify self l1 l2 xs1 xs2 fl : level 0 l1 = true -> no_alt l1 -> no_multisig l2 -> readable (Script None l1) -> readable (Script None l2) -> leaves_one (bitforge fl) l1 (rev xs1) ->
  ops_of (both (length xs2) l1 l2) <= 201 -> sized (Script None (both (length xs2) l1 l2)) -> Forall short_item (xs1 ++ xs2) -> blen (xs1 ++ xs2) <= 1000 -> sized (supply (xs1 ++ xs2)) -> ~ flag fl MINIMALDATA ->
  (verify self (supply (xs1 ++ xs2)) (Script None (both (length xs2) l1 l2)) fl = Ok (true, IE_None) <->
   verify self (supply xs1) (Script None l1) fl = Ok (true, IE_None) /\ verify self (supply xs2) (Script None l2) fl = Ok (true, IE_None)).
Proof.
  intros L NA NM R1 R2 O K SB S R SZ FM. apply Forall_app in S as S'. destruct S' as (S1 & S2). destruct (both_sized _ _ _ SB) as (B1 & B2). unfold supply in SZ. rewrite map_app in SZ. apply sized_app in SZ as SZ'. destruct SZ' as (Z1 & Z2). rewrite <- map_app in SZ. fold (supply (xs1 ++ xs2)) in SZ. fold (supply xs1) in Z1. fold (supply xs2) in Z2.
  rewrite (verify_ref self _ _ fl (supply_readable _ S) (both_readable _ _ _ R1 R2)), (verify_ref self _ _ fl (supply_readable _ S1) R1), (verify_ref self _ _ fl (supply_readable _ S2) R2). unfold ref_script at 2 4 6. cbn [s_ins].
  rewrite (both_accepts (bitforge fl) l1 l2 xs1 xs2 (bitforge_pushes fl FM) (bitforge_shrinks fl) L NA NM O K S R) by discriminate.
  pose proof (supply_push fl _ S). pose proof (supply_push fl _ S1). pose proof (supply_push fl _ S2). tauto.
Qed.
Lemma both_bitcoin l1 l2 xs1 xs2 fl : level 0 l1 = true -> no_alt l1 -> no_multisig l2 -> leaves_one (bitcoin fl) l1 (rev xs1) ->
  ops_of (both (length xs2) l1 l2) <= 201 -> Forall short_item (xs1 ++ xs2) -> blen (xs1 ++ xs2) + 3 * blen l1 <= 1000 -> ~ flag fl MINIMALDATA ->
  (ref_accepts (bitcoin fl) (ref_script (supply (xs1 ++ xs2))) (ref_script (Script None (both (length xs2) l1 l2))) <->
   ref_accepts (bitcoin fl) (ref_script (supply xs1)) (ref_script (Script None l1)) /\ ref_accepts (bitcoin fl) (ref_script (supply xs2)) (ref_script (Script None l2))).
Proof. intros L NA NM O K S R FM. pose proof (blen_nonneg l1). unfold ref_script at 2 4 6. cbn [s_ins]. apply both_accepts; try assumption; [exact (bitcoin_pushes fl FM)|exact (bitcoin_shrinks fl)|lia|intros _; exact R]. Qed.

(** ** several *)
Definition items_of (ls : list (nat * list instr)) : nat := fold_right (fun p n => (fst p + n)%nat) O ls.
Lemma both_multisig m l1 l2 : level 0 l1 = true -> no_multisig l2 -> no_multisig (both m l1 l2).
Proof.
  intros L N. apply level_multisig in L. unfold both, no_multisig in *. assert (W : forall o n, bZ o <> 174 -> bZ o <> 175 -> Forall (fun i => bZ (i_op i) <> 174 /\ bZ (i_op i) <> 175) (repeat (word o) n)) by (intros o n A B; apply Forall_forall; intros i I; apply repeat_spec in I; subst i; auto).
  repeat (apply Forall_app; split); try assumption; try (apply W; vm_compute; discriminate). apply (W x69 1%nat); vm_compute; discriminate.
Qed.
Lemma all_multisig ls : Forall (fun p => level 0 (snd p) = true) ls -> no_multisig (all_of ls).
Proof. induction 1 as [|[m l] r L F IH]; [constructor; [vm_compute; split; discriminate|constructor]|]. cbn [all_of snd] in *. apply both_multisig; assumption. Qed.
Lemma all_length D ls xss : Forall2 (fun p xs => length xs = fst p /\ leaves_one D (snd p) (rev xs)) ls xss -> items_of ls = length (concat xss).
Proof. induction 1 as [|[m l] xs r xss (E & _) F IH]; [reflexivity|]. cbn [concat fst] in *. rewrite app_length. unfold items_of in *. cbn [fold_right fst]. lia. Qed.
Lemma all_accepts D ls xss : all_pushes D -> shrinks D -> Forall (fun p => level 0 (snd p) = true /\ no_alt (snd p)) ls -> Forall2 (fun p xs => length xs = fst p /\ leaves_one D (snd p) (rev xs)) ls xss -> ops_of (all_of ls) <= 201 ->
  Forall short_item (concat xss) -> blen (concat xss) <= 1000 -> (d_each D = true -> blen (concat xss) + 3 * blen (all_of ls) <= 1000) ->
  (ref_accepts D (ref_script (supply (concat xss))) (map ref_instr (all_of ls)) <-> ref_accepts D (ref_script (supply [])) (map ref_instr [word x51]) /\ Forall2 (fun p xs => ref_accepts D (ref_script (supply xs)) (map ref_instr (snd p))) ls xss).
Proof.
  intros P SD FL F2. revert FL. induction F2 as [|[m l] xs r xss (E & O) F2 IH]; intros FL K S R RD.
  - cbn [concat all_of]. split; [intros H; split; [exact H|constructor]|tauto].
  - inversion FL as [|p q (L & NA) FL' Q]; subst p q. cbn [all_of concat fst snd] in *. fold (items_of r) in *. pose proof (all_length _ _ _ F2) as LE. rewrite LE in *.
    assert (NM : no_multisig (all_of r)) by (apply all_multisig; refine (Forall_impl _ _ FL'); tauto). pose proof (both_ops (length (concat xss)) l (all_of r)) as BO. pose proof (ops_pos l). pose proof (ops_pos (all_of r)).
    apply Forall_app in S as S'. destruct S' as (S1 & S2). pose proof (blen_nonneg xs). pose proof (blen_app xs (concat xss)) as BA. assert (BB : blen l <= blen (both (length (concat xss)) l (all_of r)) /\ blen (all_of r) <= blen (both (length (concat xss)) l (all_of r))) by (unfold both, blen; rewrite !app_length; lia).
    assert (ID : ref_accepts D (ref_script (supply (concat xss))) (map ref_instr (all_of r)) <-> ref_accepts D (ref_script (supply [])) (map ref_instr [word x51]) /\ Forall2 (fun p xs => ref_accepts D (ref_script (supply xs)) (map ref_instr (snd p))) r xss).
    { apply IH; [exact FL'|lia|exact S2|lia|intros DE; specialize (RD DE); lia]. }
    rewrite (both_accepts D l (all_of r) xs (concat xss) P SD L NA NM O K S R) by (intros DE; specialize (RD DE); lia). rewrite ID. split.
    + intros (A & B & C). split; [exact B|]. constructor; assumption.
    + intros (B & C). inversion C; subst. auto.
Qed.
Lemma all_sized ls : sized (Script None (all_of ls)) -> Forall (fun p => sized (Script None (snd p))) ls.
Proof. induction ls as [|[m l] r IH]; intros S; [constructor|]. cbn [all_of] in S. apply both_sized in S. constructor; [exact (proj1 S)|apply IH, (proj2 S)]. Qed.
Lemma all_readable ls : Forall (fun p => readable (Script None (snd p))) ls -> readable (Script None (all_of ls)).
Proof. induction 1 as [|[m l] r L F IH]; [apply (words_readable x51 1); vm_compute; intuition discriminate|]. cbn [all_of snd] in *. apply both_readable; assumption. Qed.
Lemma parts {A B} (P Q : A -> B -> Prop) (R : A -> Prop) (T : B -> Prop) ls xss : Forall R ls -> Forall T xss -> (forall a b, R a -> T b -> P a b <-> Q a b) -> Forall2 P ls xss <-> Forall2 Q ls xss.
Proof. intros FR FT H. revert xss FT. induction FR as [|a l r F IH]; intros xss FT; split; intros X; inversion X; subst; inversion FT; subst; constructor; try (apply IH; assumption); apply H; assumption. Qed.
Lemma supply_parts xss : Forall short_item (concat xss) -> sized (supply (concat xss)) -> Forall (fun xs => Forall short_item xs /\ sized (supply xs)) xss.
Proof.
  induction xss as [|xs xss IH]; intros S Z; [constructor|]. cbn [concat] in *. apply Forall_app in S. destruct S as (S1 & S2). unfold supply in Z. rewrite map_app in Z. apply sized_app in Z. destruct Z as (Z1 & Z2). constructor; [split; [exact S1|exact Z1]|apply IH; [exact S2|exact Z2]].
Qed.
Lemma one_true D : d_true D [x01] = true -> ref_accepts D (ref_script (supply [])) (map ref_instr [word x51]).
Proof. intros T. exists [], [x01], []. split; [reflexivity|]. split; [|exact T]. unfold ref_eval, ref_instr, word. cbn [map i_op i_data option_map ref_run]. destruct (d_each D); vm_compute; reflexivity. Qed.
Lemma all_verify self ls xss fl : ls <> [] -> Forall (fun p => level 0 (snd p) = true /\ no_alt (snd p) /\ readable (Script None (snd p))) ls ->
  Forall2 (fun p xs => length xs = fst p /\ leaves_one (bitforge fl) (snd p) (rev xs)) ls xss -> ops_of (all_of ls) <= 201 -> sized (Script None (all_of ls)) ->
  Forall short_item (concat xss) -> blen (concat xss) <= 1000 -> sized (supply (concat xss)) -> ~ flag fl MINIMALDATA ->
  (verify self (supply (concat xss)) (Script None (all_of ls)) fl = Ok (true, IE_None) <-> Forall2 (fun p xs => verify self (supply xs) (Script None (snd p)) fl = Ok (true, IE_None)) ls xss).
Proof.
  intros NE F F2 K SB S R SZ FM. assert (FL : Forall (fun p => level 0 (snd p) = true /\ no_alt (snd p)) ls) by (refine (Forall_impl _ _ F); tauto). assert (FR : Forall (fun p => readable (Script None (snd p))) ls) by (refine (Forall_impl _ _ F); tauto).
  rewrite (verify_ref self _ _ fl (supply_readable _ S) (all_readable _ FR)). unfold ref_script at 2. cbn [s_ins]. rewrite (all_accepts (bitforge fl) ls xss (bitforge_pushes fl FM) (bitforge_shrinks fl) FL F2 K S R) by discriminate.
  assert (FS : Forall (fun p => readable (Script None (snd p)) /\ sized (Script None (snd p))) ls).
  { apply all_sized in SB. rewrite Forall_forall in *. auto. }
  rewrite (parts (fun p xs => verify self (supply xs) (Script None (snd p)) fl = Ok (true, IE_None)) (fun p xs => ~ flag fl P2SH /\ ref_accepts (bitforge fl) (ref_script (supply xs)) (map ref_instr (snd p))) _ _ ls xss FS (supply_parts xss S SZ)).
  2: { intros [m l] xs (RL & SL) (SX & ZX). cbn [snd] in *. rewrite (verify_ref self _ _ fl (supply_readable _ SX) RL). unfold ref_script at 2. cbn [s_ins]. pose proof (supply_push fl _ SX). tauto. }
  pose proof (one_true (bitforge fl) eq_refl) as OT. pose proof (supply_push fl _ S) as SP. split.
  - intros (FP & _ & _ & _ & _ & H). clear - FP H. induction H; constructor; auto.
  - intros H. assert (FP : ~ flag fl P2SH) by (destruct ls; [congruence|]; inversion H; subst; tauto). split; [exact FP|]. split; [exact SP|]. split; [exact SZ|]. split; [exact SB|]. split; [exact OT|]. clear - H. induction H as [|? ? ? ? (_ & ?)]; constructor; auto.
Qed.
Lemma all_bitcoin ls xss fl : Forall (fun p => level 0 (snd p) = true /\ no_alt (snd p)) ls ->
  Forall2 (fun p xs => length xs = fst p /\ leaves_one (bitcoin fl) (snd p) (rev xs)) ls xss -> ops_of (all_of ls) <= 201 ->
  Forall short_item (concat xss) -> blen (concat xss) + 3 * blen (all_of ls) <= 1000 -> ~ flag fl MINIMALDATA ->
  (ref_accepts (bitcoin fl) (ref_script (supply (concat xss))) (ref_script (Script None (all_of ls))) <-> Forall2 (fun p xs => ref_accepts (bitcoin fl) (ref_script (supply xs)) (ref_script (Script None (snd p)))) ls xss).
Proof.
  intros FL F2 K S R FM. pose proof (blen_nonneg (all_of ls)). unfold ref_script at 2. cbn [s_ins]. rewrite (all_accepts (bitcoin fl) ls xss (bitcoin_pushes fl FM) (bitcoin_shrinks fl) FL F2 K S) by (first [lia | intros _; lia]). pose proof (one_true (bitcoin fl) eq_refl). unfold ref_script at 3. cbn [s_ins]. tauto.
Qed.
(** ** with other ways of joining *)
Lemma level_app l1 : forall d l2, level d l1 = true -> level 0 l2 = true -> level d (l1 ++ l2) = true.
Proof.
  induction l1 as [|i l1 IH]; intros d l2; cbn [level app]; [destruct d; [intros _ H; exact H|discriminate]|]. destruct (passable i); [|discriminate]. cbn [andb].
  destruct (_ || _); [intros A B; apply IH; assumption|]. destruct (_ =? 103); [destruct d; [discriminate|]; intros A B; apply IH; assumption|]. destruct (_ =? 104); [destruct d; [discriminate|]|]; intros A B; apply IH; assumption.
Qed.
Lemma level_words o m : In o [x6b; x69; x6c] -> level 0 (repeat (word o) m) = true.
Proof. intros I. induction m as [|m IH]; [reflexivity|]. cbn [repeat level]. rewrite IH. destruct I as [<-|[<-|[<-|[]]]]; reflexivity. Qed.
Lemma both_nested m l1 l2 : level 0 l1 = true -> level 0 l2 = true -> level 0 (both m l1 l2) = true /\ ops_of (both m l1 l2) = 2 * Z.of_nat m + 1 + ops_of l1 + ops_of l2.
Proof.
  intros A B. split; [|apply both_ops]. unfold both. repeat (apply level_app); try assumption; try (apply level_words; cbn; tauto). reflexivity.
Qed.
(** when the first leaves more *)
Lemma both_left l1 l2 s1 s2 fl : level 0 l1 = true -> no_alt l1 -> no_multisig l2 -> ops_of (both (length s2) l1 l2) <= 201 ->
  ref_eval (bitforge fl) (map ref_instr (both (length s2) l1 l2)) (s2 ++ s1) =
  match ref_run (bitforge fl) (map ref_instr l1) (RState s1 [] [] 0) with
  | Some (RState (x :: t) _ _ _) => if first_bool x then ref_eval (bitforge fl) (map ref_instr l2) (s2 ++ t) else None
  | _ => None
  end.
Proof.
  intros L NA NM K. rewrite (both_eval (bitforge fl) l1 l2 s1 s2 (bitforge_shrinks fl) L NA NM K) by discriminate. unfold bare. destruct (ref_run (bitforge fl) (map ref_instr l1) (RState s1 [] [] 0)) as [[[|x t] a c k]|]; reflexivity.
Qed.
Lemma leftover_refuted : exists l1 l2 xs1 xs2, level 0 l1 = true /\ no_alt l1 /\ no_multisig l2 /\ readable (Script None l1) /\ readable (Script None l2) /\
  (forall self, verify self (supply (xs1 ++ xs2)) (Script None (both (length xs2) l1 l2)) 0 = Ok (true, IE_None)) /\
  (forall self, verify self (supply xs2) (Script None l2) 0 <> Ok (true, IE_None)).
Proof.
  exists [word x51], [word x57; word x9c], [[x07]], []. split; [reflexivity|]. split; [repeat constructor; vm_compute; discriminate|]. split; [repeat constructor; vm_compute; discriminate|].
  split; [repeat constructor; vm_compute; intuition discriminate|]. split; [repeat constructor; vm_compute; intuition discriminate|]. split; intros self; vm_compute; [reflexivity|discriminate].
Qed.
