(** Choosing among locking scripts (proofs). *)
From Coq Require Import ZArith List Lia Bool Strings.Byte.
From Verif Require Import Base M_Hash S_Codec P_Codec M_Keys M_Script S_Script P_Script M_Interp S_Interp S_Ref P_Ref P_Local S_Formula P_Formula S_Perm P_Perm S_Table P_Table S_Among.
Import ListNotations.
Open Scope Z_scope.

Definition under (c0 : list bool) (st : rstate) : rstate := RState (r_main st) (r_alt st) (r_cond st ++ c0) (r_ops st).
Definition opt_under c0 (o : option rstate) : option rstate := match o with Some st => Some (under c0 st) | None => None end.
Lemma on_app c1 c0 : on (c1 ++ c0) = on c1 && on c0.
Proof. unfold on. apply forallb_app. Qed.

Lemma exec_under D z s a c c0 k : z <> 174 -> z <> 175 -> ref_exec D z (RState s a (c ++ c0) k) = opt_under c0 (ref_exec D z (RState s a c k)) /\
  (forall st, ref_exec D z (RState s a c k) = Some st -> r_cond st = c).
Proof.
  intros N N'. unfold ref_exec.
  assert (W : let r c := (match ref_word D z s with Some s => Some (RState s a c k) | None => None end) in r (c ++ c0) = opt_under c0 (r c) /\ (forall st, r c = Some st -> r_cond st = c)).
  { cbv zeta. destruct (ref_word D z s); (split; [reflexivity|]); [intros st [= <-]; reflexivity|discriminate]. }
  cbv zeta in W. destruct (Z.eq_dec z 107) as [-> |N1]; [destruct s; (split; [reflexivity|]); [discriminate|intros st [= <-]; reflexivity]|].
  destruct (Z.eq_dec z 108) as [-> |N2]; [destruct a; (split; [reflexivity|]); [discriminate|intros st [= <-]; reflexivity]|].
  destruct z as [|z|z]; try exact W. do 8 (destruct z as [z|z|]; try exact W; try congruence).
Qed.
Definition deeper (z : Z) (n : nat) : nat := if (z =? 99) || (z =? 100) then S n else if z =? 104 then pred n else n.
Lemma step_under D z d s a c c0 k : z <> 174 -> z <> 175 -> on c0 = true -> (z = 103 \/ z = 104 -> c <> []) ->
  ref_step D (z, d) (RState s a (c ++ c0) k) = opt_under c0 (ref_step D (z, d) (RState s a c k)) /\
  (forall st, ref_step D (z, d) (RState s a c k) = Some st -> length (r_cond st) = deeper z (length c)).
Proof.
  intros N N' O NE. unfold ref_step. set (k1 := if 96 <? z then k + 1 else k). destruct (520 <? blen _); [split; [reflexivity|discriminate]|].
  destruct ((96 <? z) && (201 <? k1)); [split; [reflexivity|discriminate]|]. destruct (ref_disabled z); [split; [reflexivity|discriminate]|].
  destruct (exec_under D z s a c c0 k1 N N') as (Y & X). fold (on (c ++ c0)). fold (on c). rewrite on_app, O, andb_true_r. set (g := on c) in *.
  destruct (Z.eq_dec z 99) as [-> |N99]; [destruct g, s; cbn; (split; [reflexivity|]); try discriminate; intros st [= <-]; reflexivity|].
  destruct (Z.eq_dec z 100) as [-> |N100]; [destruct g, s; cbn; (split; [reflexivity|]); try discriminate; intros st [= <-]; reflexivity|].
  destruct (Z.eq_dec z 101) as [-> |]; [split; [reflexivity|discriminate]|]. destruct (Z.eq_dec z 102) as [-> |]; [split; [reflexivity|discriminate]|].
  destruct (Z.eq_dec z 103) as [-> |]; [destruct c; [contradiction NE; auto|]; (split; [reflexivity|]); intros st [= <-]; reflexivity|].
  destruct (Z.eq_dec z 104) as [-> |N104]; [destruct c; [contradiction NE; auto|]; (split; [reflexivity|]); intros st [= <-]; reflexivity|].
  assert (DP : deeper z (length c) = length c) by (unfold deeper; replace (z =? 99) with false by lia; replace (z =? 100) with false by lia; replace (z =? 104) with false by lia; reflexivity). rewrite DP.
  assert (Dflt : let r c := if g then (if z <=? 78 then (if d_push D z (match d with Some d => d | None => [] end) then Some (RState ((match d with Some d => d | None => [] end) :: s) a c k1) else None) else ref_exec D z (RState s a c k1)) else Some (RState s a c k1) in
     r (c ++ c0) = opt_under c0 (r c) /\ (forall st, r c = Some st -> length (r_cond st) = length c)).
  { cbv zeta. destruct g; [|split; [reflexivity|intros st [= <-]; reflexivity]]. destruct (z <=? 78); [|split; [exact Y|intros st E; rewrite (X st E); reflexivity]].
    destruct (d_push D z _); split; try reflexivity; try discriminate. intros st [= <-]. reflexivity. }
  cbv zeta in Dflt. clear X Y DP. destruct z as [|z|z]; try exact Dflt. do 7 (destruct z as [z|z|]; try exact Dflt; try congruence).
Qed.
Lemma passable_inv i : passable i = true -> ref_disabled (bZ (i_op i)) = false /\ bZ (i_op i) <> 101 /\ bZ (i_op i) <> 102 /\ bZ (i_op i) <> 174 /\ bZ (i_op i) <> 175 /\ match i_data i with Some d => blen (pyb_bytes d) <= 520 | None => True end.
Proof.
  unfold passable. rewrite !andb_true_iff, !negb_true_iff. intros (((((A & B) & C) & E) & F) & G). repeat split; try assumption; try lia. destruct (i_data i); [lia|exact I].
Qed.
Lemma level_cons d i l : level d (i :: l) = true -> passable i = true /\ (bZ (i_op i) = 103 \/ bZ (i_op i) = 104 -> d <> O) /\ level (deeper (bZ (i_op i)) d) l = true.
Proof.
  cbn [level]. rewrite andb_true_iff. intros (P & H). split; [exact P|]. unfold deeper. destruct (Z.eqb_spec (bZ (i_op i)) 99) as [E|N99]; [cbn [orb] in *; split; [lia|exact H]|].
  destruct (Z.eqb_spec (bZ (i_op i)) 100) as [E|N100]; [cbn [orb] in *; split; [lia|exact H]|]. cbn [orb] in *.
  destruct (Z.eqb_spec (bZ (i_op i)) 103) as [E|N103]; [rewrite E in *; cbn [Z.eqb] in *; destruct d; [discriminate|split; [discriminate|exact H]]|].
  destruct (Z.eqb_spec (bZ (i_op i)) 104) as [E|N104]; [destruct d; [discriminate|split; [discriminate|exact H]]|]. split; [lia|exact H].
Qed.
Lemma run_under D l : forall s a c c0 k, level (length c) l = true -> on c0 = true ->
  ref_run D (map ref_instr l) (RState s a (c ++ c0) k) = opt_under c0 (ref_run D (map ref_instr l) (RState s a c k)) /\
  (forall st, ref_run D (map ref_instr l) (RState s a c k) = Some st -> r_cond st = []).
Proof.
  induction l as [|i l IH]; intros s a c c0 k L O.
  - cbn [level] in L. destruct c; [|discriminate]. split; [reflexivity|]. cbn [map ref_run]. intros st [= <-]. reflexivity.
  - apply level_cons in L. destruct L as (P & NE & L). apply passable_inv in P. destruct P as (_ & _ & _ & N & N' & _). cbn [map ref_run]. unfold ref_instr at 1 3 5.
    destruct (step_under D (bZ (i_op i)) (option_map pyb_bytes (i_data i)) s a c c0 k N N' O ltac:(intros Q E; apply (NE Q); rewrite E; reflexivity)) as (E & B). rewrite E.
    destruct (ref_step D (bZ (i_op i), _) (RState s a c k)) as [[s1 a1 c1 k1]|]; [|split; [reflexivity|discriminate]]. cbn [opt_under under r_main r_alt r_cond r_ops].
    specialize (B _ eq_refl). cbn [r_cond] in B. rewrite <- B in L. change (in_limit (RState s1 a1 (c1 ++ c0) k1)) with (in_limit (RState s1 a1 c1 k1)).
    unfold under. cbn [r_main r_alt r_cond r_ops]. change (in_limit (RState s1 a1 (c1 ++ c0) k1)) with (in_limit (RState s1 a1 c1 k1)).
    destruct (negb (d_each D) || in_limit (RState s1 a1 c1 k1)); [|split; [reflexivity|discriminate]]. exact (IH s1 a1 c1 c0 k1 L O).
Qed.
Lemma step_over D i s a c k : passable i = true -> on c = false -> (bZ (i_op i) = 103 \/ bZ (i_op i) = 104 -> c <> []) -> k + cost1 (bZ (i_op i)) <= 201 ->
  exists c', length c' = deeper (bZ (i_op i)) (length c) /\ ref_step D (ref_instr i) (RState s a c k) = Some (RState s a c' (k + cost1 (bZ (i_op i)))) /\
    match bZ (i_op i) with 99 | 100 => c' = false :: c | 103 => exists b r, c = b :: r /\ c' = negb b :: r | 104 => exists b, c = b :: c' | _ => c' = c end.
Proof.
  intros P O NE K. apply passable_inv in P. destruct P as (DS & N101 & N102 & N & N' & L). unfold ref_instr, ref_step, cost1 in *. fold (on c). set (z := bZ (i_op i)) in *.
  assert (LD : 520 <? blen (match option_map pyb_bytes (i_data i) with Some d => d | None => [] end) = false) by (destruct (i_data i); cbn [option_map]; [lia|reflexivity]). rewrite LD.
  assert (X : (96 <? z) && (201 <? (if 96 <? z then k + 1 else k)) = false) by (destruct (96 <? z); [lia|reflexivity]). rewrite X, DS, O.
  assert (E : (if 96 <? z then k + 1 else k) = k + (if 96 <? z then 1 else 0)) by (destruct (96 <? z); lia). rewrite E. clear E X K LD DS L. unfold deeper.
  destruct (Z.eq_dec z 99) as [-> |]; [exists (false :: c); auto|]. destruct (Z.eq_dec z 100) as [-> |]; [exists (false :: c); auto|].
  destruct (Z.eq_dec z 103) as [-> |]; [destruct c as [|b r]; [contradiction NE; auto|]; exists (negb b :: r); repeat split; exists b, r; auto|].
  destruct (Z.eq_dec z 104) as [-> |]; [destruct c as [|b r]; [contradiction NE; auto|]; exists r; repeat split; exists b; auto|].
  exists c. replace (z =? 99) with false by lia. replace (z =? 100) with false by lia. replace (z =? 104) with false by lia. cbn [orb].
  generalize dependent z. intros z. intros. destruct z as [|z|z]; auto. do 7 (destruct z as [z|z|]; auto; try congruence).
Qed.
Lemma run_over D l : forall s a c1 c0 k, level (length c1) l = true -> on c0 = false -> negb (d_each D) || (blen s + blen a <=? 1000) = true -> k + ops_of l <= 201 ->
  ref_run D (map ref_instr l) (RState s a (c1 ++ c0) k) = Some (RState s a c0 (k + ops_of l)).
Proof.
  induction l as [|i l IH]; intros s a c1 c0 k L O R K.
  - cbn [level] in L. destruct c1; [|discriminate]. cbn. rewrite Z.add_0_r. reflexivity.
  - apply level_cons in L. destruct L as (P & NE & L). rewrite ops_cons in *. pose proof (ops_pos l).
    destruct (step_over D i s a (c1 ++ c0) k P ltac:(rewrite on_app, O; apply andb_false_r)) as (c' & _ & E & M); [|lia|].
    { intros Q E. apply (NE Q). apply app_eq_nil in E. destruct E as (-> & _). reflexivity. }
    cbn [map ref_run]. rewrite E. unfold in_limit. cbn [r_main r_alt]. rewrite R.
    assert (C : exists c2, c' = c2 ++ c0 /\ length c2 = deeper (bZ (i_op i)) (length c1)).
    { unfold deeper. set (z := bZ (i_op i)) in *. destruct (Z.eq_dec z 99) as [Q|]; [rewrite Q in *; exists (false :: c1); subst c'; auto|]. destruct (Z.eq_dec z 100) as [Q|]; [rewrite Q in *; exists (false :: c1); subst c'; auto|].
      destruct (Z.eq_dec z 103) as [Q|]; [rewrite Q in *; destruct M as (b & r & M & ->); destruct c1 as [|b' c1]; [contradiction NE; auto|]; cbn [app] in M; injection M as <- <-; exists (negb b' :: c1); auto|].
      destruct (Z.eq_dec z 104) as [Q|]; [rewrite Q in *; destruct M as (b & M); destruct c1 as [|b' c1]; [contradiction NE; auto|]; cbn [app] in M; injection M as <- <-; exists c1; auto|].
      replace (z =? 99) with false by lia. replace (z =? 100) with false by lia. replace (z =? 104) with false by lia. cbn [orb]. exists c1. split; [|reflexivity].
      clear - M n n0 n1 n2. destruct z as [|z|z]; try exact M. do 7 (destruct z as [z|z|]; try exact M; try congruence). }
    destruct C as (c2 & -> & C). rewrite <- C in L. rewrite (IH s a c2 c0 _ L O R) by lia. do 2 f_equal. lia.
Qed.
Lemma run_limit D l : forall st st', ref_run D l st = Some st' -> negb (d_each D) || in_limit st = true -> negb (d_each D) || in_limit st' = true.
Proof.
  induction l as [|i l IH]; intros st st'; cbn [ref_run]; [intros [= <-]; auto|]. destruct (ref_step D i st) as [st1|]; [|discriminate].
  destruct (negb (d_each D) || in_limit st1) eqn:E; [|discriminate]. intros H _. exact (IH _ _ H E).
Qed.
Lemma level_multisig l : forall d, level d l = true -> no_multisig l.
Proof.
  induction l as [|i l IH]; intros d L; [constructor|]. apply level_cons in L. destruct L as (P & _ & L). apply passable_inv in P. constructor; [tauto|exact (IH _ L)].
Qed.
Lemma level_app l1 : forall d l2, level d l1 = true -> level 0 l2 = true -> level d (l1 ++ l2) = true.
Proof.
  induction l1 as [|i l1 IH]; intros d l2 A B; [cbn [level] in A; destruct d; [exact B|discriminate]|]. cbn [level app] in *. rewrite andb_true_iff in *. destruct A as (P & A). split; [exact P|].
  destruct (_ || _); [apply IH; assumption|]. destruct (bZ (i_op i) =? 103); [destruct d; [discriminate|apply IH; assumption]|]. destruct (bZ (i_op i) =? 104); [destruct d; [discriminate|apply IH; assumption]|apply IH; assumption].
Qed.
(** with more conditionals open *)
Lemma level_deep l1 : forall d e l2, level d l1 = true -> level e l2 = true -> level (d + e) (l1 ++ l2) = true.
Proof.
  induction l1 as [|i l1 IH]; intros d e l2 A B; [cbn [level] in A; destruct d; [exact B|discriminate]|]. cbn [level app] in *. rewrite andb_true_iff in *. destruct A as (P & A). split; [exact P|].
  destruct (_ || _); [exact (IH (S d) e l2 A B)|]. destruct (bZ (i_op i) =? 103); [destruct d; [discriminate|exact (IH (S d) e l2 A B)]|]. destruct (bZ (i_op i) =? 104); [destruct d; [discriminate|exact (IH d e l2 A B)]|exact (IH d e l2 A B)].
Qed.
Lemma either_level l1 l2 : level 0 l1 = true -> level 0 l2 = true -> level 0 (either l1 l2) = true.
Proof.
  intros A B. unfold either. cbn [app level]. change (passable (word x63)) with true. change (bZ (i_op (word x63))) with 99. cbn [Z.eqb Pos.eqb orb andb].
  apply (level_deep l1 0 1); [exact A|]. cbn [level]. change (passable (word x67)) with true. change (bZ (i_op (word x67))) with 103. cbn [Z.eqb Pos.eqb orb andb]. apply (level_deep l2 0 1); [exact B|reflexivity].
Qed.
Lemma among_level ls : Forall (fun l => level 0 l = true) ls -> level 0 (among ls) = true.
Proof. induction 1 as [|l r L F IH]; [reflexivity|]. apply either_level; assumption. Qed.
Lemma either_ops l1 l2 : ops_of (either l1 l2) = 3 + ops_of l1 + ops_of l2.
Proof. unfold either. rewrite !ops_app. change (ops_of [word x63]) with 1. change (ops_of [word x67]) with 1. change (ops_of [word x68]) with 1. lia. Qed.
Lemma among_ops ls : ops_of (among ls) = among_cost ls.
Proof. induction ls as [|l r IH]; [reflexivity|]. cbn [among among_cost fold_right]. rewrite either_ops, IH. unfold among_cost. reflexivity. Qed.

Lemma run_ops D l : no_multisig l -> forall s a c k, k + ops_of l <= 201 -> forall st, ref_run D (map ref_instr l) (RState s a c k) = Some st -> r_ops st = k + ops_of l.
Proof.
  induction 1 as [|i l (N & N') F IH]; intros s a c k K st; [cbn; intros [= <-]; cbn [r_ops]; lia|]. rewrite ops_cons in *. pose proof (ops_pos l). cbn [map ref_run].
  destruct (step_shift D (bZ (i_op i)) (option_map pyb_bytes (i_data i)) s a c k 0 N N' ltac:(lia) ltac:(lia)) as (_ & B). fold (ref_instr i) in *.
  destruct (ref_step D (ref_instr i) (RState s a c k)) as [[s1 a1 c1 k1]|]; [|discriminate]. specialize (B _ eq_refl). cbn [r_ops] in B. subst k1.
  destruct (negb (d_each D) || in_limit _); [|discriminate]. intros H1. apply IH in H1; lia.
Qed.
Lemma limit_cond D s a c k : negb (d_each D) || in_limit (RState s a c k) = negb (d_each D) || (blen s + blen a <=? 1000).
Proof. reflexivity. Qed.
Lemma either_eval D l1 l2 x s : level 0 l1 = true -> level 0 l2 = true -> ops_of (either l1 l2) <= 201 -> 1 + blen s <= 1000 ->
  ref_eval D (map ref_instr (either l1 l2)) (x :: s) = if d_true D x then ref_eval D (map ref_instr l1) s else ref_eval D (map ref_instr l2) s.
Proof.
  intros A B K R. rewrite either_ops in K. pose proof (ops_pos l1). pose proof (ops_pos l2). unfold ref_eval, either. rewrite !map_app. cbn [map app].
  assert (I : ref_step D (ref_instr (word x63)) (RState (x :: s) [] [] 0) = Some (RState s [] [d_true D x] 1)) by reflexivity.
  rewrite (run_next D _ _ _ _ _ _ _ I) by (change (blen (@nil bytes)) with 0; lia). rewrite ref_run_app.
  assert (LM : negb (d_each D) || (blen s + blen (@nil bytes) <=? 1000) = true) by (apply orb_true_intro; right; change (blen (@nil bytes)) with 0; lia).
  destruct (d_true D x) eqn:T.
  - destruct (run_under D l1 s [] [] [true] 1 A eq_refl) as (E & C0). cbn [app] in E. rewrite E. clear E. pose proof (run_shift D 1 l1 ltac:(lia) (level_multisig _ _ A) s [] [] 0 ltac:(lia)) as Q. change (0 + 1) with 1 in Q. rewrite Q in C0 |- *. clear Q.
    destruct (ref_run D (map ref_instr l1) (RState s [] [] 0)) as [[s1 a1 c1 k1]|] eqn:RN; [|reflexivity]. specialize (C0 _ eq_refl). cbn [shift r_cond] in C0. subst c1.
    assert (KO : k1 = ops_of l1).
    { pose proof (run_ops D l1 (level_multisig _ _ A) s [] [] 0 ltac:(lia) _ RN) as Q. cbn [r_ops] in Q. lia. }
    cbn [opt_shift opt_under]. unfold under, shift. cbn [r_main r_alt r_cond r_ops app]. apply run_limit in RN; [|rewrite limit_cond; exact LM]. rewrite limit_cond in RN.
    cbn [ref_run]. rewrite else_step by lia. rewrite limit_cond, RN. rewrite ref_run_app. rewrite (run_over D l2 s1 a1 [] [false] _ B eq_refl RN) by lia.
    cbn [ref_run]. rewrite endif_step by lia. rewrite limit_cond, RN. cbn [r_cond r_main]. reflexivity.
  - pose proof (run_over D l1 s [] [] [false] 1 A eq_refl LM ltac:(lia)) as Q. cbn [app] in Q. rewrite Q. clear Q. cbn [ref_run]. rewrite else_step by lia. rewrite limit_cond, LM. cbn [negb]. rewrite ref_run_app.
    destruct (run_under D l2 s [] [] [true] (1 + ops_of l1 + 1) B eq_refl) as (E & C0). cbn [app] in E. rewrite E. clear E. replace (1 + ops_of l1 + 1) with (0 + (2 + ops_of l1)) in * by lia.
    rewrite (run_shift D (2 + ops_of l1) l2 ltac:(lia) (level_multisig _ _ B) s [] [] 0) in C0 |- * by lia.
    destruct (ref_run D (map ref_instr l2) (RState s [] [] 0)) as [[s1 a1 c1 k1]|] eqn:RN; [|reflexivity]. specialize (C0 _ eq_refl). cbn [shift r_cond] in C0. subst c1.
    assert (KO : k1 = ops_of l2).
    { pose proof (run_ops D l2 (level_multisig _ _ B) s [] [] 0 ltac:(lia) _ RN) as Q. cbn [r_ops] in Q. lia. }
    cbn [opt_shift opt_under]. unfold under, shift. cbn [r_main r_alt r_cond r_ops app]. apply run_limit in RN; [|rewrite limit_cond; exact LM]. rewrite limit_cond in RN.
    cbn [ref_run]. rewrite endif_step by lia. rewrite limit_cond, RN. cbn [r_cond r_main]. reflexivity.
Qed.
Lemma among_cost_pos ls : 1 <= among_cost ls.
Proof. induction ls as [|l r IH]; cbn [among_cost fold_right] in *; [lia|]. pose proof (ops_pos l). unfold among_cost in IH. lia. Qed.
Lemma among_eval D ls : Forall (fun l => level 0 l = true) ls -> among_cost ls <= 201 -> forall s, blen s <= 1000 ->
  ref_eval D (map ref_instr (among ls)) s = match chosen (d_true D) ls s with Some (l, t) => ref_eval D (map ref_instr l) t | None => None end.
Proof.
  induction 1 as [|l r L F IH]; intros K s R; [reflexivity|]. cbn [among chosen]. destruct s as [|x s]; [reflexivity|]. rewrite blen_cons in R. rewrite either_eval.
  - destruct (d_true D x); [reflexivity|]. apply IH; [|lia]. cbn [among_cost fold_right] in K. unfold among_cost. pose proof (ops_pos l). lia.
  - exact L.
  - apply among_level, F.
  - rewrite either_ops, among_ops. cbn [among_cost fold_right] in K. unfold among_cost. lia.
  - lia.
Qed.
Lemma chosen_split {A} T (ls : list A) : forall s l t, chosen T ls s = Some (l, t) -> In l ls /\ exists p, s = p ++ t.
Proof.
  induction ls as [|l0 ls IH]; intros [|x s] l t; try discriminate. cbn [chosen]. destruct (T x); [intros [= <- <-]; split; [left; reflexivity|exists [x]; reflexivity]|].
  intros H. apply IH in H. destruct H as (I & p & ->). split; [right; exact I|exists (x :: p); reflexivity].
Qed.
Lemma choose_chosen {A} T (ls : list A) i s : T [x01] = true -> T [x00] = false -> chosen T ls (rev (choose i) ++ s) = match nth_error ls i with Some l => Some (l, s) | None => None end.
Proof.
  intros T1 T0. unfold choose. cbn [rev]. assert (RR : forall n, rev (repeat [x00] n) = repeat [x00] n).
  { intros n. induction n as [|n IHn]; [reflexivity|]. cbn [repeat rev]. rewrite IHn. symmetry. apply (repeat_cons n [x00]). }
  rewrite RR. revert i. induction ls as [|l ls IH]; intros [|i]; cbn [repeat app chosen nth_error]; [reflexivity|reflexivity|rewrite T1; reflexivity|]. rewrite T0. apply IH.
Qed.
Lemma among_accepts D ls zs : all_pushes D -> Forall (fun l => level 0 l = true) ls -> among_cost ls <= 201 -> Forall short_item zs -> blen zs <= 1000 ->
  ref_accepts D (ref_script (supply zs)) (map ref_instr (among ls)) <->
  exists l ys, chosen (d_true D) ls (rev zs) = Some (l, rev ys) /\ ref_accepts D (ref_script (supply ys)) (map ref_instr l).
Proof.
  intros P F K S R. unfold ref_accepts. rewrite (supply_eval D zs P S R). pose proof (among_eval D ls F K (rev zs) ltac:(rewrite blen_rev; exact R)) as E.
  assert (SUB : forall l ys, chosen (d_true D) ls (rev zs) = Some (l, rev ys) -> ref_eval D (ref_script (supply ys)) [] = Some (rev ys)).
  { intros l ys C. apply chosen_split in C. destruct C as (_ & p & C). apply (f_equal (@rev bytes)) in C. rewrite rev_involutive, rev_app_distr, rev_involutive in C. subst zs.
    apply supply_eval; [exact P|apply Forall_app in S; tauto|]. unfold blen in *. rewrite app_length in R. lia. }
  split.
  - intros (s & x & t & [= <-] & V & T). rewrite E in V. destruct (chosen (d_true D) ls (rev zs)) as [[l s]|] eqn:C; [|discriminate]. exists l, (rev s). rewrite rev_involutive. split; [reflexivity|].
    exists s, x, t. split; [|auto]. rewrite (SUB l (rev s)); rewrite rev_involutive; [reflexivity|reflexivity].
  - intros (l & ys & C & s & x & t & V & W & T). rewrite (SUB l ys C) in V. injection V as <-. exists (rev zs), x, t. split; [reflexivity|]. split; [|exact T]. rewrite E, C. exact W.
Qed.
Lemma supply_push fl zs : Forall short_item zs -> push_only fl (supply zs).
Proof. intros FZ _. unfold supply. cbn [s_ins]. apply Forall_map. refine (Forall_impl _ _ FZ). intros x X. unfold short_item in X. cbn [i_op]. rewrite bZ_Zb by lia. lia. Qed.
Lemma sized_app a b : sized (Script None (a ++ b)) -> sized (Script None a) /\ sized (Script None b).
Proof.
  intros (w & W & LW). cbn [s_ins] in W. rewrite map_app in W. apply wire_script_app in W. destruct W as (w1 & w2 & -> & W1 & W2). unfold sized, blen in *. rewrite app_length in LW.
  split; [exists w1|exists w2]; (split; [assumption|lia]).
Qed.
Lemma among_sized ls l : In l ls -> sized (Script None (among ls)) -> sized (Script None l).
Proof.
  induction ls as [|l0 ls IH]; [contradiction|]. cbn [among]. unfold either. intros [->|I] S; apply sized_app in S; destruct S as (_ & S); apply sized_app in S; destruct S as (S1 & S); [exact S1|].
  apply sized_app in S. destruct S as (_ & S). apply sized_app in S. apply IH; tauto.
Qed.
Lemma word_readable o : In o [x63; x67; x68; x6a] -> readable (Script None [word o]).
Proof.
  intros [<-|[<-|[<-|[<-|[]]]]]; [destruct (fine_other x63 ltac:(auto)) as (R & _)|destruct (fine_other x67 ltac:(auto)) as (R & _)|destruct (fine_other x68 ltac:(auto)) as (R & _)|
    destruct (fine_word x6a ltac:(vm_compute; intuition discriminate)) as (R & _)]; exact R.
Qed.
Lemma among_readable ls : Forall (fun l => readable (Script None l)) ls -> readable (Script None (among ls)).
Proof.
  induction 1 as [|l r L F IH]; [apply word_readable; cbn; tauto|]. cbn [among]. unfold either, readable. cbn [s_ins]. repeat (apply Forall_app; split); try assumption; apply word_readable; cbn; tauto.
Qed.
Lemma among_verify self ls zs fl : Forall (fun l => level 0 l = true /\ readable (Script None l)) ls -> among_cost ls <= 201 -> sized (Script None (among ls)) ->
  Forall short_item zs -> blen zs <= 1000 -> sized (supply zs) -> ~ flag fl MINIMALDATA ->
  (verify self (supply zs) (Script None (among ls)) fl = Ok (true, IE_None) <->
   exists l ys, chosen first_bool ls (rev zs) = Some (l, rev ys) /\ verify self (supply ys) (Script None l) fl = Ok (true, IE_None)).
Proof.
  intros F K SA S R SZ FM. assert (FL : Forall (fun l => level 0 l = true) ls) by (refine (Forall_impl _ _ F); tauto). assert (FR : Forall (fun l => readable (Script None l)) ls) by (refine (Forall_impl _ _ F); tauto).
  rewrite (verify_ref self _ _ fl (supply_readable zs S) (among_readable ls FR)). unfold ref_script at 2. cbn [s_ins]. rewrite (among_accepts (bitforge fl) ls zs (bitforge_pushes fl FM) FL K S R).
  assert (SUB : forall l ys, chosen first_bool ls (rev zs) = Some (l, rev ys) -> In l ls /\ Forall short_item ys /\ sized (supply ys)).
  { intros l ys C. apply chosen_split in C. destruct C as (I & p & C). apply (f_equal (@rev bytes)) in C. rewrite rev_involutive, rev_app_distr, rev_involutive in C. subst zs. split; [exact I|].
    split; [apply Forall_app in S; tauto|]. unfold supply in *. rewrite map_app in SZ. apply sized_app in SZ. tauto. }
  split.
  - intros (FP & _ & _ & _ & l & ys & C & A). exists l, ys. split; [exact C|]. destruct (SUB l ys C) as (I & SY & ZY). rewrite Forall_forall in FR. rewrite (verify_ref self _ _ fl (supply_readable ys SY) (FR l I)).
    split; [exact FP|]. split; [apply supply_push, SY|]. split; [exact ZY|]. split; [exact (among_sized ls l I SA)|exact A].
  - intros (l & ys & C & V). destruct (SUB l ys C) as (I & SY & ZY). rewrite Forall_forall in FR. rewrite (verify_ref self _ _ fl (supply_readable ys SY) (FR l I)) in V. destruct V as (FP & _ & _ & _ & A).
    split; [exact FP|]. split; [apply supply_push, S|]. split; [exact SZ|]. split; [exact SA|]. exists l, ys. split; [exact C|exact A].
Qed.
Lemma choose_short i : Forall short_item (choose i).
Proof. unfold choose. constructor; [vm_compute; intuition discriminate|]. apply Forall_forall. intros x I. apply repeat_spec in I. subst x. vm_compute. intuition discriminate. Qed.
Lemma choose_verify self ls i ys fl : Forall (fun l => level 0 l = true /\ readable (Script None l)) ls -> among_cost ls <= 201 -> sized (Script None (among ls)) ->
  Forall short_item ys -> blen (ys ++ choose i) <= 1000 -> sized (supply (ys ++ choose i)) -> ~ flag fl MINIMALDATA ->
  (verify self (supply (ys ++ choose i)) (Script None (among ls)) fl = Ok (true, IE_None) <-> exists l, nth_error ls i = Some l /\ verify self (supply ys) (Script None l) fl = Ok (true, IE_None)).
Proof.
  intros F K SA S R SZ FM. rewrite (among_verify self ls _ fl F K SA) by (first [assumption | apply Forall_app; split; [exact S|apply choose_short]]). rewrite rev_app_distr, (choose_chosen first_bool ls i (rev ys) eq_refl eq_refl).
  destruct (nth_error ls i) as [l|]; split.
  - intros (l' & ys' & [= <- E] & V). exists l. split; [reflexivity|]. apply (f_equal (@rev bytes)) in E. rewrite !rev_involutive in E. subst ys'. exact V.
  - intros (l' & [= <-] & V). exists l, ys. auto.
  - intros (l' & ys' & C & _). discriminate.
  - intros (l' & C & _). discriminate.
Qed.
Lemma choose_bitcoin ls i ys fl : Forall (fun l => level 0 l = true) ls -> among_cost ls <= 201 -> Forall short_item ys -> blen (ys ++ choose i) <= 1000 -> ~ flag fl MINIMALDATA ->
  (ref_accepts (bitcoin fl) (ref_script (supply (ys ++ choose i))) (ref_script (Script None (among ls))) <-> exists l, nth_error ls i = Some l /\ ref_accepts (bitcoin fl) (ref_script (supply ys)) (ref_script (Script None l))).
Proof.
  intros F K S R FM. unfold ref_script at 2 4. cbn [s_ins]. rewrite (among_accepts (bitcoin fl) ls _ (bitcoin_pushes fl FM) F K) by (first [assumption | apply Forall_app; split; [exact S|apply choose_short]]).
  rewrite rev_app_distr, (choose_chosen (d_true (bitcoin fl)) ls i (rev ys) eq_refl eq_refl). destruct (nth_error ls i) as [l|]; split.
  - intros (l' & ys' & [= <- E] & V). exists l. split; [reflexivity|]. apply (f_equal (@rev bytes)) in E. rewrite !rev_involutive in E. subst ys'. exact V.
  - intros (l' & [= <-] & V). exists l, ys. auto.
  - intros (l' & ys' & C & _). discriminate.
  - intros (l' & C & _). discriminate.
Qed.
Lemma among_bitcoin fl ls s : Forall (fun l => level 0 l = true) ls -> among_cost ls <= 201 -> blen s <= 1000 ->
  ref_eval (bitcoin fl) (map ref_instr (among ls)) s = match chosen bitcoin_bool ls s with Some (l, t) => ref_eval (bitcoin fl) (map ref_instr l) t | None => None end.
Proof. intros F K. exact (among_eval (bitcoin fl) ls F K s). Qed.
Lemma among_nested ls : Forall (fun l => level 0 l = true) ls -> level 0 (among ls) = true /\ ops_of (among ls) = among_cost ls.
Proof. intros F. split; [apply among_level, F|apply among_ops]. Qed.
Lemma on_all c : Forall (eq true) c -> on c = true.
Proof. intros F. unfold on. apply forallb_forall. intros b I. rewrite Forall_forall in F. symmetry. exact (F b I). Qed.
Lemma on_off c : In false c -> on c = false.
Proof. intros I. destruct (on c) eqn:E; [|reflexivity]. unfold on in E. rewrite forallb_forall in E. exact (eq_sym (E _ I)). Qed.
Lemma run_under_all D l s a c c0 k : level (length c) l = true -> Forall (eq true) c0 ->
  ref_run D (map ref_instr l) (RState s a (c ++ c0) k) = match ref_run D (map ref_instr l) (RState s a c k) with Some (RState s a _ k) => Some (RState s a c0 k) | None => None end.
Proof.
  intros L O. destruct (run_under D l s a c c0 k L (on_all c0 O)) as (E & C). rewrite E. destruct (ref_run D (map ref_instr l) (RState s a c k)) as [[s1 a1 c1 k1]|]; [|reflexivity].
  specialize (C _ eq_refl). cbn [r_cond] in C. subst c1. reflexivity.
Qed.
Lemma run_passed D l s a c1 c0 k : level (length c1) l = true -> In false c0 -> (d_each D = true -> blen s + blen a <= 1000) -> k + ops_of l <= 201 ->
  ref_run D (map ref_instr l) (RState s a (c1 ++ c0) k) = Some (RState s a c0 (k + ops_of l)).
Proof. intros L O R. apply run_over; [exact L|exact (on_off c0 O)|]. destruct (d_each D); [|reflexivity]. specialize (R eq_refl). cbn [negb orb]. lia. Qed.
