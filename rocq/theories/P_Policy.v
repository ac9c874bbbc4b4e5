(** Spending policies (lemmas). *)
From Coq Require Import ZArith Lia Bool List.
From Verif Require Import Base M_Hash S_Codec P_ScriptNum M_Keys M_Script S_Script M_Interp S_Interp S_Ref P_Ref P_Local S_Formula P_Formula S_Policy.
Import ListNotations.
Open Scope Z_scope.

Definition handy (D : dialect) : Prop := usable D /\ forall z d, shortest_push z d = true -> d_push D z d = true.
Lemma handy_bitcoin f : handy (bitcoin f).
Proof. split; [apply usable_bitcoin|]. intros z d H. unfold bitcoin, d_push. destruct (Z.testbit f MINIMALDATA); [exact H|reflexivity]. Qed.
Lemma handy_bitforge f : ~ flag f MINIMALDATA -> handy (bitforge f).
Proof.
  intros M. split; [apply usable_bitforge, M|]. intros z d _. unfold bitforge, d_push. unfold flag in M. destruct (Z.testbit f MINIMALDATA); [contradiction M; reflexivity|reflexivity].
Qed.
Lemma value_top l m f : only_top f -> forall x r, value l m (x :: r) f = value l m [x] f.
Proof.
  intros T x r. induction f as [n|i|u y IY|b y IY z IZ|y IY z IZ t IT|y IY z IZ t IT]; cbn [value only_top] in *.
  - reflexivity.
  - subst i. reflexivity.
  - rewrite IY by exact T. reflexivity.
  - destruct T as (T1 & T2). rewrite IY, IZ by assumption. reflexivity.
  - destruct T as (T1 & T2 & T3). rewrite IY, IZ, IT by assumption. reflexivity.
  - destruct T as (T1 & T2 & T3). rewrite IY, IZ, IT by assumption. reflexivity.
Qed.
Lemma data_step D h s a c k : handy D -> 2 <= blen h <= 75 ->
  ref_step D (ref_instr (Instr (Zb (blen h)) (Some (BA h)))) (RState s a c k) = Some (RState (if on c then h :: s else s) a c k).
Proof.
  intros (_ & P) L. assert (S : d_push D (blen h) h = true).
  { apply P. unfold shortest_push. destruct h as [|x [|y t]]; [unfold blen in L; cbn in L; lia|unfold blen in L; cbn in L; lia|]. replace (blen (x :: y :: t) <=? 75) with true by lia. apply Z.eqb_refl. }
  unfold ref_instr. cbn [i_op i_data option_map pyb_bytes]. rewrite bZ_Zb by lia. unfold ref_step, on. replace (96 <? blen h) with false by lia. replace (520 <? blen h) with false by lia. cbn [andb].
  assert (Q : ref_disabled (blen h) = false) by (unfold ref_disabled; lia). rewrite Q, S. replace (blen h <=? 78) with true by lia. clear S. revert L. generalize (blen h). intros z L.
  destruct z as [|z|z]; [lia| |lia]. do 7 (destruct z as [z|z|]; try lia; try (destruct (forallb (fun b => b) c); reflexivity)).
Qed.
Lemma hash_step D j x s a c k : on c = true -> k + 1 <= 201 -> ref_step D (ref_instr (word (hash_code j))) (RState (x :: s) a c k) = Some (RState (hash_of j x :: s) a c (k + 1)).
Proof.
  intros C K. unfold on in C. unfold ref_step, ref_instr, word. cbn [i_op i_data option_map]. rewrite C. assert (E : 201 <? k + 1 = false) by lia.
  destruct j; cbn -[sha256 ripemd160 sha1]; rewrite E; reflexivity.
Qed.
Lemma hash_none D j a c k : on c = true -> ref_step D (ref_instr (word (hash_code j))) (RState [] a c k) = None.
Proof.
  intros C. unfold on in C. unfold ref_step, ref_instr, word. cbn [i_op i_data option_map]. rewrite C. 
  destruct j; cbn -[sha256 ripemd160 sha1]; destruct (201 <? k + 1); reflexivity.
Qed.
Lemma equal_step D x y s a c k : on c = true -> k + 1 <= 201 -> ref_step D (ref_instr (word x87)) (RState (y :: x :: s) a c k) = Some (RState (script_num (as01 (bytes_eqb x y)) :: s) a c (k + 1)).
Proof.
  intros C K. unfold on in C. unfold ref_step, ref_instr, word. cbn [i_op i_data option_map]. rewrite C. assert (E : 201 <? k + 1 = false) by lia.
  cbn -[script_num]. rewrite E. reflexivity.
Qed.
Lemma nip_step D s a c k : on c = true -> k + 1 <= 201 -> ref_step D (ref_instr (word x77)) (RState s a c k) = match s with x :: _ :: r => Some (RState (x :: r) a c (k + 1)) | _ => None end.
Proof.
  intros C K. unfold on in C. unfold ref_step, ref_instr, word. cbn [i_op i_data option_map]. rewrite C. assert (E : 201 <? k + 1 = false) by lia.
  cbn. rewrite E. destruct s as [|x [|y s]]; reflexivity.
Qed.
Lemma verify_step D b s a c k : usable D -> on c = true -> k + 1 <= 201 -> ref_step D (ref_instr (word x69)) (RState (script_num (as01 b) :: s) a c k) = if b then Some (RState s a c (k + 1)) else None.
Proof.
  intros (_ & _ & T0 & T1) C K. unfold on in C. unfold ref_step, ref_instr, word. cbn [i_op i_data option_map]. rewrite C. assert (E : 201 <? k + 1 = false) by lia.
  cbn -[script_num]. rewrite E. destruct b; unfold as01; [rewrite T1|rewrite T0]; reflexivity.
Qed.
Lemma choose_step D s a c k : on c = true -> k + 1 <= 201 -> ref_step D (ref_instr (word x63)) (RState s a c k) = match s with x :: r => Some (RState r a (d_true D x :: c) (k + 1)) | [] => None end.
Proof.
  intros C K. unfold on in C. unfold ref_step, ref_instr, word. cbn [i_op i_data option_map]. rewrite C. assert (E : 201 <? k + 1 = false) by lia.
  cbn. rewrite E. destruct s; reflexivity.
Qed.
Definition other_word (o : opcode) : Prop := o = x87 \/ o = x77 \/ o = x69 \/ exists j, o = hash_code j.
Lemma skip_other D o s a c k : other_word o -> on c = false -> k + 1 <= 201 -> ref_step D (ref_instr (word o)) (RState s a c k) = Some (RState s a c (k + 1)).
Proof.
  intros H C K. unfold on in C. unfold ref_step, ref_instr, word. cbn [i_op i_data option_map]. rewrite C. change (blen []) with 0. change (520 <? 0) with false. cbv iota.
  assert (E : 201 <? k + 1 = false) by lia.
  destruct H as [->|[->|[->|(j & ->)]]]; [| | |destruct j]; cbn -[sha256 ripemd160 sha1]; rewrite E; reflexivity.
Qed.
Lemma policy_operations_pos p : 0 <= policy_operations p.
Proof. induction p as [[k h|f]|p IP q IQ|p IP q IQ]; cbn [policy_operations leaf_operations]; try lia. pose proof (operations_pos f). lia. Qed.
Lemma policy_cells_pos p : 1 <= policy_cells p.
Proof. induction p as [[k h|f]|p IP q IQ|p IP q IQ]; cbn [policy_cells]; try lia. apply cells_pos. Qed.
Lemma policy_skip D p : handy D -> policy_ok p -> forall s a c k, on c = false -> blen s + blen a <= 1000 -> policy_cells p <= 1000 -> k + policy_operations p <= 201 ->
  ref_run D (map ref_instr (policy_code p)) (RState s a c k) = Some (RState s a c (k + policy_operations p)).
Proof.
  intros U. induction p as [[j h|f]|p IP q IQ|p IP q IQ]; intros OK s a c k C R RC K; cbn [policy_code policy_ok leaf_ok leaf_code policy_operations leaf_operations policy_cells] in *; rewrite ?map_app, ?ref_run_app; cbn [map].
  - erewrite run_next; [|apply skip_other; [right; right; right; exists j; reflexivity|exact C|lia]|exact R].
    erewrite run_next; [|rewrite (data_step D h) by assumption; rewrite C; reflexivity|exact R].
    erewrite run_next; [|apply skip_other; [left; reflexivity|exact C|lia]|exact R]. cbn [ref_run]. do 2 f_equal. lia.
  - destruct OK as (M & _). destruct U as (U & _). pose proof (operations_pos f). rewrite (compile_skip D f U M) by (try exact C; lia).
    erewrite run_next; [|apply skip_word; [right; right; left; reflexivity|exact C|lia]|exact R].
    erewrite run_next; [|apply skip_other; [right; left; reflexivity|exact C|lia]|exact R]. cbn [ref_run]. do 2 f_equal. lia.
  - destruct OK as (O1 & O2). pose proof (policy_operations_pos p). pose proof (policy_operations_pos q). rewrite (IP O1) by (try exact C; lia). cbn [app].
    erewrite run_next; [|apply skip_other; [right; right; left; reflexivity|exact C|lia]|exact R]. rewrite (IQ O2) by (try exact C; lia). do 2 f_equal. lia.
  - destruct OK as (O1 & O2). pose proof (policy_operations_pos p). pose proof (policy_operations_pos q). cbn [app].
    erewrite run_next; [|apply if_skip; [exact C|lia]|exact R]. cbn [ref_run]. rewrite ref_run_app. rewrite (IP O1) by (try reflexivity; lia). cbn [app].
    erewrite run_next; [|apply else_step; lia|exact R]. cbn [negb]. rewrite ref_run_app. rewrite (IQ O2) by (try exact C; lia).
    erewrite run_next; [|apply endif_step; lia|exact R]. cbn [ref_run]. do 2 f_equal. lia.
Qed.
Lemma satisfy_shorter t l m p : forall s b r, satisfy t l m p s = Some (b, r) -> blen r < blen s.
Proof.
  induction p as [lf|p IP q IQ|p IP q IQ]; intros s b r H; cbn [satisfy] in H.
  - destruct s as [|x s]; [discriminate H|]. destruct (leaf_holds l m x lf); [|discriminate H]. assert (s = r) as -> by congruence. rewrite blen_cons. lia.
  - destruct (satisfy t l m p s) as [[[] r1]|] eqn:E; [|discriminate H|discriminate H]. apply IP in E. apply IQ in H. lia.
  - destruct s as [|x s]; [discriminate H|]. rewrite blen_cons. destruct (t x); [apply IP in H|apply IQ in H]; lia.
Qed.
Lemma policy_run D p : handy D -> policy_ok p -> forall s a c k, on c = true -> blen s + blen a + policy_cells p <= 1000 -> k + policy_operations p <= 201 ->
  ref_run D (map ref_instr (policy_code p)) (RState s a c k) =
  match satisfy (d_true D) (d_limit D) (d_minimal D) p s with Some (b, r) => Some (RState (script_num (as01 b) :: r) a c (k + policy_operations p)) | None => None end.
Proof.
  intros U. induction p as [[j h|f]|p IP q IQ|p IP q IQ]; intros OK s a c k C R K; cbn [policy_code policy_ok leaf_ok leaf_code policy_operations leaf_operations policy_cells satisfy leaf_holds] in *;
    rewrite ?map_app, ?ref_run_app; cbn [map]; pose proof (blen_nonneg s); pose proof (blen_nonneg a).
  - destruct s as [|x s]; [apply run_none, hash_none, C|]. rewrite blen_cons in *. 
    erewrite run_next; [|apply hash_step; [exact C|lia]|rewrite blen_cons; lia].
    erewrite run_next; [|rewrite (data_step D h) by assumption; rewrite C; reflexivity|rewrite !blen_cons; lia].
    erewrite run_next; [|apply equal_step; [exact C|lia]|rewrite blen_cons; lia]. cbn [ref_run]. do 2 f_equal. lia.
  - destruct OK as (M & T). destruct U as (U & _). pose proof (operations_pos f). pose proof (cells_pos f).
    pose proof (compile_run D f U M [] s a c k C) as E. cbn [app List.length] in E. change (blen []) with 0 in E. rewrite E by lia. clear E.
    destruct s as [|x s].
    + destruct (value (d_limit D) (d_minimal D) [] f) as [v|]; [|reflexivity]. destruct (fit (d_limit D) (Some v)) as [w|] eqn:F.
      * erewrite run_next; [|change x92 with (un_code U_nonzero); rewrite un_step by (try assumption; lia); rewrite F; reflexivity|rewrite !blen_cons; lia]. apply run_none. rewrite nip_step by (try exact C; lia). reflexivity.
      * apply run_none. change x92 with (un_code U_nonzero). rewrite un_step by (try assumption; lia). rewrite F. reflexivity.
    + rewrite (value_top _ _ f T x s). destruct (value (d_limit D) (d_minimal D) [x] f) as [v|]; [|reflexivity]. destruct (fit (d_limit D) (Some v)) as [w|] eqn:F.
      * erewrite run_next; [|change x92 with (un_code U_nonzero); rewrite un_step by (try assumption; lia); rewrite F; reflexivity|rewrite !blen_cons in *; lia].
        erewrite run_next; [|rewrite nip_step by (try exact C; lia); reflexivity|rewrite !blen_cons in *; lia]. cbn [ref_run un_val]. do 2 f_equal. lia.
      * apply run_none. change x92 with (un_code U_nonzero). rewrite un_step by (try assumption; lia). rewrite F. reflexivity.
  - destruct OK as (O1 & O2). pose proof (policy_operations_pos p). pose proof (policy_operations_pos q). rewrite (IP O1) by (try exact C; lia).
    destruct (satisfy (d_true D) (d_limit D) (d_minimal D) p s) as [[b r]|] eqn:E; [|reflexivity]. apply satisfy_shorter in E. pose proof (blen_nonneg r). pose proof (policy_cells_pos p). pose proof (policy_cells_pos q). destruct U as (U & _). cbn [app]. destruct b.
    + erewrite run_next; [|rewrite verify_step by (try assumption; lia); reflexivity|lia]. rewrite (IQ O2) by (try exact C; lia).
      destruct (satisfy (d_true D) (d_limit D) (d_minimal D) q r) as [[b t]|]; [|reflexivity]. do 2 f_equal. lia.
    + apply run_none. rewrite verify_step by (try assumption; lia). reflexivity.
  - destruct OK as (O1 & O2). pose proof (policy_operations_pos p). pose proof (policy_operations_pos q). pose proof (policy_cells_pos p). pose proof (policy_cells_pos q). cbn [app]. destruct s as [|x s]; [rewrite run_none; [reflexivity|]; rewrite choose_step by (try exact C; lia); reflexivity|]. rewrite blen_cons in *.
    erewrite run_next; [|rewrite choose_step by (try exact C; lia); reflexivity|lia]. cbn [ref_run]. rewrite ref_run_app. destruct (d_true D x).
    + rewrite (IP O1) by (try exact C; lia). destruct (satisfy (d_true D) (d_limit D) (d_minimal D) p s) as [[b r]|] eqn:E; [|reflexivity]. apply satisfy_shorter in E. cbn [app].
      erewrite run_next; [|apply else_step; lia|rewrite blen_cons; lia]. cbn [negb]. rewrite ref_run_app. rewrite (policy_skip D q U O2) by (try reflexivity; rewrite ?blen_cons; lia).
      erewrite run_next; [|apply endif_step; lia|rewrite blen_cons; lia]. cbn [ref_run]. do 2 f_equal. lia.
    + rewrite (policy_skip D p U O1) by (try reflexivity; lia). cbn [app]. erewrite run_next; [|apply else_step; lia|lia]. cbn [negb]. rewrite ref_run_app. rewrite (IQ O2) by (try exact C; lia).
      destruct (satisfy (d_true D) (d_limit D) (d_minimal D) q s) as [[b r]|] eqn:E; [|reflexivity]. apply satisfy_shorter in E.
      erewrite run_next; [|apply endif_step; lia|rewrite blen_cons; lia]. cbn [ref_run]. do 2 f_equal. lia.
Qed.
(** ** whole scripts *)
Lemma policy_eval D p s : handy D -> policy_ok p -> policy_operations p <= 201 -> blen s + policy_cells p <= 1000 ->
  ref_eval D (ref_script (policy_script p)) s = match satisfy (d_true D) (d_limit D) (d_minimal D) p s with Some (b, r) => Some (script_num (as01 b) :: r) | None => None end.
Proof.
  intros U OK O R. unfold ref_eval, ref_script, policy_script. cbn [s_ins]. rewrite (policy_run D p U OK) by (try reflexivity; change (blen (@nil bytes)) with 0; lia).
  destruct (satisfy (d_true D) (d_limit D) (d_minimal D) p s) as [[b r]|] eqn:E; [|reflexivity]. apply satisfy_shorter in E. cbn [r_cond r_main]. unfold in_limit. cbn [r_main r_alt]. rewrite blen_cons. change (blen (@nil bytes)) with 0.
  pose proof (policy_cells_pos p). replace (1 + blen r + 0 <=? 1000) with true by lia. reflexivity.
Qed.
Lemma fine_more o : o = x69 \/ o = x77 \/ o = x87 \/ (exists j, o = hash_code j) -> fine [word o] 1.
Proof. intros H. apply fine_word. destruct H as [->|[->|[->|(j & ->)]]]; [| | |destruct j]; vm_compute; intuition discriminate. Qed.
Lemma fine_policy p : policy_ok p -> policy_cells p <= 1000 -> fine (policy_code p) (39 * policy_operations p).
Proof.
  induction p as [[j h|f]|p IP q IQ|p IP q IQ]; intros OK R; cbn [policy_code policy_ok leaf_ok leaf_code policy_operations leaf_operations policy_cells] in *.
  - apply (fine_le _ (1 + ((1 + blen h) + 1))); [|lia]. apply (fine_app [word (hash_code j)] [Instr (Zb (blen h)) (Some (BA h)); word x87]); [apply fine_more; right; right; right; exists j; reflexivity|].
    apply (fine_app [Instr (Zb (blen h)) (Some (BA h))] [word x87]); [apply fine_data; lia|apply fine_more; auto].
  - destruct OK as (M & _). pose proof (operations_pos f). apply (fine_le _ ((5 + 12 * operations f) + (1 + 1))); [|lia]. apply fine_app; [apply (fine_compile f M 0); lia|].
    apply (fine_app [word x92] [word x77]); [apply (fine_un U_nonzero)|apply fine_more; auto].
  - destruct OK as (O1 & O2). apply (fine_le _ (39 * policy_operations p + (1 + 39 * policy_operations q))); [|lia]. apply fine_app; [apply IP; [assumption|lia]|]. apply fine_app; [apply fine_more; auto|apply IQ; [assumption|lia]].
  - destruct OK as (O1 & O2). apply (fine_le _ (1 + (39 * policy_operations p + (1 + (39 * policy_operations q + 1))))); [|lia].
    apply fine_app; [apply fine_other; auto 6|]. apply fine_app; [apply IP; [assumption|lia]|]. apply fine_app; [apply fine_other; auto 6|]. apply fine_app; [apply IQ; [assumption|lia]|apply fine_other; auto 6].
Qed.
Lemma policy_fine p : policy_ok p -> policy_cells p <= 1000 -> policy_operations p <= 201 -> readable (policy_script p) /\ sized (policy_script p).
Proof. intros OK C O. apply (fine_script _ (39 * policy_operations p)); [apply fine_policy; assumption|lia]. Qed.
Lemma policy_accepts D p xs : handy D -> (forall z d, d_push D z d = true) -> policy_ok p -> policy_operations p <= 201 -> blen xs + policy_cells p <= 1000 -> Forall (fun x => 1 <= blen x <= 75) xs ->
  (ref_accepts D (ref_script (supply xs)) (ref_script (policy_script p)) <-> exists r, satisfy (d_true D) (d_limit D) (d_minimal D) p (rev xs) = Some (true, r)).
Proof.
  intros U P OK O R F. unfold ref_accepts. pose proof (policy_cells_pos p). rewrite (supply_eval D xs P F) by lia.
  assert (E := policy_eval D p (rev xs) U OK O ltac:(rewrite blen_rev; lia)). destruct U as ((_ & _ & T0 & T1) & _). split.
  - intros (s & x & t & S & G & T). assert (s = rev xs) as -> by congruence. rewrite E in G. destruct (satisfy (d_true D) (d_limit D) (d_minimal D) p (rev xs)) as [[b r]|]; [|discriminate G].
    assert (x = script_num (as01 b)) as -> by congruence. exists r. destruct b; [reflexivity|]. unfold as01 in T. congruence.
  - intros (r & H'). rewrite H' in E. exists (rev xs), (script_num 1), r. auto.
Qed.
Lemma no_minimal fl : ~ flag fl MINIMALDATA -> Z.testbit fl MINIMALDATA = false.
Proof. unfold flag. destruct (Z.testbit fl MINIMALDATA); [intros H; contradiction H; reflexivity|reflexivity]. Qed.
Lemma policy_verified self p xs fl : policy_ok p -> policy_operations p <= 201 -> blen xs + policy_cells p <= 1000 -> Forall (fun x => 1 <= blen x <= 75) xs -> ~ flag fl MINIMALDATA ->
  verify self (supply xs) (policy_script p) fl = Ok (true, IE_None) -> exists r, satisfy first_bool 3 false p (rev xs) = Some (true, r).
Proof.
  intros OK O R F FM H. pose proof (blen_nonneg xs). pose proof (no_minimal fl FM) as Q. destruct (policy_fine p OK ltac:(lia) O) as (RD & _). apply (verify_ref self _ _ fl (supply_readable xs F) RD) in H.
  assert (P : forall z d, d_push (bitforge fl) z d = true) by (intros z d; unfold bitforge, d_push; rewrite Q; reflexivity).
  assert (A : ref_accepts (bitforge fl) (ref_script (supply xs)) (ref_script (policy_script p))) by tauto.
  apply (policy_accepts (bitforge fl) p xs (handy_bitforge fl FM) P OK O R F) in A. cbn [d_true d_limit d_minimal bitforge] in A. rewrite Q in A. exact A.
Qed.
Lemma policy_verify self p xs fl : policy_ok p -> policy_operations p <= 201 -> blen xs + policy_cells p <= 1000 -> Forall (fun x => 1 <= blen x <= 75) xs -> sized (supply xs) -> ~ flag fl P2SH -> ~ flag fl MINIMALDATA ->
  (verify self (supply xs) (policy_script p) fl = Ok (true, IE_None) <-> exists r, satisfy first_bool 3 false p (rev xs) = Some (true, r)).
Proof.
  intros OK O R F SZ FP FM. split; [apply policy_verified; assumption|]. intros H. pose proof (blen_nonneg xs). pose proof (no_minimal fl FM) as Q. destruct (policy_fine p OK ltac:(lia) O) as (RD & SD). apply (verify_ref self _ _ fl (supply_readable xs F) RD).
  assert (P : forall z d, d_push (bitforge fl) z d = true) by (intros z d; unfold bitforge, d_push; rewrite Q; reflexivity).
  assert (A : ref_accepts (bitforge fl) (ref_script (supply xs)) (ref_script (policy_script p))).
  { apply (policy_accepts (bitforge fl) p xs (handy_bitforge fl FM) P OK O R F). cbn [d_true d_limit d_minimal bitforge]. rewrite Q. exact H. }
  split; [exact FP|]. split; [|tauto]. intros _. unfold supply. cbn [s_ins]. apply Forall_forall. intros i I. apply in_map_iff in I. destruct I as (x & <- & I). cbn [i_op].
  pose proof (proj1 (Forall_forall _ _) F x I) as L. cbv beta in L. rewrite bZ_Zb by lia. lia.
Qed.
Lemma policy_bitcoin p xs fl : policy_ok p -> policy_operations p <= 201 -> blen xs + policy_cells p <= 1000 -> Forall (fun x => 1 <= blen x <= 75) xs -> ~ flag fl MINIMALDATA ->
  (ref_accepts (bitcoin fl) (ref_script (supply xs)) (ref_script (policy_script p)) <-> exists r, satisfy bitcoin_bool 4 false p (rev xs) = Some (true, r)).
Proof.
  intros OK O R F FM. pose proof (no_minimal fl FM) as Q. assert (P : forall z d, d_push (bitcoin fl) z d = true) by (intros z d; unfold bitcoin, d_push; rewrite Q; reflexivity).
  rewrite (policy_accepts (bitcoin fl) p xs (handy_bitcoin fl) P OK O R F). cbn [d_true d_limit d_minimal bitcoin]. rewrite Q. reflexivity.
Qed.
(** ** what one has to know *)
Lemma opens_incl l m (know know' : bytes -> Prop) p : (forall x, know x -> know' x) -> opens l m know p -> opens l m know' p.
Proof.
  intros K. induction p as [lf|p IP q IQ|p IP q IQ]; cbn [opens]; [intros (x & A & B); exists x; auto|tauto|tauto].
Qed.
Lemma satisfy_opens t l m p : forall s r, satisfy t l m p s = Some (true, r) -> opens l m (fun x => In x s) p /\ (forall x, In x r -> In x s).
Proof.
  induction p as [lf|p IP q IQ|p IP q IQ]; intros s r H; cbn [satisfy opens] in *.
  - destruct s as [|x s]; [discriminate H|]. destruct (leaf_holds l m x lf) as [b|] eqn:E; [|discriminate H]. assert (b = true) as -> by congruence. assert (s = r) as -> by congruence.
    split; [exists x; split; [left; reflexivity|exact E]|]. intros y Y. right. exact Y.
  - destruct (satisfy t l m p s) as [[[] r1]|] eqn:E; [|discriminate H|discriminate H]. destruct (IP _ _ E) as (A & B). destruct (IQ _ _ H) as (C & D).
    split; [split; [exact A|revert C; apply opens_incl; exact B]|]. intros y Y. apply B, D, Y.
  - destruct s as [|x s]; [discriminate H|]. destruct (t x); [destruct (IP _ _ H) as (A & B)|destruct (IQ _ _ H) as (A & B)]; (split; [|intros y Y; right; apply B, Y]); [left|right]; revert A; apply opens_incl; intros y Y; right; exact Y.
Qed.
Lemma leaf_wider l l' m x lf b : 1 <= l <= l' -> leaf_holds l m x lf = Some b -> leaf_holds l' m x lf = Some b.
Proof.
  intros L. destruct lf as [k h|f]; cbn [leaf_holds]; [tauto|]. destruct (fit l (value l m [x] f)) as [v|] eqn:E; [|discriminate]. intros H.
  destruct (value l m [x] f) as [w|] eqn:V; [|discriminate E]. rewrite (value_wider l l' m [x] f L w V). rewrite (fit_wider l l' (Some w) v L E). exact H.
Qed.
Lemma opens_wider l l' m know p : 1 <= l <= l' -> opens l m know p -> opens l' m know p.
Proof.
  intros L. induction p as [lf|p IP q IQ|p IP q IQ]; cbn [opens]; [intros (x & A & B); exists x; split; [exact A|exact (leaf_wider _ _ _ _ _ _ L B)]|tauto|tauto].
Qed.
Lemma opens_satisfy m know p : opens 3 m know p -> exists s, Forall (fun x => know x \/ x = [x00] \/ x = [x01]) s /\ blen s <= policy_items p /\
  forall t l r, t [x00] = false -> t [x01] = true -> 3 <= l -> satisfy t l m p (s ++ r) = Some (true, r).
Proof.
  induction p as [lf|p IP q IQ|p IP q IQ]; cbn [opens satisfy policy_items].
  - intros (x & A & B). exists [x]. split; [constructor; [left; exact A|constructor]|]. split; [rewrite blen_cons; change (blen (@nil bytes)) with 0; lia|]. intros t l r _ _ L. cbn [app]. rewrite (leaf_wider 3 l m x lf true ltac:(lia) B). reflexivity.
  - intros (A & B). destruct (IP A) as (s & S1 & S2 & S3). destruct (IQ B) as (u & U1 & U2 & U3). exists (s ++ u). split; [apply Forall_app; auto|]. split; [unfold blen in *; rewrite app_length; lia|].
    intros t l r T0 T1 L. rewrite <- app_assoc, S3 by assumption. apply U3; assumption.
  - assert (P1 : 0 <= policy_items p) by (clear; induction p; cbn [policy_items]; lia). assert (P2 : 0 <= policy_items q) by (clear; induction q; cbn [policy_items]; lia).
    intros [A|A]; [destruct (IP A) as (s & S1 & S2 & S3); exists ([x01] :: s)|destruct (IQ A) as (s & S1 & S2 & S3); exists ([x00] :: s)];
      (split; [constructor; [auto|exact S1]|]; split; [rewrite blen_cons; lia|]; intros t l r T0 T1 L; cbn [app]; rewrite ?T0, ?T1; apply S3; assumption).
Qed.
Lemma few_items p : 5 * policy_items p <= 2 * policy_operations p + 1.
Proof. induction p as [[k h|f]|p IP q IQ|p IP q IQ]; cbn [policy_items policy_operations leaf_operations]; try lia. pose proof (operations_pos f). lia. Qed.
Lemma supply_sized xs : Forall (fun x => 1 <= blen x <= 75) xs -> blen xs <= 130 -> sized (supply xs).
Proof.
  intros F L. assert (A : fine (s_ins (supply xs)) (76 * blen xs)).
  { clear L. unfold supply. cbn [s_ins]. induction F as [|x xs L F IH]; [split; [constructor|exists []; split; [constructor|vm_compute; discriminate]]|]. cbn [map].
    rewrite blen_cons. apply (fine_le _ ((1 + blen x) + 76 * blen xs)); [|lia]. apply (fine_app [Instr (Zb (blen x)) (Some (BA x))]); [apply fine_data; exact L|exact IH]. }
  exact (proj2 (fine_script _ _ A ltac:(lia))).
Qed.
Lemma policy_needs self p xs fl : policy_ok p -> policy_operations p <= 201 -> blen xs + policy_cells p <= 1000 -> Forall (fun x => 1 <= blen x <= 75) xs -> ~ flag fl MINIMALDATA ->
  verify self (supply xs) (policy_script p) fl = Ok (true, IE_None) -> opens 3 false (fun x => In x xs) p.
Proof.
  intros OK O R F FM H. destruct (policy_verified self p xs fl OK O R F FM H) as (r & S). destruct (satisfy_opens _ _ _ _ _ _ S) as (A & _). revert A. apply opens_incl. intros x I. apply in_rev. exact I.
Qed.
Lemma policy_enough (know : bytes -> Prop) p fl : policy_ok p -> policy_operations p <= 201 -> policy_cells p <= 900 -> ~ flag fl P2SH -> ~ flag fl MINIMALDATA -> (forall x, know x -> 1 <= blen x <= 75) -> opens 3 false know p ->
  exists xs, Forall (fun x => know x \/ x = [x00] \/ x = [x01]) xs /\ (forall self, verify self (supply xs) (policy_script p) fl = Ok (true, IE_None)) /\ ref_accepts (bitcoin fl) (ref_script (supply xs)) (ref_script (policy_script p)).
Proof.
  intros OK O C FP FM K H. destruct (opens_satisfy _ _ _ H) as (s & S1 & S2 & S3). pose proof (few_items p). exists (rev s).
  assert (F : Forall (fun x => 1 <= blen x <= 75) (rev s)). { apply Forall_rev. revert S1. apply Forall_impl. intros x [A|[->| ->]]; [apply K, A|vm_compute; intuition discriminate|vm_compute; intuition discriminate]. }
  assert (L : blen (rev s) <= 81) by (rewrite blen_rev; lia). split; [apply Forall_rev; exact S1|]. split.
  - intros self. apply policy_verify; try assumption; [lia|apply supply_sized; [exact F|lia]|]. exists []. rewrite rev_involutive. rewrite <- (app_nil_r s). apply S3; [reflexivity|reflexivity|lia].
  - apply policy_bitcoin; try assumption; [lia|]. exists []. rewrite rev_involutive. rewrite <- (app_nil_r s). apply S3; [reflexivity|reflexivity|lia].
Qed.
Lemma policy_wider self p xs fl : policy_ok p -> policy_operations p <= 201 -> blen xs <= 100 -> policy_cells p <= 900 -> Forall (fun x => 1 <= blen x <= 75) xs -> ~ flag fl P2SH -> ~ flag fl MINIMALDATA ->
  verify self (supply xs) (policy_script p) fl = Ok (true, IE_None) ->
  exists ys, Forall (fun x => In x xs \/ x = [x00] \/ x = [x01]) ys /\ ref_accepts (bitcoin fl) (ref_script (supply ys)) (ref_script (policy_script p)).
Proof.
  intros OK O L C F FP FM H. pose proof (policy_needs self p xs fl OK O ltac:(lia) F FM H) as N.
  destruct (policy_enough (fun x => In x xs) p fl OK O C FP FM (fun x I => proj1 (Forall_forall _ _) F x I) N) as (ys & A & _ & B). exists ys. auto.
Qed.
(** IF reads 00 01 differently *)
Lemma policy_items_differ : exists p xs, policy_ok p /\ policy_operations p <= 201 /\ policy_cells p <= 900 /\ Forall (fun x => 1 <= blen x <= 75) xs /\
  (forall self, verify self (supply xs) (policy_script p) 0 = Ok (true, IE_None)) /\ ~ ref_accepts (bitcoin 0) (ref_script (supply xs)) (ref_script (policy_script p)).
Proof.
  set (p := P_or (P_leaf (L_number (F_num 0))) (P_leaf (L_number (F_num 1)))). set (xs := [[x05]; [x00; x01]]).
  assert (F : Forall (fun x => 1 <= blen x <= 75) xs) by (repeat constructor; vm_compute; discriminate).
  exists p, xs. split; [cbn; lia|]. split; [vm_compute; discriminate|]. split; [vm_compute; discriminate|]. split; [exact F|]. split.
  - intros self. vm_compute. reflexivity.
  - intros H. apply policy_bitcoin in H; [|cbn; lia|vm_compute; discriminate|vm_compute; discriminate|exact F|vm_compute; discriminate]. destruct H as (r & H). vm_compute in H. discriminate H.
Qed.
Lemma policy_exactly self (know : bytes -> Prop) p fl : policy_ok p -> policy_operations p <= 201 -> policy_cells p <= 900 -> ~ flag fl P2SH -> ~ flag fl MINIMALDATA -> (forall x, know x -> 1 <= blen x <= 75) -> know [x00] -> know [x01] ->
  ((exists xs, Forall know xs /\ blen xs <= 100 /\ verify self (supply xs) (policy_script p) fl = Ok (true, IE_None)) <-> opens 3 false know p).
Proof.
  intros OK O C FP FM K K0 K1. split.
  - intros (xs & F & L & V). assert (F' : Forall (fun x => 1 <= blen x <= 75) xs) by (revert F; apply Forall_impl; exact K).
    pose proof (policy_needs self p xs fl OK O ltac:(lia) F' FM V) as N. revert N. apply opens_incl. apply Forall_forall. exact F.
  - intros H. destruct (opens_satisfy _ _ _ H) as (s & S1 & S2 & S3). pose proof (few_items p). exists (rev s).
    assert (S : Forall know (rev s)). { apply Forall_rev. revert S1. apply Forall_impl. intros x [A|[->| ->]]; assumption. }
    assert (F : Forall (fun x => 1 <= blen x <= 75) (rev s)) by (revert S; apply Forall_impl; exact K).
    assert (L : blen (rev s) <= 81) by (rewrite blen_rev; lia). split; [exact S|]. split; [lia|]. apply policy_verify; try assumption; [lia|apply supply_sized; [exact F|lia]|].
    exists []. rewrite rev_involutive. rewrite <- (app_nil_r s). apply S3; [reflexivity|reflexivity|lia].
Qed.
