(** Property theorems C95-C96: the interpreter against a reference semantics of Bitcoin script. *)
From Coq Require Import ZArith List.
From Verif Require Import Base M_Hash S_Codec M_Keys M_Script S_Script M_Interp S_Interp S_Ref P_Ref P_RefBtc.
Import ListNotations.
Open Scope Z_scope.

(** *** C95 *)
Theorem C95_number : forall n, sm_val (script_num n) = n /\ sm_shortest (script_num n).
Proof. exact script_num_correct. Qed.
Print Assumptions C95_number.

Theorem C95_bitcoin_truth : forall l, bitcoin_bool l = true <-> bitcoin_true l.
Proof. exact bitcoin_bool_spec. Qed.
Print Assumptions C95_bitcoin_truth.

Theorem C95_interpreter_truth : forall p, first_bool (pyb_bytes p) = true <-> true_item p.
Proof. exact first_bool_spec. Qed.
Print Assumptions C95_interpreter_truth.

Theorem C95_step : forall st i, typed st -> ref_step (bitforge (s_flags st)) (ref_instr i) (ref_state st) = outcome_state (step st i).
Proof. exact step_ref. Qed.
Print Assumptions C95_step.

Theorem C95_step_typed : forall st i st', (forall d, i_data i = Some d -> numeric_type d) -> typed st -> step st i = Ok (Next st') -> typed st'.
Proof. exact step_typed. Qed.
Print Assumptions C95_step_typed.

Theorem C95_evaluate : forall s stack fl, readable s -> Forall numeric_type stack ->
  (forall st', evaluate (ready s stack fl) = Ok (Next st') -> Forall numeric_type (s_stack st')) /\
  (forall t, (exists st', evaluate (ready s stack fl) = Ok (Next st') /\ rev (map pyb_bytes (s_stack st')) = t) <->
     sized s /\ ref_eval (bitforge fl) (ref_script s) (rev (map pyb_bytes stack)) = Some t).
Proof. exact evaluate_ref. Qed.
Print Assumptions C95_evaluate.

Theorem C95_verify : forall self a b f, readable a -> readable b ->
  verify self a b f = Ok (true, IE_None) <->
  ~ flag f P2SH /\ push_only f a /\ sized a /\ sized b /\ ref_accepts (bitforge f) (ref_script a) (ref_script b).
Proof. exact verify_ref. Qed.
Print Assumptions C95_verify.

Example C95_ex_number : script_num (-1) = [x81] /\ script_num 128 = [x80; x00] /\ script_num (-255) = [xff; x80] /\ script_num 0 = [].
Proof. split; [|split; [|split]]; reflexivity. Qed.
(** NULLDUMMY, SIGPUSHONLY, MINIMALDATA and DISCOURAGE_UPGRADABLE_NOPS set: 2 3 1 ; IF ADD 5 NUMEQUAL VERIFY ELSE 0 ENDIF 1 *)
Example C95_ex : readable ex_sig /\ readable ex_key /\ ~ flag 240 P2SH /\ push_only 240 ex_sig /\ sized ex_sig /\ sized ex_key /\ ref_accepts (bitforge 240) (ref_script ex_sig) (ref_script ex_key) /\
  forall self, verify self ex_sig ex_key 240 = Ok (true, IE_None).
Proof.
  pose proof ex_ref_conditions as (A & B & C & G & E & F & _). split; [exact A|]. split; [exact B|]. split; [exact C|]. split; [exact G|]. split; [exact E|]. split; [exact F|].
  split; [apply accepted; reflexivity|]. apply ex_ref_sound.
Qed.

(** *** C96 *)
Theorem C96_sound : forall self a b f e, readable a -> readable b -> avoids [117; 144] a -> avoids [117; 144] b ->
  3 * (blen (s_ins a) + blen (s_ins b)) <= 1000 -> during (bitforge f) (tests_clean [99; 100; 115]) (ref_script a) (ref_script b) ->
  verify self a b f = Ok (true, e) -> push_only f a /\ ref_accepts (bitcoin f) (ref_script a) (ref_script b).
Proof. exact verify_sound. Qed.
Print Assumptions C96_sound.

Theorem C96_sound_plain : forall self a b f e, readable a -> readable b -> avoids five a -> avoids five b ->
  3 * (blen (s_ins a) + blen (s_ins b)) <= 1000 -> verify self a b f = Ok (true, e) -> push_only f a /\ ref_accepts (bitcoin f) (ref_script a) (ref_script b).
Proof. exact verify_sound_plain. Qed.
Print Assumptions C96_sound_plain.

Theorem C96_complete : forall self a b f, readable a -> readable b -> ~ flag f P2SH -> push_only f a -> sized a -> sized b ->
  avoids [117; 144; 169; 174; 175; 177] a -> avoids [117; 144; 169; 174; 175; 177] b ->
  during (bitcoin f) (fun z s => tests_clean [99; 100; 105; 115] z s /\ short_operands z s /\ (flag f MINIMALDATA -> ~ 1 <= z <= 78)) (ref_script a) (ref_script b) ->
  (forall x, result (bitcoin f) (ref_script a) (ref_script b) x -> clean x) ->
  ref_accepts (bitcoin f) (ref_script a) (ref_script b) -> verify self a b f = Ok (true, IE_None).
Proof. exact verify_complete. Qed.
Print Assumptions C96_complete.

Theorem C96_complete_plain : forall self a b f, readable a -> readable b -> ~ flag f P2SH -> ~ flag f MINIMALDATA -> push_only f a -> sized a -> sized b -> avoids delicate a -> avoids delicate b ->
  (forall x, result (bitcoin f) (ref_script a) (ref_script b) x -> clean x) ->
  ref_accepts (bitcoin f) (ref_script a) (ref_script b) -> verify self a b f = Ok (true, IE_None).
Proof. exact verify_complete_plain. Qed.
Print Assumptions C96_complete_plain.

Theorem C96_sound_refuted : forall z, In z five -> exists a b, readable a /\ readable b /\ avoids (others z five) a /\ avoids (others z five) b /\
  3 * (blen (s_ins a) + blen (s_ins b)) <= 1000 /\ (forall self, verify self a b 0 = Ok (true, IE_None)) /\ ~ ref_accepts (bitcoin 0) (ref_script a) (ref_script b).
Proof. exact five_needed. Qed.
Print Assumptions C96_sound_refuted.

Theorem C96_complete_refuted : forall z, In z four -> exists a b, readable a /\ readable b /\ sized a /\ sized b /\ avoids (others z four) a /\ avoids (others z four) b /\
  ref_accepts (bitcoin 0) (ref_script a) (ref_script b) /\ (forall self, verify self a b 0 <> Ok (true, IE_None)).
Proof. exact four_needed. Qed.
Print Assumptions C96_complete_refuted.

Theorem C96_truth_refuted : exists a b, readable a /\ readable b /\ sized a /\ sized b /\ avoids delicate a /\ avoids delicate b /\
  ref_accepts (bitcoin 0) (ref_script a) (ref_script b) /\ (forall self, verify self a b 0 <> Ok (true, IE_None)).
Proof. exact truth_needed. Qed.
Print Assumptions C96_truth_refuted.

Theorem C96_operands_refuted : exists a b, readable a /\ readable b /\ sized a /\ sized b /\ avoids (others 139 delicate) a /\ avoids (others 139 delicate) b /\
  ref_accepts (bitcoin 0) (ref_script a) (ref_script b) /\ (forall self, verify self a b 0 <> Ok (true, IE_None)).
Proof. exact short_needed. Qed.
Print Assumptions C96_operands_refuted.

Theorem C96_limit_refuted : exists a b, readable a /\ readable b /\ avoids five a /\ avoids five b /\
  (forall self, verify self a b 0 = Ok (true, IE_None)) /\ ~ ref_accepts (bitcoin 0) (ref_script a) (ref_script b).
Proof. exact limit_needed. Qed.
Print Assumptions C96_limit_refuted.

Theorem C96_flags_refuted : forall f, In f [1; 64] -> exists a b, readable a /\ readable b /\ push_only f a /\ sized a /\ sized b /\ avoids delicate a /\ avoids delicate b /\
  (forall x, result (bitcoin f) (ref_script a) (ref_script b) x -> clean x) /\ ref_accepts (bitcoin f) (ref_script a) (ref_script b) /\ (forall self, verify self a b f <> Ok (true, IE_None)).
Proof. exact flags_needed. Qed.
Print Assumptions C96_flags_refuted.

Example C96_ex_complete : readable ex_sig /\ readable ex_key /\ ~ flag 240 P2SH /\ push_only 240 ex_sig /\ sized ex_sig /\ sized ex_key /\
  avoids [117; 144; 169; 174; 175; 177] ex_sig /\ avoids [117; 144; 169; 174; 175; 177] ex_key /\
  during (bitcoin 240) (fun z s => tests_clean [99; 100; 105; 115] z s /\ short_operands z s /\ (flag 240 MINIMALDATA -> ~ 1 <= z <= 78)) (ref_script ex_sig) (ref_script ex_key) /\
  (forall x, result (bitcoin 240) (ref_script ex_sig) (ref_script ex_key) x -> clean x) /\ ref_accepts (bitcoin 240) (ref_script ex_sig) (ref_script ex_key).
Proof. exact ex_ref_conditions. Qed.
Example C96_ex_sound : avoids [117; 144] ex_sig /\ avoids [117; 144] ex_key /\ 3 * (blen (s_ins ex_sig) + blen (s_ins ex_key)) <= 1000 /\
  during (bitforge 240) (tests_clean [99; 100; 115]) (ref_script ex_sig) (ref_script ex_key) /\ forall self, verify self ex_sig ex_key 240 = Ok (true, IE_None).
Proof. exact ex_ref_sound. Qed.
Example C96_ex_plain : readable (code []) /\ readable ex_plain /\ ~ flag 160 P2SH /\ ~ flag 160 MINIMALDATA /\ push_only 160 (code []) /\ sized (code []) /\ sized ex_plain /\ avoids delicate ex_plain /\
  (forall x, result (bitcoin 160) [] (ref_script ex_plain) x -> clean x) /\ ref_accepts (bitcoin 160) [] (ref_script ex_plain) /\
  forall self, verify self (code []) ex_plain 160 = Ok (true, IE_None).
Proof. exact ex_ref_plain. Qed.
