(** Property theorems C124: how many items a script needs and leaves; the bound of C56 is attained. *)
From Verif Require Import Base M_Script M_Interp S_Interp P_Interp S_Depth P_Depth P_Peak.
Open Scope Z_scope.

(** *** C124 *)
Theorem C124_step : forall st i st' x y dx dy, effect (bZ (i_op i)) = Some (x, y, dx, dy) -> executed st -> step st i = Ok (Next st') ->
  x <= blen (s_stack st) /\ y <= blen (s_alt st) /\ blen (s_stack st') = blen (s_stack st) + dx /\ blen (s_alt st') = blen (s_alt st) + dy /\ s_vf st' = s_vf st.
Proof. exact depth_step. Qed.
Print Assumptions C124_step.

Theorem C124_step_enough : forall st i e x y dx dy, effect (bZ (i_op i)) = Some (x, y, dx, dy) -> no_pick i -> executed st ->
  x <= blen (s_stack st) -> y <= blen (s_alt st) -> step st i = Ok (Fail e) -> ~ wants e.
Proof. exact depth_step_enough. Qed.
Print Assumptions C124_step_enough.

Theorem C124_run : forall l n a m b st st', sized l n a m b -> executed st -> blen (s_stack st) = n -> blen (s_alt st) = a -> run l st = Ok (Next st') ->
  blen (s_stack st') = m /\ blen (s_alt st') = b /\ s_vf st' = s_vf st.
Proof. exact depth_run. Qed.
Print Assumptions C124_run.

Theorem C124_run_enough : forall l n a m b st e, sized l n a m b -> Forall no_pick l -> executed st -> blen (s_stack st) = n -> blen (s_alt st) = a ->
  run l st = Ok (Fail e) -> ~ wants e.
Proof. exact depth_run_enough. Qed.
Print Assumptions C124_run_enough.

Theorem C124_skipped : forall l n a m b st st', sized l n a m b -> ~ executed st -> run l st = Ok (Next st') ->
  blen (s_stack st') = blen (s_stack st) /\ blen (s_alt st') = blen (s_alt st) /\ s_vf st' = s_vf st.
Proof. exact depth_skipped. Qed.
Print Assumptions C124_skipped.

Theorem C124_required : forall l r st st', straight l -> executed st -> run (l ++ r) st = Ok (Next st') ->
  required main_of (ops_of l) <= blen (s_stack st) /\ required alt_of (ops_of l) <= blen (s_alt st).
Proof. exact depth_required. Qed.
Print Assumptions C124_required.

Theorem C124_straight : forall l n a, straight l -> required main_of (ops_of l) <= n -> required alt_of (ops_of l) <= a -> exists m b, sized l n a m b.
Proof. exact depth_straight. Qed.
Print Assumptions C124_straight.

Theorem C124_verify : forall self a b f n c m d e, sized (s_ins a) 0 0 n c -> sized (s_ins b) n 0 m d -> 1 <= m ->
  Forall no_pick (s_ins a ++ s_ins b) -> verify self a b f = Ok (false, e) -> ~ wants e.
Proof. exact depth_verify. Qed.
Print Assumptions C124_verify.

Theorem C124_spend : forall self a b f e n c l r, sized (s_ins a) 0 0 n c -> s_ins b = l ++ r -> straight l ->
  verify self a b f = Ok (true, e) -> required main_of (ops_of l) <= n /\ required alt_of (ops_of l) <= 0.
Proof. exact depth_spend. Qed.
Print Assumptions C124_spend.

Theorem C124_spend_pushes : forall self a b f e l r, pushes (s_ins a) -> s_ins b = l ++ r -> straight l ->
  verify self a b f = Ok (true, e) -> required main_of (ops_of l) <= blen (s_ins a).
Proof. exact depth_spend_pushes. Qed.
Print Assumptions C124_spend_pushes.

Theorem C124_fixed_refuted : forall i, bZ (i_op i) = 115 \/ bZ (i_op i) = 117 -> i_data i = None ->
  ~ (exists d, forall st st', executed st -> step st i = Ok (Next st') -> blen (s_stack st') = blen (s_stack st) + d).
Proof. exact depth_unfixed. Qed.
Print Assumptions C124_fixed_refuted.

Theorem C56_bounds_attained : exists st st1 l1, reaches st st1 l1 /\ s_nop st = 0 /\ items st = 1000 /\ small_items st /\ items st1 = 11402.
Proof. exact full_peak. Qed.
Print Assumptions C56_bounds_attained.

(** SWAP on two items; with enough items ADD still fails for another reason *)
Example C124_step_instance :
  effect 124 = Some (2, 0, 0, 0) /\ step (ready (Script None []) [Str [x01]; Str [x02]] 0) (Instr x7c None) =
    Ok (Next (Interp [Str [x02]; Str [x01]] [] 1 0 1 [] IE_None 0 (Script None []))).
Proof. split; reflexivity. Qed.
Example C124_step_enough_instance :
  no_pick (Instr x69 None) /\ step (ready (Script None []) [Str []] 0) (Instr x69 None) = Ok (Fail IE_Verify).
Proof. split; [split; discriminate|reflexivity]. Qed.
(** IF DUP ELSE DEPTH ENDIF SWAP, on three items *)
Example C124_run_instance :
  let l := [Instr x63 None; Instr x76 None; Instr x67 None; Instr x74 None; Instr x68 None; Instr x7c None] in
  sized l 3 0 3 0 /\ Forall no_pick l /\
  match run l (ready (Script None l) [Str [x01]; Str [x02]; Str [x01]] 0) with Ok (Next s) => s_stack s = [Str [x01]; Str [x02]; Str [x02]] | _ => False end /\
  match run l (ready (Script None l) [Str [x01]; Str [x02]; Str []] 0) with Ok (Next s) => s_stack s = [Str [x01]; BA [x02]; Str [x02]] | _ => False end /\
  match run l (Interp [] [] 0 0 0 [false] IE_None 0 (Script None l)) with Ok (Next s) => s_stack s = [] | _ => False end.
Proof.
  split; [|split; [|split; [|split]]].
  - apply (Sized_else (Instr x63 None) [Instr x76 None] (Instr x67 None) [Instr x74 None] (Instr x68 None) [Instr x7c None] 3 0 3 0 3 0);
      [left; reflexivity|reflexivity|reflexivity|lia| | |]; eapply Sized_op; try reflexivity; try lia; constructor.
  - repeat constructor; discriminate.
  - vm_compute. reflexivity.
  - vm_compute. reflexivity.
  - vm_compute. reflexivity.
Qed.
(** 2DUP ADD EQUAL asks for two items and leaves two *)
Example C124_required_instance :
  let l := [Instr x6e None; Instr x93 None; Instr x87 None] in
  straight l /\ required main_of (ops_of l) = 2 /\ required alt_of (ops_of l) = 0 /\
  match run l (ready (Script None l) [BA [x02]; BA [x02]] 0) with Ok (Next s) => blen (s_stack s) = 2 | _ => False end.
Proof. split; [repeat constructor; discriminate|]. split; [reflexivity|]. split; [reflexivity|]. vm_compute. reflexivity. Qed.
Example C124_verify_instance :
  let a := Script None [Instr x52 None; Instr x53 None] in let b := Script None [Instr x93 None; Instr x55 None; Instr x87 None] in
  let c := Script None [Instr x93 None; Instr x54 None; Instr x87 None] in
  sized (s_ins a) 0 0 2 0 /\ sized (s_ins b) 2 0 1 0 /\ Forall no_pick (s_ins a ++ s_ins b) /\ pushes (s_ins a) /\ straight (s_ins b) /\
  required main_of (ops_of (s_ins b)) = 2 /\ verify (ready a [] 0) a b 0 = Ok (true, IE_None) /\ verify (ready a [] 0) a c 0 = Ok (false, IE_EvalFalseInStack).
Proof.
  cbv zeta. cbn [s_ins]. repeat split.
  all: try (repeat constructor; discriminate).
  all: repeat (eapply Sized_op; [reflexivity|lia|lia|]); constructor.
Qed.
