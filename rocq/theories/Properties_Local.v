(** What a script can see of the items below, of the script before it, and of the flags. *)
From Verif Require Import Base M_Keys M_Script S_Script M_Interp S_Interp S_Ref S_Local P_RefBtc P_Local.
Open Scope Z_scope.

(** *** C108 *)
Theorem C108_items_below : forall base st i st', ~ In (bZ (i_op i)) notice -> step st i = Ok (Next st') ->
  step (under base st) i = Ok (Next (under base st')).
Proof. exact frame_step_next. Qed.
Print Assumptions C108_items_below.

Theorem C108_items_below_back : forall base st i st2, ~ In (bZ (i_op i)) notice -> step (under base st) i = Ok (Next st2) ->
  (exists st', step st i = Ok (Next st') /\ st2 = under base st') \/ (exists o, step st i = Ok o /\ underflow o).
Proof. exact frame_step_back. Qed.
Print Assumptions C108_items_below_back.

Theorem C108_failures_stay : forall base st i e, ~ In (bZ (i_op i)) notice -> step st i = Ok (Fail e) -> ~ underflow (Fail e) ->
  step (under base st) i = Ok (Fail e).
Proof. exact frame_step_fail. Qed.
Print Assumptions C108_failures_stay.

Theorem C108_drop_refuted : exists st i base st', bZ (i_op i) = 117 /\ step st i = Ok (Next st') /\ step (under base st) i <> Ok (Next (under base st')).
Proof. exact drop_notices. Qed.
Print Assumptions C108_drop_refuted.

Theorem C108_run : forall base l st st', Forall (fun i => ~ In (bZ (i_op i)) notice) l -> run l st = Ok (Next st') ->
  run l (under base st) = Ok (Next (under base st')).
Proof. exact frame_run. Qed.
Print Assumptions C108_run.

Theorem C108_run_kept : forall base l st st', Forall (fun i => ~ In (bZ (i_op i)) [116]) l -> run l st = Ok (Next st') ->
  exists kept t, base = kept ++ t /\ run l (under base st) = Ok (Next (under kept st')).
Proof. exact kept_run. Qed.
Print Assumptions C108_run_kept.

Theorem C108_extra_items : forall self ps a b f e,
  readable (Script None ps) -> Forall pushing ps -> readable a -> readable b -> avoids [116] a -> avoids [116] b ->
  ~ flag f MINIMALDATA -> sized (join ps (s_ins a)) -> blen ps + 3 * (blen (s_ins a) + blen (s_ins b)) <= 1000 ->
  verify self a b f = Ok (true, e) -> verify self (join ps (s_ins a)) b f = Ok (true, e).
Proof. exact extra_items. Qed.
Print Assumptions C108_extra_items.

Theorem C108_depth_refuted : exists ps a b, readable (Script None ps) /\ Forall pushing ps /\ readable a /\ readable b /\ sized (join ps (s_ins a)) /\
  blen ps + 3 * (blen (s_ins a) + blen (s_ins b)) <= 1000 /\
  forall self, verify self a b 0 = Ok (true, IE_None) /\ verify self (join ps (s_ins a)) b 0 <> Ok (true, IE_None).
Proof. exact depth_needed. Qed.
Print Assumptions C108_depth_refuted.

Theorem C108_join : forall self ps b f e, readable (Script None ps) -> readable b -> Forall pushing ps -> blen ps <= 1000 -> sized (join ps (s_ins b)) ->
  verify self (Script None ps) b f = Ok (true, e) <-> verify self (Script None []) (join ps (s_ins b)) f = Ok (true, e).
Proof. exact join_verify. Qed.
Print Assumptions C108_join.

Theorem C108_join_altstack_refuted : exists a b, readable a /\ readable b /\ blen (s_ins a) <= 1000 /\ sized (join (s_ins a) (s_ins b)) /\
  forall self, verify self a b 0 <> Ok (true, IE_None) /\ verify self (Script None []) (join (s_ins a) (s_ins b)) 0 = Ok (true, IE_None).
Proof. exact join_alt_needed. Qed.
Print Assumptions C108_join_altstack_refuted.

Theorem C108_join_count_refuted : exists a b, readable a /\ readable b /\ blen (s_ins a) <= 1000 /\ sized (join (s_ins a) (s_ins b)) /\
  forall self, verify self a b 0 = Ok (true, IE_None) /\ verify self (Script None []) (join (s_ins a) (s_ins b)) 0 <> Ok (true, IE_None).
Proof. exact join_count_needed. Qed.
Print Assumptions C108_join_count_refuted.

Theorem C108_fewer_flags_step : forall st i st' g, fewer g (s_flags st) -> step st i = Ok (Next st') -> step (flagged g st) i = Ok (Next (flagged g st')).
Proof. exact flags_step. Qed.
Print Assumptions C108_fewer_flags_step.

Theorem C108_fewer_flags : forall self a b f g e, fewer g f -> verify self a b f = Ok (true, e) -> verify self a b g = Ok (true, e).
Proof. exact flags_verify. Qed.
Print Assumptions C108_fewer_flags.

Example C108_ex_items :
  let st := ready (code []) [BA [x03]; BA [x02]] 0 in let base := [BA [x07]; BA []] in
  ~ In (bZ (i_op (op 147))) notice /\ step st (op 147) = Ok (Next (Interp [BA [x05]] [] 1 0 1 [] IE_None 0 (code []))) /\
  step (under base st) (op 147) = Ok (Next (Interp [BA [x07]; BA []; BA [x05]] [] 1 0 1 [] IE_None 0 (code []))) /\
  step (ready (code []) [BA [x01; x02; x03; x04]] 0) (op 139) = Err E_InvalidScriptNumber /\
  step (ready (code []) [BA [x02]] 0) (op 147) = Ok (Fail IE_InvalidStack) /\
  step (ready (code []) [BA []] 0) (op 105) = Ok (Fail IE_Verify) /\ ~ underflow (Fail IE_Verify).
Proof. cbv zeta. split; [cbn; intuition discriminate|]. repeat (split; [reflexivity|]). intros [X|X]; discriminate X. Qed.

Example C108_ex : readable (Script None low) /\ Forall pushing low /\ readable (code [shown]) /\ readable lock /\ avoids [116] (code [shown]) /\ avoids [116] lock /\
  ~ flag 32 MINIMALDATA /\ sized (join low [shown]) /\ sized (join [shown] (s_ins lock)) /\ blen low + 3 * (blen [shown] + blen (s_ins lock)) <= 1000 /\ Forall pushing [shown] /\
  forall self, verify self (code [shown]) lock 32 = Ok (true, IE_None) /\ verify self (join low [shown]) lock 32 = Ok (true, IE_None) /\
    verify self (Script None []) (join [shown] (s_ins lock)) 32 = Ok (true, IE_None).
Proof. exact extra_ex. Qed.

Example C108_ex_flags : fewer 32 240 /\ forall self, verify self (code [op 81]) (code [op 81; op 135]) 240 = Ok (true, IE_None).
Proof.
  split; [|reflexivity]. intros k H. unfold flag in *. change 240 with (Z.lor 32 208). rewrite Z.lor_spec, H. reflexivity.
Qed.
