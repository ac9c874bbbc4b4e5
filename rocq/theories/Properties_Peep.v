(** Property theorems C114: replacing a part of a script by another that does the same. *)
From Coq Require Import ZArith Lia List.
From Verif Require Import Base M_Codec M_Keys M_Script S_Script M_Interp S_Interp P_Interp S_Peep P_Peep P_PeepW P_PeepR P_PeepT.
Import ListNotations.
Open Scope Z_scope.

(** *** C114 *)
Theorem C114_inside : forall pre a b post, improves a b -> improves (pre ++ a ++ post) (pre ++ b ++ post).
Proof. exact improves_inside. Qed.
Print Assumptions C114_inside.

Theorem C114_several : forall a b c a' b', (improves a b -> improves b c -> improves a c) /\ (improves a a' -> improves b b' -> improves (a ++ b) (a' ++ b')).
Proof. exact (fun a b c a' b' => conj (improves_trans a b c) (improves_app a b a' b')). Qed.
Print Assumptions C114_several.

Theorem C114_verify : forall self a b a' b' f e, improves (s_ins a) (s_ins a') -> improves (s_ins b) (s_ins b') ->
  (exists w, script_to_bytes a' = Ok w /\ blen w <= 10000) -> (exists w, script_to_bytes b' = Ok w /\ blen w <= 10000) ->
  (flag f SIGPUSHONLY -> Forall (fun i => bZ (i_op i) <= 96) (s_ins a')) ->
  verify self a b f = Ok (true, e) -> verify self a' b' f = Ok (true, e).
Proof. exact improves_verify. Qed.
Print Assumptions C114_verify.

Theorem C114_rewrites : forall a b, In (a, b) rewrites -> improves (words a) (words b) /\ alike 3 (words a) (words b).
Proof. exact rewrites_hold. Qed.
Print Assumptions C114_rewrites.

Theorem C114_reorders : forall a b, In (a, b) reorders -> improves (words a) (words b) /\ alike 5 (words a) (words b).
Proof. exact reorders_hold. Qed.
Print Assumptions C114_reorders.

Theorem C114_multisig : improves (words [174; 105]) (words [175]) /\ alike 22 (words [174; 105]) (words [175]).
Proof. exact (conj multisig_improves multisig_alike). Qed.
Print Assumptions C114_multisig.

Theorem C114_relaxes : forall a b, In (a, b) relaxes -> improves (words a) (words b).
Proof. exact relaxes_hold. Qed.
Print Assumptions C114_relaxes.

Theorem C114_relaxes_back_refuted : forall k a b, In (a, b) relaxes -> k <= 201 -> ~ alike k (words a) (words b).
Proof. exact relaxes_refuted. Qed.
Print Assumptions C114_relaxes_back_refuted.

Theorem C114_negate_twice_refuted : ~ improves (words [143; 143]) (words []).
Proof. exact negate_refuted. Qed.
Print Assumptions C114_negate_twice_refuted.

Theorem C114_stack_words : forall l l', Forall stack_word l -> Forall stack_word l' -> blen l <= 201 -> blen l' <= 201 ->
  (alike (Z.max (blen l) (blen l')) (words l) (words l') <->
   forall n o, (n <= 6 * Nat.max (length l) (length l'))%nat -> shuffle l (seq 0 n) o <-> shuffle l' (seq 0 n) o).
Proof. exact words_tests. Qed.
Print Assumptions C114_stack_words.

Theorem C114_shorter_stack_words : forall l l', Forall stack_word l -> Forall stack_word l' -> blen l' <= blen l ->
  (forall n o, (n <= 6 * length l)%nat -> shuffle l (seq 0 n) o -> shuffle l' (seq 0 n) o) -> improves (words l) (words l').
Proof. exact words_improve. Qed.
Print Assumptions C114_shorter_stack_words.

Theorem C114_dropping : forall l st s t, In l drops -> executing st -> s_nop st + 2 <= 201 ->
  leaves (words l) st s t <-> (exists x, s_stack st = s ++ [x]) /\ t = s_alt st.
Proof. exact drops_drop. Qed.
Print Assumptions C114_dropping.

Theorem C114_drop_refuted : forall k, k <= 201 ->
  ~ alike k (words [124; 117]) (words [119]) /\ ~ alike k (words [117; 117]) (words [109]) /\ ~ alike k (words [118; 117]) (words []).
Proof. exact drop_refuted. Qed.
Print Assumptions C114_drop_refuted.

(** ** Examples *)
(** 2 | 2 EQUAL VERIFY 3 5 SWAP GREATERTHAN becomes 2 | 2 EQUALVERIFY 3 5 LESSTHAN *)
Definition ex_lock := Script None (words [82; 135; 105; 83; 85; 124; 160]).
Definition ex_short := Script None (words [82; 136; 83; 85; 159]).
Definition ex_spend := Script None (words [82]).
Example ex_improves : improves (s_ins ex_lock) (s_ins ex_short).
Proof.
  apply (improves_app (words [82; 135; 105; 83; 85]) (words [124; 160]) (words [82; 136; 83; 85]) (words [159])).
  - apply (improves_inside (words [82]) (words [135; 105]) (words [136]) (words [83; 85])). apply C114_rewrites. unfold rewrites. cbn [In]. tauto.
  - apply C114_rewrites. unfold rewrites. cbn [In]. tauto.
Qed.
Example ex_verified : verify (at_stack []) ex_spend ex_lock 0 = Ok (true, IE_None).
Proof. vm_compute. reflexivity. Qed.
Example ex_verified_short : verify (at_stack []) ex_spend ex_short 0 = Ok (true, IE_None).
Proof.
  apply (C114_verify (at_stack []) ex_spend ex_lock ex_spend ex_short 0 IE_None (improves_refl _) ex_improves); [eexists; split; [reflexivity|vm_compute; discriminate]|eexists; split; [reflexivity|vm_compute; discriminate]|intros H; vm_compute in H; discriminate H|exact ex_verified].
Qed.
(** the hypotheses on stack words, with 2OVER 2SWAP and a longer sequence for it *)
Example ex_words : Forall stack_word [112; 114] /\ Forall stack_word [114; 112; 113; 113] /\ same_try [112; 114] [114; 112; 113; 113] = false /\ same_try [125; 125; 119] [125; 119; 125] = true.
Proof. repeat split; try stack_list; vm_compute; reflexivity. Qed.
Example ex_same : alike 4 (words [120; 120; 114]) (words [110; 114; 114; 114]).
Proof.
  apply (proj2 (C114_stack_words [120; 120; 114] [110; 114; 114; 114] ltac:(stack_list) ltac:(stack_list) ltac:(vm_compute; discriminate) ltac:(vm_compute; discriminate))).
  apply same_try_ok. vm_compute. reflexivity.
Qed.
Example ex_shorter : improves (words [120; 120; 114; 124; 124]) (words [110; 114]).
Proof.
  apply C114_shorter_stack_words; [stack_list|stack_list|vm_compute; discriminate|]. intros n o N. apply (same_try_ok [120; 120; 114; 124; 124] [110; 114] ltac:(vm_compute; reflexivity)). cbn [length] in *. lia.
Qed.
Example ex_dropping : leaves (words [118; 109]) (Interp [num 3; num 4] [] 0 0 0 [] IE_None 0 (Script None [])) [num 3] [].
Proof. apply C114_dropping; [left; reflexivity|intros []|cbn [s_nop]; lia|]. split; [exists (num 4)|]; reflexivity. Qed.
