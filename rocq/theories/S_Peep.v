(** Specifications for replacing a part of a script by another that does the same. *)
From Coq Require Import ZArith List.
From Verif Require Import Base M_Keys M_Script M_Interp S_Interp.
Import ListNotations.
Open Scope Z_scope.

(** Instructions without data, by their numbers. *)
Definition word (z : Z) : instr := Instr (Zb z) None.
Definition words (l : list Z) : list instr := map word l.

(** Running [l] succeeds and leaves these two stacks. *)
Definition leaves (l : list instr) (st : interp) (s a : list pyb) : Prop :=
  exists st', run l st = Ok (Next st') /\ s_stack st' = s /\ s_alt st' = a.
(** Whenever [a] succeeds, [b] does, with the same stacks and conditions and no more operations
    counted. *)
Definition improves (a b : list instr) : Prop :=
  forall st st1, run a st = Ok (Next st1) ->
    exists st2, run b st = Ok (Next st2) /\ s_stack st2 = s_stack st1 /\ s_alt st2 = s_alt st1 /\ s_vf st2 = s_vf st1 /\ s_nop st2 <= s_nop st1.
(** Both succeed on the same states and leave the same stacks, where [k] more operations may be
    counted. *)
Definition alike (k : Z) (a b : list instr) : Prop :=
  forall st, executing st -> s_nop st + k <= 201 -> forall s t, leaves a st s t <-> leaves b st s t.

(** A machine that runs stack words over items of any kind. *)
Inductive shuffle {A} : list Z -> list A -> list A -> Prop :=
  | sh_nil s : shuffle [] s s
  | sh_word z k ks l s args mid out : In (z, (k, ks)) stack_words -> length args = k -> pick args ks mid ->
      shuffle l (s ++ mid) out -> shuffle (z :: l) (s ++ args) out.
Definition stack_word (z : Z) : Prop := exists e, In (z, e) stack_words.

(** Replacements that never make things worse. *)
Definition rewrites : list (list Z * list Z) := [
  ([97], []);                        (* NOP                                          *)
  ([135; 105], [136]);               (* EQUAL VERIFY         -> EQUALVERIFY          *)
  ([156; 105], [157]);               (* NUMEQUAL VERIFY      -> NUMEQUALVERIFY       *)
  ([124; 135], [135]); ([124; 136], [136]);  (* SWAP before a symmetric comparison   *)
  ([124; 147], [147]); ([124; 154], [154]); ([124; 155], [155]); ([124; 156], [156]); ([124; 157], [157]);
  ([124; 158], [158]); ([124; 163], [163]); ([124; 164], [164]);  (* SWAP ADD -> ADD and so on *)
  ([124; 159], [160]); ([124; 160], [159]); ([124; 161], [162]); ([124; 162], [161]); (* SWAP LESSTHAN -> GREATERTHAN *)
  ([156; 145], [158]); ([158; 145], [156]);  (* NUMEQUAL NOT -> NUMNOTEQUAL and back *)
  ([159; 145], [162]); ([160; 145], [161]); ([161; 145], [160]); ([162; 145], [159]); (* LESSTHAN NOT -> GREATERTHANOREQUAL *)
  ([145; 145], [146]);               (* NOT NOT              -> 0NOTEQUAL            *)
  ([146; 145], [145]); ([145; 146], [145]); ([146; 146], [146]); (* 0NOTEQUAL beside NOT *)
  ([143; 144], [144]); ([143; 146], [146]); ([143; 145], [145]); (* NEGATE before ABS, 0NOTEQUAL, NOT *)
  ([143; 147], [148]);               (* NEGATE ADD           -> SUB                  *)
  ([143; 148], [147]);               (* NEGATE SUB           -> ADD                  *)
  ([81; 147], [139]); ([81; 148], [140]);    (* 1 ADD -> 1ADD, 1 SUB -> 1SUB         *)
  ([0; 121], [118]); ([81; 121], [120]);     (* 0 PICK -> DUP, 1 PICK -> OVER        *)
  ([81; 122], [124]); ([82; 122], [123])].   (* 1 ROLL -> SWAP, 2 ROLL -> ROT        *)
(** The same, that are not the same the other way round: the shorter one succeeds more often. *)
Definition relaxes : list (list Z * list Z) := [
  ([107; 108], []);                  (* TOALTSTACK FROMALTSTACK                      *)
  ([124; 124], []);                  (* SWAP SWAP                                    *)
  ([124; 148; 143], [148]);          (* SWAP SUB NEGATE      -> SUB                  *)
  ([0; 122], [])].                   (* 0 ROLL                                       *)
(** Stack words for stack words; each pair succeeds on the same stacks. *)
Definition reorders : list (list Z * list Z) := [
  ([120; 120], [110]);               (* OVER OVER       -> 2DUP                      *)
  ([124; 120], [125]);               (* SWAP OVER       -> TUCK                      *)
  ([124; 118; 109], [119]);          (* SWAP DUP 2DROP  -> NIP                       *)
  ([125; 119], [119; 118]);          (* TUCK NIP        -> NIP DUP                   *)
  ([118; 124], [118]);               (* DUP SWAP        -> DUP                       *)
  ([110; 114], [110]);               (* 2DUP 2SWAP      -> 2DUP                      *)
  ([124; 124; 124], [124]);          (* SWAP three times                             *)
  ([114; 114; 114], [114]);          (* 2SWAP three times                            *)
  ([123; 123; 123; 123], [123]);     (* ROT four times                               *)
  ([113; 113; 113; 113], [113]);     (* 2ROT four times                              *)
  ([124; 123; 124; 123; 124], [123; 124; 123])]. (* SWAP ROT SWAP ROT SWAP -> ROT SWAP ROT *)
(** Commands that consume an item and do nothing else, which DROP does not (C53). *)
Definition drops : list (list Z) := [[118; 109]; [118; 136]].
