(** Equality of plain values, and printing of instructions that lack their data. *)
From Verif Require Import Base M_Hash M_Codec M_Keys S_Keys M_EC M_Script M_Tx M_HD M_Obj S_Script S_Obj P_Obj S_Leaf.
Open Scope Z_scope.

Lemma str_text_plain s t : str_text_eqb s t = true <-> Forall (fun b => bZ b < 128) s /\ map bZ s = t.
Proof.
  unfold str_text_eqb. rewrite Bool.andb_true_iff, codes_eqb_eq, forallb_forall, Forall_forall.
  split; intros [A B]; (split; [intros x i; specialize (A x i); lia | exact B]).
Qed.

Lemma map_bZ_inj s u : map bZ s = map bZ u -> s = u.
Proof.
  revert u. induction s as [|b s IH]; intros [|c u] E; try discriminate; [reflexivity|].
  cbn [map] in E. injection E as E1 E2. f_equal; [now apply bZ_inj | now apply IH].
Qed.

Lemma plain_eq a b : plain a -> plain b -> decides (py_eq a b) (same_plain a b).
Proof.
  intros A B. exists (leaf_eqb a b). split.
  - destruct A, B; reflexivity.
  - split.
    + destruct A as [|x|x|x|x|x], B as [|y|y|y|y|y]; cbn [leaf_eqb];
        try (intros E; discriminate E); try (destruct x; intros E; discriminate E).
      * intros _; constructor.
      * intros E. destruct x, y; cbn in E; try discriminate E; eapply Same_number; constructor.
      * intros E. apply Z.eqb_eq in E. subst y. destruct x; cbn; eapply Same_number; constructor.
      * intros E. apply Z.eqb_eq in E. subst x. destruct y; cbn; eapply Same_number; constructor.
      * intros E. apply Z.eqb_eq in E. subst y. eapply Same_number; constructor.
      * intros E. apply codes_eqb_eq in E. subst y. eapply Same_text; constructor.
      * destruct y as [s|s]; intros E; [|discriminate E]. apply str_text_plain in E. destruct E as [E <-]. eapply Same_text; constructor; exact E.
      * destruct x as [s|s]; intros E; [|discriminate E]. apply str_text_plain in E. destruct E as [E <-]. eapply Same_text; constructor; exact E.
      * intros E. assert (pyb_eqb x y = true) as E' by (destruct x; exact E). apply pyb_eqb_iff in E'. now constructor.
      * intros E. destruct x, y; cbn in E; try discriminate E; constructor.
    + intros S. destruct S as [|u v z N M|u v t C D|p q E|t].
      * reflexivity.
      * inversion N; subst; inversion M; subst; cbn [leaf_eqb int_of_bool]; try reflexivity; apply Z.eqb_refl.
      * inversion C as [t1 E1|s1 F1 E1]; inversion D as [t2 E2|s2 F2 E2]; subst; cbn [leaf_eqb].
        -- apply codes_eqb_refl.
        -- apply str_text_plain. split; [exact F2|reflexivity].
        -- apply str_text_plain. split; [exact F1|reflexivity].
        -- apply pyb_eqb_iff. cbn [pyb_bytes]. symmetry. apply map_bZ_inj. assumption.
      * apply pyb_eqb_iff in E. destruct p; exact E.
      * destruct t; reflexivity.
Qed.

Lemma number_hash h v z : number v z -> py_hash h v = Ok (hash_int h z).
Proof. intros []; reflexivity. Qed.

Lemma characters_hash h v t : characters v t -> py_hash h v = Ok (hash_text h t).
Proof.
  intros [u|s F]; [reflexivity|]. cbn [py_hash]. f_equal. symmetry. apply hash_ascii.
  apply forallb_forall. rewrite Forall_forall in F. intros x i. specialize (F x i). lia.
Qed.

Lemma print_no_data i : 1 <= bZ (i_op i) <= 78 -> i_data i = None -> ins_to_string i = Err E_TypeError.
Proof.
  intros H E. unfold ins_to_string. rewrite E.
  destruct (is_push (i_op i)) eqn:P; [reflexivity|]. exfalso. destruct i as [o d]. cbn in *.
  destruct o; cbv in P; try discriminate P; cbv in H; destruct H as [H1 H2]; solve [now apply H1 | now apply H2].
Qed.
