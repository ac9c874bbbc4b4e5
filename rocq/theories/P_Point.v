(** Lemmas about points and curves as objects. *)
From Coq Require Import ZArith Znumtheory Lia Bool List String.
From Verif Require Import Base M_Codec M_Keys M_EC S_EC P_ECProps P_DSA P_Script S_Script S_Codec S_Show M_Show P_Show M_Point S_Point.
Import ListNotations.
Open Scope Z_scope.

(** ** equality *)
Lemma co_same_iff a b : co_same a b = true <-> option_map co_id a = option_map co_id b.
Proof.
  destruct a as [a|], b as [b|]; cbn [co_same option_map]; [|split; discriminate|split; discriminate|tauto].
  rewrite Nat.eqb_eq. split; congruence.
Qed.
Lemma same_num_iff a b : same_num a b = true <-> a = b.
Proof. destruct a as [a|], b as [b|]; cbn [same_num]; [|split; discriminate|split; discriminate|tauto]. rewrite Z.eqb_eq. split; congruence. Qed.
Lemma o_eq_iff P Q : o_eq P Q = 1 <-> option_map co_id (pt_curve P) = option_map co_id (pt_curve Q) /\ pt_x P = pt_x Q /\ pt_y P = pt_y Q.
Proof.
  unfold o_eq. rewrite <- co_same_iff, <- (same_num_iff (pt_x P)), <- (same_num_iff (pt_y P)).
  destruct (co_same _ _), (same_num (pt_x P) _), (same_num (pt_y P) _); cbn [andb]; split; intros H; try discriminate; try tauto; destruct H as (?&?&?); discriminate.
Qed.
Lemma o_eq_01 P Q : o_eq P Q = 0 \/ o_eq P Q = 1.
Proof. unfold o_eq. destruct (_ && _ && _); auto. Qed.
Lemma o_is_iff P Q : o_is P Q = true <-> o_eq P Q = 1.
Proof. unfold o_is. destruct (o_eq_01 P Q) as [->| ->]; cbn; split; congruence || discriminate. Qed.
Lemma o_eq_spec P Q : (o_eq P Q = 1 <-> option_map co_id (pt_curve P) = option_map co_id (pt_curve Q) /\ pt_x P = pt_x Q /\ pt_y P = pt_y Q) /\
  (o_eq P Q = 0 <-> o_eq P Q <> 1).
Proof. split; [apply o_eq_iff|]. destruct (o_eq_01 P Q) as [->| ->]; split; congruence || lia. Qed.
Lemma o_eq_equiv P Q R : o_eq P P = 1 /\ o_eq P Q = o_eq Q P /\ (o_eq P Q = 1 -> o_eq Q R = 1 -> o_eq P R = 1).
Proof.
  split; [apply o_eq_iff; auto|]. split.
  - destruct (o_eq_01 P Q) as [A|A], (o_eq_01 Q P) as [B|B]; try congruence; exfalso.
    + apply o_eq_iff in B as (b & c & d). assert (o_eq P Q = 1) by (apply o_eq_iff; auto). congruence.
    + apply o_eq_iff in A as (b & c & d). assert (o_eq Q P = 1) by (apply o_eq_iff; auto). congruence.
  - rewrite !o_eq_iff. intros (?&?&?) (?&?&?). repeat split; congruence.
Qed.
Lemma inf_iff P : o_is P INFINITY = true <-> infinite P.
Proof.
  rewrite o_is_iff, o_eq_iff. cbn [pt_curve pt_x pt_y INFINITY option_map]. unfold infinite.
  destruct (pt_curve P); cbn [option_map]; split; intros (?&?&?); repeat split; congruence || discriminate.
Qed.
Lemma not_inf P : ~ infinite P -> o_is P INFINITY = false.
Proof. intros N. destruct (o_is P INFINITY) eqn:E; [|reflexivity]. apply inf_iff in E. contradiction. Qed.
Lemma inf_eq P : infinite P <-> o_eq P INFINITY = 1.
Proof. rewrite <- inf_iff. apply o_is_iff. Qed.
Lemma ne_identity : ~ (forall i j P Q, o_ne i j P Q = true <-> o_eq P Q = 0).
Proof. intros H. destruct (H 0%nat 1%nat INFINITY INFINITY) as (A & _). discriminate (A eq_refl). Qed.
Lemma hash_identity : ~ (forall i j P Q, o_eq P Q = 1 -> o_hash i P = o_hash j Q).
Proof. intros H. discriminate (H 0%nat 1%nat INFINITY INFINITY eq_refl). Qed.

(** ** the constructor *)
Lemma contains_iff c x y : contains_point c x y = true <-> solves c x y.
Proof.
  unfold solves. pose proof (new_point_any c x y None) as E. unfold new_point in E. rewrite <- Z.eqb_eq.
  destruct (contains_point c x y), (_ =? _); split; congruence.
Qed.
(** the point is multiplied by its order modulo that order, 0: the assertion holds and nothing is constructed *)
Lemma order_check i P o : pt_order P = Some o -> o <> 0 -> o_mul i P o = Ok INFINITY.
Proof. intros E N. unfold o_mul. rewrite E. cbn zeta. destruct (Z.eqb_spec o 0); [contradiction|]. rewrite Z_mod_same_full. reflexivity. Qed.
Lemma init_val d c x y o : o_init (S d) c x y o =
  let! on := match c with None => Ok true | Some c => o_contains (co_curve c) x y end in
  if negb on then Err E_NoSuchPoint else Ok (Pt c x y o).
Proof.
  cbn [o_init]. destruct (match c with None => _ | _ => _ end) as [on|e]; [|reflexivity]. cbn [bind]. destruct (negb on); [reflexivity|].
  destruct o as [o|]; [|reflexivity]. destruct (Z.eqb_spec o 0) as [E|N]; [reflexivity|].
  rewrite order_check with (o := o) by (reflexivity || exact N). reflexivity.
Qed.
Lemma init_none d c x y : o_init d c x y None = o_init 1 c x y None.
Proof. destruct d; [reflexivity|]. rewrite !init_val. reflexivity. Qed.
Lemma new_iff d c x y o P : o_init (S d) c x y o = Ok P <-> P = Pt c x y o /\
  (forall C, c = Some C -> exists x' y', x = Some x' /\ y = Some y' /\ solves (co_curve C) x' y').
Proof.
  rewrite init_val. destruct c as [C|]; cbn [bind negb].
  - unfold o_contains. destruct y as [y|]; cbn [num bind].
    + destruct x as [x|]; cbn [num bind].
      * destruct (contains_point (co_curve C) x y) eqn:E; cbn [negb].
        -- apply contains_iff in E. split; [intros H; injection H as <-; split; [reflexivity|]; intros C' K; injection K as <-; eauto|intros (-> & _); reflexivity].
        -- split; [discriminate|]. intros (_ & H). destruct (H C eq_refl) as (x' & y' & X & Y & O). injection X as <-. injection Y as <-. apply contains_iff in O. congruence.
      * split; [discriminate|]. intros (_ & H). destruct (H C eq_refl) as (x' & y' & X & _). discriminate.
    + split; [discriminate|]. intros (_ & H). destruct (H C eq_refl) as (x' & y' & _ & Y & _). discriminate.
  - split; [intros H; injection H as <-; split; [reflexivity|discriminate]|intros (-> & _); reflexivity].
Qed.
Lemma new_err d c x y o e : o_init (S d) c x y o = Err e <-> exists C, c = Some C /\
  ((e = E_TypeError /\ (x = None \/ y = None)) \/
   (e = E_NoSuchPoint /\ exists x' y', x = Some x' /\ y = Some y' /\ ~ solves (co_curve C) x' y')).
Proof.
  rewrite init_val. destruct c as [C|]; cbn [bind negb].
  - unfold o_contains. destruct y as [y|]; cbn [num bind].
    + destruct x as [x|]; cbn [num bind].
      * destruct (contains_point (co_curve C) x y) eqn:E; cbn [negb].
        -- split; [discriminate|]. intros (C' & K & [(_ & [|])|(-> & x' & y' & X & Y & N)]); try discriminate. injection K as <-. injection X as <-. injection Y as <-. apply contains_iff in E. contradiction.
        -- split.
           ++ intros H; injection H as <-. exists C. split; [reflexivity|]. right. split; [reflexivity|]. exists x, y. split; [reflexivity|]. split; [reflexivity|]. rewrite <- contains_iff. congruence.
           ++ intros (C' & K & [(_ & [|])|(-> & _)]); try discriminate. reflexivity.
      * split; [intros H; injection H as <-; exists C; auto|]. intros (C' & K & [(-> & _)|(-> & x' & y' & X & Y & N)]); [reflexivity|discriminate].
    + split; [intros H; injection H as <-; exists C; auto|]. intros (C' & K & [(-> & _)|(-> & x' & y' & X & Y & N)]); [reflexivity|discriminate].
  - split; [discriminate|]. intros (C' & K & _). discriminate.
Qed.
Lemma depth_enough d c x y o : o_init (S d) c x y o = o_init 1 c x y o.
Proof. rewrite !init_val. reflexivity. Qed.
Lemma none_not_infinity : ~ (forall d x y o P, o_init (S d) None x y o = Ok P -> o_eq P INFINITY = 1).
Proof. intros H. discriminate (H 0%nat (Some 1) (Some 2) None _ eq_refl). Qed.

(** ** one curve object: the functional model *)
Section sim.
Context (C : cobj).
Notation c := (co_curve C).
Lemma on_inf P : o_is (on_object C P) INFINITY = match P with PInf => true | _ => false end.
Proof. destruct P; reflexivity. Qed.
Lemma same_self : co_same (Some C) (Some C) = true.
Proof. apply Nat.eqb_refl. Qed.
Lemma sim_new d x y o : o_init (S d) (Some C) (Some x) (Some y) o = as_object C (new_point c x y o).
Proof. rewrite init_val. unfold o_contains, new_point. cbn [num bind]. destruct (contains_point c x y); reflexivity. Qed.
Lemma sim_new0 d x y : o_init d (Some C) (Some x) (Some y) None = as_object C (new_point c x y None).
Proof. rewrite init_none. apply sim_new. Qed.
Lemma sim_double d P : o_double (o_init d) (on_object C P) = as_object C (p_double c P).
Proof.
  unfold o_double. rewrite on_inf. destruct P as [|x y o]; [reflexivity|]. cbn [on_object pt_curve pt_x pt_y deref num bind p_double]. cbn zeta.
  destruct (inverse_mod (2 * y) (c_p c)); [|reflexivity]. cbn [bind]. apply sim_new0.
Qed.
Lemma sim_add d P Q : o_add (o_init d) (on_object C P) (on_object C Q) = as_object C (p_add c P Q).
Proof.
  unfold o_add. rewrite !on_inf. destruct Q as [|x2 y2 o2]; [destruct P; reflexivity|]. destruct P as [|x1 y1 o1]; [reflexivity|].
  cbn [on_object pt_curve pt_x pt_y deref num bind p_add]. rewrite same_self. cbn [negb same_num]. cbn zeta.
  destruct (x1 =? x2).
  - destruct ((y1 + y2) mod c_p c =? 0); [reflexivity|]. apply (sim_double d (PAff x1 y1 o1)).
  - destruct (inverse_mod (x2 - x1) (c_p c)); [|reflexivity]. cbn [bind]. apply sim_new0.
Qed.
Lemma sim_loop d P N e j R : o_loop (o_init d) (on_object C P) (on_object C N) e j (on_object C R) = as_object C (mul_loop c P N e j R).
Proof.
  revert R. induction j as [|j IH]; intros R; [reflexivity|]. cbn [o_loop mul_loop]. cbn zeta.
  rewrite sim_double. destruct (p_double c R) as [R1|]; [|reflexivity]. cbn [as_object bind].
  destruct (_ && _).
  - rewrite sim_add. destruct (p_add c R1 P) as [R2|]; [|reflexivity]. cbn [as_object bind]. destruct (_ && _).
    + rewrite sim_add. destruct (p_add c R2 N) as [R3|]; [|reflexivity]. cbn [as_object bind]. apply IH.
    + cbn [bind]. apply IH.
  - cbn [bind]. destruct (_ && _).
    + rewrite sim_add. destruct (p_add c R1 N) as [R3|]; [|reflexivity]. cbn [as_object bind]. apply IH.
    + cbn [bind]. apply IH.
Qed.
Lemma sim_mul d P e : o_mul (o_init (S d)) (on_object C P) e = as_object C (p_mul c P e).
Proof.
  unfold o_mul, p_mul. rewrite on_inf. destruct P as [|x y o]; cbn [on_object pt_order pt_y pt_x pt_curve INFINITY num bind]; cbn zeta.
  - destruct (e =? 0); reflexivity.
  - set (e' := match o with Some _ => _ | None => _ end). destruct (e' =? 0); [reflexivity|]. destruct (negb (e' >? 0)); [reflexivity|].
    rewrite sim_new. destruct (new_point c x (- y) o) as [N|]; [|reflexivity]. cbn [as_object bind]. exact (sim_loop (S d) (PAff x y o) N e' _ (PAff x y o)).
Qed.
End sim.
Lemma one_curve C d P Q x y o e :
  o_init (S d) (Some C) (Some x) (Some y) o = as_object C (new_point (co_curve C) x y o) /\
  o_double (o_init (S d)) (on_object C P) = as_object C (p_double (co_curve C) P) /\
  o_add (o_init (S d)) (on_object C P) (on_object C Q) = as_object C (p_add (co_curve C) P Q) /\
  o_mul (o_init (S d)) (on_object C P) e = as_object C (p_mul (co_curve C) P e).
Proof. split; [apply sim_new|]. split; [apply sim_double|]. split; [apply sim_add|apply sim_mul]. Qed.

(** ** infinity *)
Lemma add_right i P Q : infinite Q -> o_add i P Q = Ok P.
Proof. intros H. unfold o_add. apply inf_iff in H. rewrite H. reflexivity. Qed.
Lemma add_left i P Q : infinite P -> ~ infinite Q -> o_add i P Q = Ok Q.
Proof. intros H N. unfold o_add. apply inf_iff in H. rewrite (not_inf _ N), H. reflexivity. Qed.
Lemma double_inf i P : infinite P -> o_double i P = Ok INFINITY.
Proof. intros H. unfold o_double. apply inf_iff in H. rewrite H. reflexivity. Qed.
Lemma mul_inf i P e : infinite P -> o_mul i P e = Ok INFINITY.
Proof. intros H. unfold o_mul. apply inf_iff in H. rewrite H. cbn zeta. destruct (_ =? 0); reflexivity. Qed.
Lemma infinity_neutral i P Q e : o_eq Q INFINITY = 1 -> o_add i P Q = Ok P /\ (exists R, o_add i Q P = Ok R /\ o_eq R P = 1) /\
  o_double i Q = Ok INFINITY /\ o_mul i Q e = Ok INFINITY.
Proof.
  intros H. apply inf_eq in H. split; [apply add_right, H|]. split; [|split; [apply double_inf, H|apply mul_inf, H]].
  destruct (o_is P INFINITY) eqn:E.
  - apply inf_iff in E. exists Q. split; [apply add_right, E|]. destruct H as (A & B & D), E as (A' & B' & D'). apply o_eq_iff. rewrite A, B, D, A', B', D'. auto.
  - exists P. split; [|apply o_eq_equiv; exact P]. apply add_left; [exact H|]. intros K. apply inf_iff in K. congruence.
Qed.

(** ** the group *)
Lemma denotes_aff C P x y : denotes C P (EA x y) -> exists y' , P = on_object C (PAff x y' (pt_order P)) /\ valid (co_curve C) (PAff x y' (pt_order P)) /\
  EA x y = stands (c_p (co_curve C)) (PAff x y' (pt_order P)).
Proof.
  intros (A & B & R & y' & D & -> & O). exists y'. cbn [on_object valid stands]. rewrite (Z.mod_small x) by exact R.
  destruct P; cbn in *. subst. auto.
Qed.
Lemma denotes_on C P : 0 < c_p (co_curve C) -> valid (co_curve C) P -> denotes C (on_object C P) (stands (c_p (co_curve C)) P).
Proof.
  intros PP. destruct P as [|x y o]; [intros _; repeat split|]. intros (R & O). cbn [stands on_object denotes pt_curve pt_x pt_y]. rewrite (Z.mod_small x) by exact R.
  split; [reflexivity|]. split; [reflexivity|]. split; [exact R|]. exists y. auto.
Qed.
Lemma aff_not_inf C P x y : denotes C P (EA x y) -> ~ infinite P.
Proof. intros (A & _) (B & _). congruence. Qed.
Lemma add_denotes C d P Q E F : prime (c_p (co_curve C)) -> c_p (co_curve C) <> 2 -> denotes C P E -> denotes C Q F ->
  exists R G, o_add (o_init d) P Q = Ok R /\ denotes C R G /\ is_sum (c_p (co_curve C)) (c_a (co_curve C)) E F G.
Proof.
  intros PR OD DP DQ. assert (PP : 0 < c_p (co_curve C)) by (destruct PR; lia).
  destruct F as [|x2 y2]; [exists P, E; split; [apply add_right, DQ|split; [exact DP|constructor]]|].
  destruct E as [|x1 y1]; [exists Q, (EA x2 y2); split; [apply add_left; [exact DP|eapply aff_not_inf, DQ]|split; [exact DQ|constructor]]|].
  destruct (denotes_aff _ _ _ _ DP) as (u & EP & VP & SP), (denotes_aff _ _ _ _ DQ) as (v & EQ & VQ & SQ).
  destruct (add_spec (co_curve C) PR OD _ _ VP VQ) as (R & A & V & S & _). exists (on_object C R), (stands (c_p (co_curve C)) R).
  rewrite EP at 1. rewrite EQ at 1. rewrite sim_add, A. split; [reflexivity|]. split; [apply denotes_on; assumption|]. rewrite SP, SQ. exact S.
Qed.
Lemma double_denotes C d P x y : prime (c_p (co_curve C)) -> c_p (co_curve C) <> 2 -> denotes C P (EA x y) -> y <> 0 ->
  exists R G, o_double (o_init d) P = Ok R /\ denotes C R G /\ is_sum (c_p (co_curve C)) (c_a (co_curve C)) (EA x y) (EA x y) G.
Proof.
  intros PR OD DP N. assert (PP : 0 < c_p (co_curve C)) by (destruct PR; lia).
  destruct (denotes_aff _ _ _ _ DP) as (u & EP & VP & SP). cbn [stands] in SP. injection SP as SX SY.
  destruct (double_spec (co_curve C) PR OD _ VP) as (R & A & V & S & _); [intros ? ? ? K; injection K as <- <- <-; congruence|].
  exists (on_object C R), (stands (c_p (co_curve C)) R). rewrite EP at 1. rewrite sim_double, A. split; [reflexivity|]. split; [apply denotes_on; assumption|].
  cbn [stands] in S. rewrite <- SX, <- SY in S. exact S.
Qed.
Lemma double_denotes_fail C d P x : prime (c_p (co_curve C)) -> c_p (co_curve C) <> 2 -> denotes C P (EA x 0) -> o_double (o_init d) P = Err E_AssertionError.
Proof.
  intros PR OD DP. destruct (denotes_aff _ _ _ _ DP) as (u & EP & VP & SP). cbn [stands] in SP. injection SP as SX SY.
  rewrite EP, sim_double, (double_fail (co_curve C) PR OD); [reflexivity|]. symmetry. exact SY.
Qed.
Lemma scalar_exponent o x y e e' : scalar o e e' -> exponent (PAff x y o) e = e'.
Proof.
  intros [([->| ->] & ->)|(q & -> & N & ->)]; cbn [exponent]; [reflexivity|reflexivity|]. destruct (Z.eqb_spec q 0); [contradiction|reflexivity].
Qed.
Lemma multiple_inf p a : forall n, 0 <= n -> multiple p a EO n EO.
Proof. apply natlike_ind; [constructor|]. intros n N H. unfold Z.succ. econstructor; [exact N|exact H|constructor]. Qed.
Lemma mul_denotes C d P E e e' : prime (c_p (co_curve C)) -> c_p (co_curve C) <> 2 -> no_two_torsion (co_curve C) -> denotes C P E ->
  scalar (pt_order P) e e' -> 0 <= e' ->
  exists R G, o_mul (o_init (S d)) P e = Ok R /\ o_rmul (o_init (S d)) e P = Ok R /\ denotes C R G /\ multiple (c_p (co_curve C)) (c_a (co_curve C)) E e' G.
Proof.
  intros PR OD N2 DP SC E0. assert (PP : 0 < c_p (co_curve C)) by (destruct PR; lia). unfold o_rmul.
  destruct E as [|x y].
  - exists INFINITY, EO. rewrite mul_inf by exact DP. repeat split. apply multiple_inf, E0.
  - destruct (denotes_aff _ _ _ _ DP) as (u & EP & VP & SP). pose proof (scalar_exponent _ x u _ _ SC) as X.
    destruct (mul_spec (co_curve C) PR OD _ e N2 VP ltac:(rewrite X; exact E0)) as (R & A & V & M). rewrite X in M.
    exists (on_object C R), (stands (c_p (co_curve C)) R). rewrite EP, sim_mul, A. split; [reflexivity|]. split; [reflexivity|]. split; [apply denotes_on; assumption|].
    rewrite SP. exact M.
Qed.
Lemma mul_neg C i P x y e e' : denotes C P (EA x y) -> scalar (pt_order P) e e' -> e' < 0 -> o_mul i P e = Err E_AssertionError.
Proof.
  intros DP SC N. pose proof (scalar_exponent _ x y _ _ SC) as X. unfold o_mul. cbn [exponent] in X.
  replace (match pt_order P with Some o => if o =? 0 then e else e mod o | None => e end) with e' by (rewrite <- X; reflexivity).
  cbn zeta. destruct (Z.eqb_spec e' 0); [lia|]. rewrite not_inf by (eapply aff_not_inf, DP). rewrite Z.gtb_ltb. destruct (Z.ltb_spec 0 e'); [lia|]. reflexivity.
Qed.

(** ** several curve objects, points without a curve *)
Lemma add_other i P Q : option_map co_id (pt_curve P) <> option_map co_id (pt_curve Q) -> ~ infinite P -> ~ infinite Q ->
  o_eq P Q = 0 /\ o_add i P Q = Err E_AssertionError.
Proof.
  intros N NP NQ. split.
  - destruct (o_eq_01 P Q) as [E|E]; [exact E|]. apply o_eq_iff in E as (E & _). contradiction.
  - unfold o_add. rewrite (not_inf _ NP), (not_inf _ NQ). destruct (co_same _ _) eqn:E; [apply co_same_iff in E; contradiction|reflexivity].
Qed.
Lemma no_curve d x y o e : let P := Pt None (Some x) (Some y) o in
  o_init (S d) None (Some x) (Some y) o = Ok P /\ o_double (o_init d) P = Err E_AttributeError /\
  (forall Q, pt_curve Q = None -> (exists y', pt_y Q = Some y') -> o_add (o_init d) P Q = Err E_AttributeError) /\
  (scalar o e 1 -> o_mul (o_init (S d)) P e = Ok P) /\
  (forall e', scalar o e e' -> 1 < e' -> o_mul (o_init (S d)) P e = Err E_AttributeError).
Proof.
  intros P. assert (NI : o_is P INFINITY = false) by reflexivity.
  assert (DB : forall i, o_double i P = Err E_AttributeError) by reflexivity.
  split; [apply new_iff; split; [reflexivity|discriminate]|]. split; [apply DB|]. split.
  - intros Q CQ (y' & YQ). unfold o_add. rewrite NI, not_inf by (intros (_ & _ & K); congruence). cbn [pt_curve P]. rewrite CQ, YQ. cbn [co_same negb pt_y P num bind deref].
    destruct (same_num _ _); reflexivity.
  - assert (X : forall e', scalar o e e' -> match o with Some o => if o =? 0 then e else e mod o | None => e end = e') by (intros e' SC; apply (scalar_exponent o x y e e' SC)).
    assert (I : forall k, o_init (S d) None (Some x) (Some k) o = Ok (Pt None (Some x) (Some k) o)) by (intros k; apply new_iff; split; [reflexivity|discriminate]).
    split; [intros SC|intros e' SC L]; apply X in SC; unfold o_mul; rewrite NI; cbn [pt_order P pt_y pt_x pt_curve num]; rewrite SC; cbn zeta.
    + change (1 =? 0) with false. cbn [negb Z.gtb Z.compare bind]. rewrite I. reflexivity.
    + destruct (Z.eqb_spec e' 0); [lia|]. rewrite Z.gtb_ltb. destruct (Z.ltb_spec 0 e'); [|lia]. cbn [negb bind]. rewrite I. cbn [bind].
      assert (J : exists j, (Z.to_nat (Z.log2 (3 * e')) - 1 = S j)%nat).
      { assert (2 <= Z.log2 (3 * e')) by (apply Z.log2_le_pow2; lia). exists (Z.to_nat (Z.log2 (3 * e')) - 2)%nat. lia. }
      destruct J as (j & ->). cbn [o_loop]. cbn zeta. rewrite DB. reflexivity.
Qed.

(** points without a curve: adding needs the ordinates first when the abscissas are the same *)
Lemma add_no_curve i P Q : pt_curve P = None -> pt_curve Q = None -> ~ infinite P -> ~ infinite Q ->
  o_add i P Q = Err (if same_num (pt_x P) (pt_x Q) then match pt_y P, pt_y Q with Some _, Some _ => E_AttributeError | _, _ => E_TypeError end else E_AttributeError).
Proof.
  intros CP CQ NP NQ. unfold o_add. rewrite (not_inf _ NP), (not_inf _ NQ), CP, CQ. cbn [co_same negb deref bind].
  destruct (same_num (pt_x P) (pt_x Q)); [|reflexivity]. destruct (pt_y P), (pt_y Q); reflexivity.
Qed.
Lemma no_curve_add i P Q : pt_curve P = None -> pt_curve Q = None -> ~ infinite P -> ~ infinite Q ->
  (pt_x P = pt_x Q -> pt_y P = None \/ pt_y Q = None -> o_add i P Q = Err E_TypeError) /\
  (pt_x P <> pt_x Q \/ (pt_y P <> None /\ pt_y Q <> None) -> o_add i P Q = Err E_AttributeError).
Proof.
  intros CP CQ NP NQ. rewrite (add_no_curve i P Q CP CQ NP NQ). destruct (same_num (pt_x P) (pt_x Q)) eqn:E.
  - apply same_num_iff in E. split.
    + intros _ [Y|Y]; rewrite Y; [reflexivity|destruct (pt_y P); reflexivity].
    + intros [N|(Y1 & Y2)]; [contradiction|]. destruct (pt_y P), (pt_y Q); try contradiction; reflexivity.
  - split; [|reflexivity]. intros X. apply same_num_iff in X. congruence.
Qed.

(** ** refutations *)
Lemma other_object : ~ (forall d C D P Q, co_curve C = co_curve D -> denotes C P (EA 2 12) -> denotes D Q (EA 2 12) -> o_eq P Q = 1 /\ exists R, o_add (o_init d) P Q = Ok R).
Proof.
  intros H. set (P := Pt (Some (CObj 0 toy)) (Some 2) (Some 12) None). set (Q := Pt (Some (CObj 1 toy)) (Some 2) (Some 12) None).
  destruct (H 0%nat (CObj 0 toy) (CObj 1 toy) P Q eq_refl) as (E & _); [..|discriminate E].
  - repeat split; try (cbn; lia). exists 12. repeat split.
  - repeat split; try (cbn; lia). exists 12. repeat split.
Qed.
Lemma toy_denotes n o : denotes (CObj n toy) (Pt (Some (CObj n toy)) (Some 2) (Some 12) o) (EA 2 12).
Proof. repeat split; try (cbn; lia). exists 12. repeat split. Qed.
Lemma order_wrong : ~ (forall d C P x y e, prime (c_p (co_curve C)) -> c_p (co_curve C) <> 2 -> no_two_torsion (co_curve C) -> denotes C P (EA x y) ->
  o_init (S d) (pt_curve P) (pt_x P) (pt_y P) (pt_order P) = Ok P -> 0 <= e ->
  forall R, o_mul (o_init (S d)) P e = Ok R -> exists G, denotes C R G /\ multiple (c_p (co_curve C)) (c_a (co_curve C)) (EA x y) e G).
Proof.
  intros H. set (P := Pt (Some (CObj 0 toy)) (Some 2) (Some 12) (Some 1)).
  destruct toy_group as (TP & TO & TN & _).
  destruct (H 0%nat (CObj 0 toy) P 2 12 1 TP TO TN (toy_denotes 0 _) eq_refl ltac:(lia) INFINITY eq_refl) as ([|x y] & D & M).
  - assert (V : valid toy (PAff 2 12 None)) by (cbn; lia).
    assert (M' : multiple (c_p toy) (c_a toy) (stands (c_p toy) (PAff 2 12 None)) 1 (EA 2 12)) by (change 1 with (0 + 1); econstructor; [lia|constructor|constructor]).
    pose proof (multiple_fun toy TP TO _ _ _ _ V M M'). discriminate.
  - destruct D as (D & _). discriminate.
Qed.
Lemma add_class C d x1 y1 o1 x2 y2 o2 : prime (c_p (co_curve C)) -> c_p (co_curve C) <> 2 -> x1 <> x2 -> x1 mod c_p (co_curve C) = x2 mod c_p (co_curve C) ->
  let P := Pt (Some C) (Some x1) (Some y1) o1 in let Q := Pt (Some C) (Some x2) (Some y2) o2 in o_eq P Q = 0 /\ o_add (o_init d) P Q = Err E_AssertionError.
Proof.
  intros PR OD N M P Q. split.
  - destruct (o_eq_01 P Q) as [E|E]; [exact E|]. apply o_eq_iff in E as (_ & E & _). injection E as E. contradiction.
  - pose proof (sim_add C d (PAff x1 y1 o1) (PAff x2 y2 o2)) as S. rewrite (add_unreduced (co_curve C) PR OD) in S by assumption. exact S.
Qed.
Lemma eq_not_group : ~ (forall d C x y P Q, o_init (S d) (Some C) (Some x) (Some y) None = Ok P ->
  o_init (S d) (Some C) (Some (x mod c_p (co_curve C))) (Some (y mod c_p (co_curve C))) None = Ok Q -> o_eq P Q = 1).
Proof. intros H. discriminate (H 0%nat (CObj 0 toy) 2 55 _ _ eq_refl eq_refl). Qed.

(** ** texts *)
Lemma curve_repr_text lg c : curve_text lg c (curve_repr lg c).
Proof. do 3 eexists. repeat split; try apply num_shown. Qed.
Lemma opt_shown lg z : opt_text lg z (num_repr lg z).
Proof. destruct z; [apply num_shown|reflexivity]. Qed.
Lemma point_repr_text lg P : point_text lg P (o_repr lg P).
Proof. do 4 eexists. split; [|split; [apply opt_shown|split; [apply opt_shown|split; [apply opt_shown|reflexivity]]]]. destruct (pt_curve P); [apply curve_repr_text|reflexivity]. Qed.
Lemma curve_str_text c : equation_text c (curve_str c).
Proof. do 3 eexists. repeat split; apply numeral_sdec. Qed.
Lemma point_str P : (infinite P -> o_str P = Ok (txt "infinity")) /\
  (forall x y, pt_x P = Some x -> pt_y P = Some y -> exists t, o_str P = Ok t /\ pair_text x y t) /\
  (~ infinite P -> pt_x P = None \/ pt_y P = None -> o_str P = Err E_TypeError).
Proof.
  unfold o_str. split; [intros H; apply inf_iff in H; rewrite H; reflexivity|]. split.
  - intros x y X Y. rewrite not_inf by (intros (_ & _ & K); congruence). rewrite X, Y. cbn [num bind]. eexists. split; [reflexivity|]. do 2 eexists. repeat split; apply numeral_sdec.
  - intros N K. rewrite not_inf by exact N. destruct K as [-> | ->]; [reflexivity|]. destruct (pt_x P); reflexivity.
Qed.
Lemma no_such_text c x y : exists a b, pair_text x y a /\ equation_text c b /\ no_such_point c x y = a ++ txt " is not on the curve " ++ b.
Proof.
  exists (txt "(" ++ sdec x ++ txt "," ++ sdec y ++ txt ")"), (curve_str c). split; [do 2 eexists; repeat split; apply numeral_sdec|]. split; [apply curve_str_text|].
  unfold no_such_point. rewrite <- !app_assoc. reflexivity.
Qed.

(** reading the texts *)
Lemma cut_at (k : byte) (a a' s s' : bytes) : ~ In k a -> ~ In k a' -> a ++ k :: s = a' ++ k :: s' -> a = a' /\ s = s'.
Proof.
  revert a'. induction a as [|h a IH]; intros [|h' a'] N N' E; cbn [app] in E.
  - injection E as ->. auto.
  - injection E as -> E. destruct N'. left. reflexivity.
  - injection E as -> E. destruct N. left. reflexivity.
  - injection E as -> E. destruct (IH a') as (-> & ->); auto; intros I; [apply N|apply N']; right; exact I.
Qed.
Definition plain (k : byte) : Prop := ~ (48 <= bZ k <= 57) /\ bZ k <> 45.
Lemma numeral_chars t z k : numeral t z -> plain k -> ~ In k t.
Proof.
  intros [[D _]|[_ (u & -> & [D _])]] (P1 & P2) I; apply decimal_chars in D; rewrite Forall_forall in D.
  - apply P1, D, I.
  - destruct I as [<-|I]; [apply P2; reflexivity|apply P1, D, I].
Qed.
Lemma num_chars lg z t k : num_text lg z t -> plain k -> bZ k <> 76 -> ~ In k t.
Proof.
  intros (n & N & ->) P K I. apply in_app_iff in I as [I|I]; [exact (numeral_chars _ _ _ N P I)|]. destruct (lg z); [|destruct I]. destruct I as [<-|[]]. apply K. reflexivity.
Qed.
Lemma num_fun lg z z' t : num_text lg z t -> num_text lg z' t -> z = z'.
Proof.
  intros (n & N & ->) (n' & N' & E).
  assert (X : forall u w, numeral u w -> ~ In x4c u) by (intros u w U; apply (numeral_chars _ _ _ U); split; cbn; lia).
  destruct (lg z), (lg z').
  - apply app_inv_tail in E. subst. eapply numeral_fun; eassumption.
  - rewrite app_nil_r in E. subst n'. destruct (X _ _ N'). apply in_app_iff. right. left. reflexivity.
  - rewrite app_nil_r in E. subst n. destruct (X _ _ N). apply in_app_iff. right. left. reflexivity.
  - rewrite !app_nil_r in E. subst. eapply numeral_fun; eassumption.
Qed.
Lemma comma_plain : plain x2c /\ bZ x2c <> 76.
Proof. split; [split; cbn; lia|cbn; lia]. Qed.
Lemma opt_chars lg z t : opt_text lg z t -> ~ In x2c t /\ ~ In x29 t.
Proof.
  destruct z as [z|]; cbn [opt_text].
  - intros N. split; apply (num_chars _ _ _ _ N); try split; cbn; lia.
  - intros ->. split; intros [K|[K|[K|[K|[]]]]]; discriminate.
Qed.
Lemma num_not_none lg z t : num_text lg z t -> t <> txt "None".
Proof.
  intros N ->. refine (num_chars lg z _ x4e N _ _ _); [split; cbn; lia|cbn; lia|left; reflexivity].
Qed.
Lemma opt_fun lg z z' t : opt_text lg z t -> opt_text lg z' t -> z = z'.
Proof.
  destruct z as [z|], z' as [z'|]; cbn [opt_text]; intros H H'.
  - f_equal. eapply num_fun; eassumption.
  - destruct (num_not_none _ _ _ H H').
  - destruct (num_not_none _ _ _ H' H).
  - reflexivity.
Qed.
Lemma txt1 a s : txt "," ++ s = x2c :: s /\ txt ")" ++ a = x29 :: a.
Proof. split; reflexivity. Qed.
Lemma curve_cut lg c c' t t' s s' : curve_text lg c t -> curve_text lg c' t' -> t ++ s = t' ++ s' -> c = c' /\ s = s'.
Proof.
  intros (p & a & b & Hp & Ha & Hb & ->) (p' & a' & b' & Hp' & Ha' & Hb' & ->) E. rewrite <- !app_assoc in E. apply app_inv_head in E.
  apply cut_at in E as (<- & E); [|eapply num_chars; [eassumption|split; cbn; lia|cbn; lia]..].
  change ([] ++ a ++ txt "," ++ b ++ txt ")" ++ s = [] ++ a' ++ txt "," ++ b' ++ txt ")" ++ s') in E. cbn [app] in E.
  apply cut_at in E as (<- & E); [|eapply num_chars; [eassumption|split; cbn; lia|cbn; lia]..].
  change (b ++ txt ")" ++ s = b' ++ txt ")" ++ s') in E.
  apply cut_at in E as (<- & E); [|eapply num_chars; [eassumption|split; cbn; lia|cbn; lia]..].
  split; [|exact E]. destruct c, c'; cbn in *. f_equal; eapply num_fun; eassumption.
Qed.
Lemma curve_repr_inj lg c c' : curve_repr lg c = curve_repr lg c' -> c = c'.
Proof.
  intros E. eapply (curve_cut lg c c' _ _ [] []); [apply curve_repr_text..|]. f_equal. exact E.
Qed.
Lemma point_repr_inj lg P Q : o_repr lg P = o_repr lg Q ->
  option_map co_curve (pt_curve P) = option_map co_curve (pt_curve Q) /\ pt_x P = pt_x Q /\ pt_y P = pt_y Q /\ pt_order P = pt_order Q.
Proof.
  intros E. pose proof (point_repr_text lg P) as (c & x & y & o & C & X & Y & O & EP). pose proof (point_repr_text lg Q) as (c' & x' & y' & o' & C' & X' & Y' & O' & EQ).
  rewrite EP, EQ in E. clear EP EQ. apply app_inv_head in E.
  assert (K : option_map co_curve (pt_curve P) = option_map co_curve (pt_curve Q) /\ txt "," ++ x ++ txt "," ++ y ++ txt "," ++ o ++ txt ")" = txt "," ++ x' ++ txt "," ++ y' ++ txt "," ++ o' ++ txt ")").
  { destruct (pt_curve P) as [CP|], (pt_curve Q) as [CQ|]; cbn [option_map].
    - destruct (curve_cut lg _ _ _ _ _ _ C C' E) as (-> & S). auto.
    - exfalso. destruct C as (? & ? & ? & _ & _ & _ & ->). subst c'. discriminate.
    - exfalso. destruct C' as (? & ? & ? & _ & _ & _ & ->). subst c. discriminate.
    - subst c c'. apply app_inv_head in E. auto. }
  destruct K as (K & E'). split; [exact K|]. apply app_inv_head in E'.
  apply cut_at in E' as (<- & E1); [|eapply opt_chars; eassumption..].
  change (y ++ txt "," ++ o ++ txt ")" = y' ++ txt "," ++ o' ++ txt ")") in E1.
  apply cut_at in E1 as (<- & E2); [|eapply opt_chars; eassumption..].
  change (o ++ txt ")" = o' ++ txt ")") in E2. apply app_inv_tail in E2. subst o'.
  repeat split; eapply opt_fun; eassumption.
Qed.
Lemma equation_inj c c' t : equation_text c t -> equation_text c' t -> c = c'.
Proof.
  intros (p & a & b & Hp & Ha & Hb & ->) (p' & a' & b' & Hp' & Ha' & Hb' & E). apply app_inv_head in E.
  change (a ++ x2a :: (txt "x + " ++ b ++ txt " (mod " ++ p ++ txt ")") = a' ++ x2a :: (txt "x + " ++ b' ++ txt " (mod " ++ p' ++ txt ")")) in E.
  apply cut_at in E as (<- & E); [|eapply numeral_chars; [eassumption|split; cbn; lia]..]. apply app_inv_head in E.
  change (b ++ x20 :: (txt "(mod " ++ p ++ txt ")") = b' ++ x20 :: (txt "(mod " ++ p' ++ txt ")")) in E.
  apply cut_at in E as (<- & E); [|eapply numeral_chars; [eassumption|split; cbn; lia]..]. apply app_inv_head in E. apply app_inv_tail in E. subst p'.
  destruct c, c'; cbn in *. f_equal; eapply numeral_fun; eassumption.
Qed.
Lemma curve_str_inj c c' : curve_str c = curve_str c' -> c = c'.
Proof. intros E. eapply equation_inj; [apply curve_str_text|rewrite E; apply curve_str_text]. Qed.
Lemma pair_inj x y x' y' t : pair_text x y t -> pair_text x' y' t -> x = x' /\ y = y'.
Proof.
  intros (a & b & A & B & ->) (a' & b' & A' & B' & E). apply app_inv_head in E.
  apply cut_at in E as (<- & E); [|eapply numeral_chars; [eassumption|split; cbn; lia]..].
  change (b ++ txt ")" = b' ++ txt ")") in E. apply app_inv_tail in E. subst b'. split; eapply numeral_fun; eassumption.
Qed.
Lemma pair_first x y t : pair_text x y t -> exists r, t = x28 :: r.
Proof. intros (a & b & _ & _ & ->). eexists. reflexivity. Qed.
Lemma point_str_inj P Q t : o_str P = Ok t -> o_str Q = Ok t -> pt_x P = pt_x Q /\ pt_y P = pt_y Q.
Proof.
  intros EP EQ. destruct (point_str P) as (IP & NP & FP), (point_str Q) as (IQ & NQ & FQ).
  assert (S : forall P, infinite P \/ (exists x y, pt_x P = Some x /\ pt_y P = Some y) \/ (~ infinite P /\ (pt_x P = None \/ pt_y P = None))).
  { intros R. destruct (o_is R INFINITY) eqn:I; [left; apply inf_iff, I|]. right. assert (~ infinite R) by (rewrite <- inf_iff; congruence).
    destruct (pt_x R); [|right; auto]. destruct (pt_y R); [left; eauto|right; auto]. }
  destruct (S P) as [I|[(x & y & X & Y)|(N & K)]]; [| |specialize (FP N K); congruence];
  (destruct (S Q) as [I'|[(x' & y' & X' & Y')|(N' & K')]]; [| |specialize (FQ N' K'); congruence]).
  - destruct I as (_ & -> & ->), I' as (_ & -> & ->). auto.
  - specialize (IP I). destruct (NQ _ _ X' Y') as (u & U & T). destruct (pair_first _ _ _ T) as (r & ->). rewrite IP in EP. rewrite U in EQ. assert (txt "infinity" = x28 :: r) by congruence. discriminate.
  - specialize (IQ I'). destruct (NP _ _ X Y) as (u & U & T). destruct (pair_first _ _ _ T) as (r & ->). rewrite IQ in EQ. rewrite U in EP. assert (txt "infinity" = x28 :: r) by congruence. discriminate.
  - destruct (NP _ _ X Y) as (u & U & T), (NQ _ _ X' Y') as (u' & U' & T'). assert (u = t) by congruence. assert (u' = t) by congruence. subst u u'.
    destruct (pair_inj _ _ _ _ _ T T') as (-> & ->). rewrite X, X', Y, Y'. auto.
Qed.
Lemma no_such_inj c x y c' x' y' : no_such_point c x y = no_such_point c' x' y' -> c = c' /\ x = x' /\ y = y'.
Proof.
  intros E. destruct (no_such_text c x y) as (a & b & A & B & T), (no_such_text c' x' y') as (a' & b' & A' & B' & T'). rewrite T, T' in E. clear T T'.
  destruct A as (u & v & U & V & ->), A' as (u' & v' & U' & V' & ->). rewrite <- !app_assoc in E. apply app_inv_head in E.
  apply cut_at in E as (<- & E); [|eapply numeral_chars; [eassumption|split; cbn; lia]..].
  change (v ++ x29 :: (txt " is not on the curve " ++ b) = v' ++ x29 :: (txt " is not on the curve " ++ b')) in E.
  apply cut_at in E as (<- & E); [|eapply numeral_chars; [eassumption|split; cbn; lia]..]. apply app_inv_head in E. subst b'.
  split; [eapply equation_inj; eassumption|]. split; eapply numeral_fun; eassumption.
Qed.
Lemma str_no_curve : ~ (forall P Q t, o_str P = Ok t -> o_str Q = Ok t -> o_eq P Q = 1).
Proof. intros H. discriminate (H (Pt (Some (CObj 0 toy)) (Some 2) (Some 12) None) (Pt (Some (CObj 1 toy)) (Some 2) (Some 12) None) _ eq_refl eq_refl). Qed.

(** ** the self-test of the file *)
Definition x962 : cobj := CObj 0 (Curve 23 1 1).
Definition mk (x y : Z) (o : option Z) : pt := Pt (Some x962) (Some x) (Some y) o.
Lemma self_test : o_add (o_init 1) (mk 3 10 None) (mk 9 7 None) = Ok (mk 17 20 None) /\ o_double (o_init 1) (mk 3 10 None) = Ok (mk 7 12 None) /\
  o_add (o_init 1) (mk 3 10 None) (mk 3 10 None) = Ok (mk 7 12 None) /\ o_mul (o_init 1) (mk 3 10 None) 2 = Ok (mk 7 12 None) /\
  o_double (o_init 1) INFINITY = Ok INFINITY /\ o_init 1 (Some x962) (Some 13) (Some 7) (Some 7) = Ok (mk 13 7 (Some 7)) /\
  o_rmul (o_init 1) (7 mod 7) (mk 13 7 (Some 7)) = Ok INFINITY.
Proof. repeat split; vm_compute; reflexivity. Qed.
Lemma texts_ex : denotes (CObj 0 toy) (Pt (Some (CObj 0 toy)) (Some 2) (Some 12) (Some 31)) (EA 2 12) /\ scalar (Some 31) (-26) 5 /\
  prime (c_p toy) /\ c_p toy <> 2 /\ no_two_torsion toy /\ o_str (Pt (Some (CObj 0 toy)) (Some 2) (Some 12) (Some 31)) = Ok (txt "(2,12)") /\
  o_repr (fun _ => false) (Pt (Some (CObj 0 toy)) (Some 2) (Some 12) (Some 31)) = txt "Point(CurveFp(43,0,7),2,12,31)" /\ curve_str toy = txt "y^2 = x^3 + 0*x + 7 (mod 43)".
Proof.
  destruct toy_group as (TP & TO & TN & _). split; [apply toy_denotes|]. split; [right; exists 31; repeat split; lia|]. repeat (split; [assumption|]). repeat split; vm_compute; reflexivity.
Qed.
