(** Proofs about sequences of stack words. *)
From Coq Require Import ZArith List Lia Bool.
From Verif Require Import Base M_Codec S_Codec P_Codec M_Hash M_Keys M_Script S_Script P_Script M_Interp S_Interp P_Interp S_Peep P_Peep.
Import ListNotations.
Open Scope Z_scope.

Lemma table_fun z e e' : In (z, e) stack_words -> In (z, e') stack_words -> e = e'.
Proof.
  unfold stack_words. cbn [In]. intros H H'.
  repeat (destruct H as [H|H]; [injection H as <- <-; repeat (destruct H' as [H'|H']; [first [injection H' as <-; reflexivity|discriminate H']|]); destruct H'|]). destruct H.
Qed.
Lemma table_size z k ks : In (z, (k, ks)) stack_words -> (k <= 6)%nat /\ 109 <= z <= 125.
Proof. unfold stack_words. cbn [In]. intros H. repeat (destruct H as [H|H]; [injection H as <- <- <-; lia|]). destruct H. Qed.
Lemma pick_map {A B} (f : A -> B) args ks mid : pick args ks mid -> pick (map f args) ks (map f mid).
Proof. intros H. induction H as [|k x ks mid E H IH]; cbn [map]; constructor; [rewrite nth_error_map, E; reflexivity|exact IH]. Qed.
Lemma pick_unmap {A B} (f : A -> B) args ks mid : pick (map f args) ks mid -> exists m, mid = map f m /\ pick args ks m.
Proof.
  intros H. induction H as [|k x ks mid E H (m & -> & IH)]; [exists []; split; [reflexivity|constructor]|]. rewrite nth_error_map in E. destruct (nth_error args k) as [y|] eqn:Y; [|discriminate].
  injection E as <-. exists (y :: m). split; [reflexivity|]. constructor; assumption.
Qed.
Lemma pick_fun {A} (args : list A) ks m m' : pick args ks m -> pick args ks m' -> m = m'.
Proof. intros H. revert m'. induction H as [|k x ks mid E H IH]; intros m' H'; inversion H' as [|? ? ? ? E' H2]; subst; [reflexivity|]. f_equal; [congruence|auto]. Qed.
Lemma pick_total {A} z k ks (args : list A) : In (z, (k, ks)) stack_words -> length args = k -> exists out, pick args ks out.
Proof.
  intros H L. unfold pick.
  repeat (destruct H as [H|H]; [injection H as <- <- <-; list_of_length L; eexists; repeat (first [apply Forall2_nil | apply Forall2_cons; [reflexivity|]])|]).
  destruct H.
Qed.
Lemma app_end {A} (s s' a a' : list A) : length a = length a' -> s ++ a = s' ++ a' -> s = s' /\ a = a'.
Proof. intros L E. apply (f_equal (@rev A)) in E. rewrite !rev_app_distr in E.
  assert (X : rev a = rev a' /\ rev s = rev s').
  { revert E. assert (L' : length (rev a) = length (rev a')) by (rewrite !rev_length; exact L). revert L'. generalize (rev a) (rev a') (rev s) (rev s'). clear. intros x. induction x as [|u x IH]; intros [|v y] p q L E; try discriminate L; [auto|].
    injection E as -> E. injection L as L. destruct (IH y p q L E) as [-> ->]. auto. }
  destruct X as [X Y]. apply (f_equal (@rev A)) in X, Y. rewrite !rev_involutive in X, Y. auto.
Qed.
Lemma shuffle_inv {A} z l (s0 out : list A) : shuffle (z :: l) s0 out -> exists k ks s args mid, In (z, (k, ks)) stack_words /\ s0 = s ++ args /\ length args = k /\ pick args ks mid /\ shuffle l (s ++ mid) out.
Proof. intros H. inversion H; subst. eauto 12. Qed.
Lemma shuffle_det {A} l : forall s (o o' : list A), shuffle l s o -> shuffle l s o' -> o = o'.
Proof.
  induction l as [|z l IH]; intros s o o' H H'; [inversion H; inversion H'; congruence|].
  apply shuffle_inv in H, H'. destruct H as (k & ks & s1 & a & m & T & -> & L & P & H). destruct H' as (k' & ks' & s1' & a' & m' & T' & E & L' & P' & H').
  pose proof (table_fun _ _ _ T T') as Q. injection Q as <- <-. apply app_end in E; [|congruence]. destruct E as [<- <-]. rewrite (pick_fun _ _ _ _ P P') in H. eauto.
Qed.
Lemma shuffle_map {A B} (f : A -> B) l : forall s o, shuffle l s o -> shuffle l (map f s) (map f o).
Proof.
  induction l as [|z l IH]; intros s o H; [inversion H; subst; constructor|]. apply shuffle_inv in H. destruct H as (k & ks & s1 & a & m & T & -> & L & P & H).
  rewrite map_app. econstructor; [exact T|rewrite map_length; exact L|apply pick_map; exact P|]. rewrite <- map_app. auto.
Qed.
Lemma map_end {A B} (f : A -> B) (l : list A) (s a : list B) : map f l = s ++ a -> exists s' a', l = s' ++ a' /\ s = map f s' /\ a = map f a'.
Proof. intros E. symmetry in E. revert l E. induction s as [|x s IH]; intros l E; cbn [app] in E; [exists [], l; auto|]. destruct l as [|y l]; [discriminate|]. cbn [map] in E. injection E as -> E. destruct (IH l E) as (s' & a' & -> & -> & ->). exists (y :: s'), a'. auto. Qed.
Lemma shuffle_unmap {A B} (f : A -> B) l : forall s o, shuffle l (map f s) o -> exists o', o = map f o' /\ shuffle l s o'.
Proof.
  induction l as [|z l IH]; intros s o H; [inversion H; subst; exists s; split; [reflexivity|constructor]|]. apply shuffle_inv in H. destruct H as (k & ks & s1 & a & m & T & E & L & P & H).
  destruct (map_end _ _ _ _ E) as (s' & a' & -> & -> & ->). destruct (pick_unmap _ _ _ _ P) as (m' & -> & P'). rewrite <- map_app in H. destruct (IH _ _ H) as (o' & -> & H'). exists o'. split; [reflexivity|].
  econstructor; [exact T|rewrite map_length in L; exact L|exact P'|exact H'].
Qed.
Lemma shuffle_frame {A} l : forall (b s o : list A), shuffle l s o -> shuffle l (b ++ s) (b ++ o).
Proof.
  induction l as [|z l IH]; intros b s o H; [inversion H; subst; constructor|]. apply shuffle_inv in H. destruct H as (k & ks & s1 & a & m & T & -> & L & P & H).
  rewrite app_assoc. econstructor; [exact T|exact L|exact P|]. rewrite <- app_assoc. auto.
Qed.
Lemma pick_length {A} (args : list A) ks m : pick args ks m -> length m = length ks.
Proof. intros H. induction H; cbn [length]; congruence. Qed.
Lemma shuffle_total {A} l : Forall stack_word l -> forall s : list A, (6 * length l <= length s)%nat -> exists o, shuffle l s o.
Proof.
  intros F. induction F as [|z l ((k & ks) & T) F IH]; intros s L; [exists s; constructor|]. cbn [length] in L. pose proof (table_size _ _ _ T) as [K _].
  destruct (split_at_end k s) as (s1 & a & -> & LA); [lia|]. destruct (pick_total _ _ _ a T LA) as (m & P). rewrite app_length in L.
  destruct (IH (s1 ++ m)) as (o & O); [rewrite app_length; lia|]. exists o. econstructor; eassumption.
Qed.
Lemma seq_stack {A} (d : A) (s : list A) : map (fun i => nth i s d) (seq 0 (length s)) = s.
Proof. induction s as [|x s IH]; [reflexivity|]. cbn [length seq map nth]. f_equal. rewrite <- seq_shift, map_map. exact IH. Qed.
(** two sequences agree on all stacks when they agree on the numbered stacks that are deep enough *)
Lemma shuffle_tests l l' : Forall stack_word l -> Forall stack_word l' ->
  (forall n o, (n <= 6 * Nat.max (length l) (length l'))%nat -> shuffle l (seq 0 n) o <-> shuffle l' (seq 0 n) o) ->
  forall A (s o : list A), shuffle l s o <-> shuffle l' s o.
Proof.
  intros F F' H. set (N := (6 * Nat.max (length l) (length l'))%nat) in *.
  assert (G : forall n o, shuffle l (seq 0 n) o <-> shuffle l' (seq 0 n) o).
  { intros n o. destruct (Nat.le_gt_cases n N) as [L|L]; [apply H; exact L|].
    destruct (shuffle_total l F (seq 0 N)) as (o1 & O1); [rewrite seq_length; unfold N; lia|]. pose proof (proj1 (H N o1 (le_n _)) O1) as O2.
    assert (E : seq 0 n = seq 0 (n - N) ++ map (fun i => i + (n - N))%nat (seq 0 N)).
    { replace n with ((n - N) + N)%nat at 1 by lia. rewrite seq_app. f_equal. cbn [Nat.add]. generalize (n - N)%nat. clear. intros d. clear -d.
      assert (Q : forall m a, seq (a + d) m = map (fun i => (i + d)%nat) (seq a m)) by (induction m as [|m IH]; intros a; [reflexivity|]; cbn [seq map]; f_equal; apply (IH (S a))). apply (Q N 0%nat). }
    rewrite E. set (g := fun i : nat => (i + (n - N))%nat).
    pose proof (shuffle_frame l (seq 0 (n - N)) _ _ (shuffle_map g l _ _ O1)) as P1. pose proof (shuffle_frame l' (seq 0 (n - N)) _ _ (shuffle_map g l' _ _ O2)) as P2.
    split; intros X; [rewrite (shuffle_det _ _ _ _ X P1); exact P2|rewrite (shuffle_det _ _ _ _ X P2); exact P1]. }
  intros A s o. destruct s as [|d s0].
  - assert (Q : forall B m (x : list B), shuffle m [] x -> m = [] /\ x = []).
    { clear. intros B m x X. destruct m as [|z m]; [inversion X; auto|]. apply shuffle_inv in X. destruct X as (k & ks & s & args & mid & T & E & L & _). symmetry in E. apply app_eq_nil in E. destruct E as [-> ->]. subst k. unfold stack_words in T. cbn [In length] in T.
      repeat (destruct T as [T|T]; [discriminate T|]). destruct T. }
    pose proof (G 0%nat []) as G0. cbn [seq] in G0. split; intros X; destruct (Q _ _ _ X) as [-> ->].
    + destruct (Q _ _ _ (proj1 G0 (sh_nil []))) as [-> _]. constructor.
    + destruct (Q _ _ _ (proj2 G0 (sh_nil []))) as [-> _]. constructor.
  - set (s := d :: s0). rewrite <- (seq_stack d s). split; intros X; destruct (shuffle_unmap _ _ _ _ X) as (o' & -> & Y); apply shuffle_map; apply G; exact Y.
Qed.

(** ** in the interpreter *)
Lemma word_plain z : 0 <= z <= 255 -> plain z (word z).
Proof. intros R. split; [apply bZ_Zb; lia|reflexivity]. Qed.
Lemma shuffle_leaves l : Forall stack_word l -> forall st s t, executing st -> s_nop st + blen l <= 201 ->
  leaves (words l) st s t <-> shuffle l (s_stack st) s /\ t = s_alt st.
Proof.
  intros F. induction F as [|z l ((k & ks) & T) F IH]; intros st s t X N.
  - unfold leaves. cbn [words map run]. split; [intros (st' & [= <-] & <- & <-); split; [constructor|reflexivity]|]. intros [H ->]. inversion H; subst. eauto.
  - pose proof (table_size _ _ _ T) as [_ Z]. assert (P : plain z (word z)) by (apply word_plain; lia). assert (BL : blen (z :: l) = blen l + 1) by (unfold blen; cbn [length]; lia). pose proof (blen_nonneg l).
    assert (R : room st) by (unfold room; lia). cbn [words map]. unfold leaves. cbn [run]. fold (words l).
    destruct (Nat.le_gt_cases k (length (s_stack st))) as [L|L].
    + destruct (split_at_end k _ L) as (s1 & a & E & LA). destruct (pick_total _ _ _ a T LA) as (m & PK). rewrite (stack_word_step _ _ _ st _ s1 a m T P X R E LA PK). cbn [bind].
      specialize (IH (counted st (s1 ++ m) (s_alt st)) s t). cbn [s_nop s_alt s_stack counted] in IH. unfold leaves in IH. rewrite IH; [|exact X|lia]. rewrite E. split.
      * intros [H1 ->]. split; [econstructor; eassumption|reflexivity].
      * intros [H1 ->]. split; [|reflexivity]. apply shuffle_inv in H1. destruct H1 as (k' & ks' & s1' & a' & m' & T' & E' & L' & P' & H1). pose proof (table_fun _ _ _ T T') as Q. injection Q as <- <-.
        apply app_end in E'; [|congruence]. destruct E' as [<- <-]. rewrite (pick_fun _ _ _ _ PK P'). exact H1.
    + rewrite (stack_word_short _ _ _ st _ T P X R L). cbn [bind]. split; [intros (? & [=] & _)|]. intros [H1 _]. apply shuffle_inv in H1. destruct H1 as (k' & ks' & s1' & a' & m' & T' & E' & L' & P' & H1).
      pose proof (table_fun _ _ _ T T') as Q. injection Q as <- <-. rewrite E', app_length in L. lia.
Qed.
Lemma num_inj a b : num a = num b -> a = b.
Proof. intros E. pose proof (num_item a) as (x & X & V & _). pose proof (num_item b) as (y & Y & W & _). congruence. Qed.
Lemma map_inj {A B} (f : A -> B) : (forall a b, f a = f b -> a = b) -> forall l l', map f l = map f l' -> l = l'.
Proof. intros I l. induction l as [|a l IH]; intros [|b l'] E; try discriminate E; [reflexivity|]. cbn [map] in E. injection E as E1 E2. f_equal; auto. Qed.
Lemma words_tests l l' : Forall stack_word l -> Forall stack_word l' -> blen l <= 201 -> blen l' <= 201 ->
  (alike (Z.max (blen l) (blen l')) (words l) (words l') <->
   forall n o, (n <= 6 * Nat.max (length l) (length l'))%nat -> shuffle l (seq 0 n) o <-> shuffle l' (seq 0 n) o).
Proof.
  intros F F' L L'. split.
  - intros A n o _. set (f := fun i => num (Z.of_nat i)). assert (I : forall a b, f a = f b -> a = b) by (intros a b E; apply num_inj in E; lia).
    set (st := Interp (map f (seq 0 n)) [] 0 0 0 [] IE_None 0 (Script None [])). assert (X : executing st) by (intros []). specialize (A st X). cbn [s_nop st] in A.
    assert (N : 0 + Z.max (blen l) (blen l') <= 201) by lia. specialize (A N (map f o) []).
    rewrite (shuffle_leaves l F st _ _ X), (shuffle_leaves l' F' st _ _ X) in A by (cbn [s_nop st]; lia). cbn [s_stack s_alt st] in A.
    split; intros H; [destruct (proj1 A (conj (shuffle_map f _ _ _ H) eq_refl)) as [Y _]|destruct (proj2 A (conj (shuffle_map f _ _ _ H) eq_refl)) as [Y _]];
      destruct (shuffle_unmap f _ _ _ Y) as (o' & E & Y'); apply (map_inj f I) in E; subst; exact Y'.
  - intros H st X N s t. rewrite (shuffle_leaves l F), (shuffle_leaves l' F') by (assumption || lia). rewrite (shuffle_tests l l' F F' H). reflexivity.
Qed.
(** the tests as a computation *)
Fixpoint find_word (z : Z) (l : list (Z * (nat * list nat))) : option (nat * list nat) :=
  match l with [] => None | (y, e) :: r => if z =? y then Some e else find_word z r end.
Fixpoint try_words (l : list Z) (s : list nat) : option (list nat) :=
  match l with
  | [] => Some s
  | z :: r => match find_word z stack_words with
              | Some (k, ks) => if (k <=? length s)%nat then try_words r (firstn (length s - k) s ++ map (fun i => nth (length s - k + i) s 0%nat) ks) else None
              | None => None end
  end.
Lemma find_word_in z e l : find_word z l = Some e -> In (z, e) l.
Proof. induction l as [|[y e'] l IH]; cbn [find_word]; [discriminate|]. destruct (Z.eqb_spec z y) as [->|]; [intros [= <-]; left; reflexivity|right; auto]. Qed.
Lemma in_find_word z e : In (z, e) stack_words -> find_word z stack_words = Some e.
Proof. unfold stack_words. cbn [In]. intros H. repeat (destruct H as [H|H]; [injection H as <- <-; reflexivity|]). destruct H. Qed.
Lemma pick_nth (args : list nat) ks m : pick args ks m -> m = map (fun i => nth i args 0%nat) ks.
Proof. intros H. induction H as [|k x ks mid E H IH]; [reflexivity|]. cbn [map]. f_equal; [|exact IH]. symmetry. apply nth_error_nth. exact E. Qed.
Lemma try_words_ok l : forall s o, try_words l s = Some o <-> shuffle l s o.
Proof.
  induction l as [|z l IH]; intros s o; cbn [try_words].
  - split; [intros [= <-]; constructor|]. intros H. inversion H; reflexivity.
  - split.
    + destruct (find_word z stack_words) as [[k ks]|] eqn:T; [|discriminate]. apply find_word_in in T. destruct (Nat.leb_spec k (length s)) as [L|L]; [|discriminate]. intros H.
      destruct (split_at_end k s L) as (s1 & a & -> & LA). destruct (pick_total _ _ _ a T LA) as (m & P).
      econstructor; [exact T|exact LA|exact P|]. apply IH. rewrite <- H. rewrite app_length, LA. replace (length s1 + k - k)%nat with (length s1) by lia. rewrite firstn_app, firstn_all, Nat.sub_diag. cbn [firstn]. rewrite app_nil_r.
      f_equal. f_equal. rewrite (pick_nth _ _ _ P). apply map_ext. intros i. rewrite app_nth2 by lia. f_equal. lia.
    + intros H. apply shuffle_inv in H. destruct H as (k & ks & s1 & a & m & T & -> & LA & P & H). rewrite (in_find_word _ _ T). destruct (Nat.leb_spec k (length (s1 ++ a))) as [L|L]; [|rewrite app_length in L; lia].
      apply IH in H. rewrite <- H. rewrite app_length, LA. replace (length s1 + k - k)%nat with (length s1) by lia. rewrite firstn_app, firstn_all, Nat.sub_diag. cbn [firstn]. rewrite app_nil_r.
      f_equal. f_equal. rewrite (pick_nth _ _ _ P). apply map_ext. intros i. rewrite app_nth2 by lia. f_equal. lia.
Qed.
Definition same_try (l l' : list Z) : bool :=
  forallb (fun n => match try_words l (seq 0 n), try_words l' (seq 0 n) with
    | Some a, Some b => if list_eq_dec Nat.eq_dec a b then true else false | None, None => true | _, _ => false end)
    (seq 0 (S (6 * Nat.max (length l) (length l')))).
Lemma same_try_ok l l' : same_try l l' = true -> forall n o, (n <= 6 * Nat.max (length l) (length l'))%nat -> shuffle l (seq 0 n) o <-> shuffle l' (seq 0 n) o.
Proof.
  intros H n o L. unfold same_try in H. rewrite forallb_forall in H. specialize (H n). rewrite <- !try_words_ok.
  assert (E : try_words l (seq 0 n) = try_words l' (seq 0 n)).
  { assert (IN : In n (seq 0 (S (6 * Nat.max (length l) (length l'))))) by (apply List.in_seq; lia). specialize (H IN). destruct (try_words l _), (try_words l' _); try discriminate; [|reflexivity]. destruct (list_eq_dec _ _ _) as [->|]; [reflexivity|discriminate]. }
  rewrite E. reflexivity.
Qed.
