(** Proofs about URIs. *)
From Coq Require Import ZArith Reals QArith Qabs Qreals Lia Lra Bool List Permutation Sorted.
From Coq Require Import SpecFloat.
From Flocq Require Import Core.
From Coq.Strings Require Import Byte String.
From Verif Require Import Base M_Codec S_Codec P_Codec M_Keys S_Keys P_Keys M_Unit S_Unit P_Float P_Unit M_URI S_URI P_Decimal.
Import ListNotations.
Open Scope Z_scope.

(** *** splitting *)
Definition free (c : Z) (l : bytes) : Prop := Forall (fun b => bZ b <> c) l.
Lemma is_false c b : bZ b <> c -> is c b = false.
Proof. unfold is. lia. Qed.
Lemma is_true c b : bZ b = c -> is c b = true.
Proof. unfold is. lia. Qed.
Lemma cut_at_app c a b r : free c a -> bZ b = c -> cut_at c (a ++ b :: r) = Some (a, r).
Proof.
  intros F B. induction F as [|x a X _ IH]; cbn [app cut_at]; [rewrite is_true by exact B; reflexivity|]. rewrite is_false by exact X. rewrite IH. reflexivity.
Qed.
Lemma cut_at_none c a : free c a -> cut_at c a = None.
Proof. intros F. induction F as [|x a X _ IH]; cbn [cut_at]; [reflexivity|]. rewrite is_false by exact X. rewrite IH. reflexivity. Qed.
Lemma split_on_ne c l : exists h t, split_on c l = h :: t.
Proof. induction l as [|b l (h & t & E)]; cbn [split_on]; [eauto|]. destruct (is c b); [eauto|]. rewrite E. eauto. Qed.
Lemma split_on_free c a h t l : free c a -> split_on c l = h :: t -> split_on c (a ++ l) = (a ++ h) :: t.
Proof.
  intros F E. induction F as [|x a X _ IH]; cbn [app split_on]; [exact E|]. rewrite is_false by exact X. rewrite IH. reflexivity.
Qed.
Lemma split_on_one c a : free c a -> split_on c a = [a].
Proof. intros F. rewrite <- (app_nil_r a), (split_on_free c a [] [] []) by (auto; reflexivity). reflexivity. Qed.
Lemma split_on_sep c a b r : free c a -> bZ b = c -> split_on c (a ++ b :: r) = a :: split_on c r.
Proof.
  intros F B. rewrite (split_on_free c a [] (split_on c r)); [rewrite app_nil_r; reflexivity|exact F|]. cbn [split_on]. rewrite is_true by exact B. reflexivity.
Qed.
Definition pieces (q : bytes) : list bytes := flat_map (split_on 59) (split_on 38 q).
Lemma pieces_one a : free 38 a -> free 59 a -> pieces a = [a].
Proof. intros A B. unfold pieces. rewrite split_on_one by exact A. cbn [flat_map]. rewrite split_on_one by exact B. reflexivity. Qed.
Lemma pieces_sep a s r : free 38 a -> free 59 a -> s = x26 \/ s = x3b -> pieces (a ++ s :: r) = a :: pieces r.
Proof.
  intros A B S. unfold pieces. destruct S as [->| ->].
  - rewrite split_on_sep by (assumption || reflexivity). cbn [flat_map]. rewrite split_on_one by exact B. reflexivity.
  - destruct (split_on_ne 38 r) as (h & t & E). rewrite (split_on_free 38 a (x3b :: h) t); [|exact A|].
    + rewrite E. cbn [flat_map]. rewrite split_on_sep by (assumption || reflexivity). reflexivity.
    + cbn [split_on]. change (is 38 x3b) with false. cbv iota. rewrite E. reflexivity.
Qed.

(** *** percent encoding *)
Lemma hex_value_ok b h : hex_digit_is b h -> hex_value b = Some h.
Proof.
  intros H. unfold hex_value. cbv zeta. destruct H as [b H|b H|b H].
  - replace ((48 <=? bZ b) && (bZ b <=? 57)) with true by lia. reflexivity.
  - replace ((48 <=? bZ b) && (bZ b <=? 57)) with false by lia. replace ((97 <=? bZ b) && (bZ b <=? 102)) with true by lia. reflexivity.
  - replace ((48 <=? bZ b) && (bZ b <=? 57)) with false by lia. replace ((97 <=? bZ b) && (bZ b <=? 102)) with false by lia. replace ((65 <=? bZ b) && (bZ b <=? 70)) with true by lia. reflexivity.
Qed.
Lemma hex_alnum b h : hex_digit_is b h -> alnum b.
Proof. intros H. unfold alnum. destruct H as [b H|b H|b H]; lia. Qed.
Lemma reserved_code b : ~ reserved b -> ~ In (bZ b) [37; 43; 38; 59; 61; 35].
Proof.
  intros H K. apply H. unfold reserved. cbn [In] in *.
  destruct K as [K|[K|[K|[K|[K|[K|[]]]]]]]; [left|right; left|do 2 right; left|do 3 right; left|do 4 right; left|do 5 right; left]; apply byte_of_bZ; exact K.
Qed.
Lemma encodes_free c k ek : encodes k ek -> In c [38; 59; 61; 35] -> free c ek.
Proof.
  intros E C. induction E as [|b l t R E IH|l t E IH|b x y h d l t X Y B E IH].
  - constructor.
  - constructor; [|exact IH]. apply reserved_code in R. intros K. apply R. cbn [In] in *. lia.
  - constructor; [|exact IH]. cbn [In] in C. cbn. lia.
  - apply hex_alnum in X, Y. unfold alnum in *. cbn [In] in C. repeat (constructor; [cbn; lia|]). exact IH.
Qed.
Lemma unquote_ok k ek : encodes k ek -> unquote_plus ek = k.
Proof.
  intros E. unfold unquote_plus. induction E as [|b l t R E IH|l t E IH|b x y h d l t X Y B E IH]; cbn [map].
  - reflexivity.
  - apply reserved_code in R. cbn [In] in R. rewrite (is_false 43) by lia. cbn [unquote]. rewrite is_false by lia. rewrite IH. reflexivity.
  - change (is 43 x2b) with true. cbv iota. cbn [unquote]. change (is 37 (Zb 32)) with false. cbv iota. rewrite IH. reflexivity.
  - change (is 43 x25) with false. cbv iota. pose proof (hex_alnum _ _ X) as AX. pose proof (hex_alnum _ _ Y) as AY. unfold alnum in *. rewrite !(is_false 43) by lia.
    cbn [unquote]. change (is 37 x25) with true. cbv iota. rewrite (hex_value_ok x h X), (hex_value_ok y d Y), IH. f_equal. apply byte_of_bZ. rewrite <- B. pose proof (bZ_range b). apply bZ_Zb. lia.
Qed.
Lemma encodes_nil k : encodes k [] -> k = [].
Proof. intros E. inversion E. reflexivity. Qed.
Lemma field_free c f t : field_text f t -> In c [38; 59; 35] -> free c t.
Proof.
  intros [k v ek ev K V] C. apply Forall_app. cbn [In] in C. split; [apply (encodes_free c k); [exact K|cbn [In]; tauto]|]. constructor; [cbn; lia|]. apply (encodes_free c v); [exact V|cbn [In]; tauto].
Qed.
Lemma parse_field_ok f t : piece_text f t -> parse_field t = f.
Proof.
  intros [k v t' F N|k t' F|t' F].
  - inversion F as [k' v' ek ev K V E]; subst. unfold parse_field. rewrite cut_at_app; [|apply (encodes_free 61 k); [exact K|cbn [In]; tauto]|reflexivity].
    rewrite <- (unquote_ok k ek K), <- (unquote_ok v ev V). destruct ev; [|reflexivity]. apply encodes_nil in V. contradiction.
  - inversion F as [k' v' ek ev K V E]; subst. unfold parse_field. rewrite cut_at_app; [|apply (encodes_free 61 k); [exact K|cbn [In]; tauto]|reflexivity].
    inversion V. reflexivity.
  - unfold parse_field. rewrite cut_at_none; [reflexivity|]. eapply Forall_impl; [|exact F]. cbv beta. intros b B K. apply B. right. right. left. apply byte_of_bZ. symmetry. exact K.
Qed.
Lemma piece_free c f t : piece_text f t -> In c [38; 59; 35] -> free c t.
Proof.
  intros [k v t' F N|k t' F|t' F] C; [eapply field_free, C; exact F|eapply field_free, C; exact F|]. eapply Forall_impl; [|exact F]. cbv beta. intros b B K. apply B. cbn [In] in *.
  destruct C as [C|[C|[C|[]]]]; [left|right; left|right; right; right; left]; apply byte_of_bZ; cbn; lia.
Qed.
Lemma parse_qsl_ok fs t : pieces_text fs t -> parse_qsl t = fs.
Proof.
  unfold parse_qsl. fold (pieces t). intros F. induction F as [f t F|f t s fs ts F S _ IH].
  - rewrite pieces_one by (eapply piece_free; [exact F|cbn [In]; tauto]). cbn [flat_map]. rewrite (parse_field_ok f t F). apply app_nil_r.
  - rewrite pieces_sep by (try (eapply piece_free; [exact F|cbn [In]; tauto]); exact S). cbn [flat_map]. rewrite (parse_field_ok f t F). f_equal. exact IH.
Qed.
Lemma pieces_free fs t : pieces_text fs t -> free 35 t.
Proof.
  intros F. induction F as [f t F|f t s fs ts F S _ IH]; [eapply piece_free; [exact F|cbn [In]; tauto]|].
  apply Forall_app. split; [eapply piece_free; [exact F|cbn [In]; tauto]|]. constructor; [destruct S as [->| ->]; cbn; lia|exact IH].
Qed.
Definition has_value (f : bytes * bytes) : bool := match snd f with [] => false | _ => true end.
Lemma written_pieces fs t : fields_text fs t -> pieces_text (filter has_value fs) t.
Proof.
  assert (P : forall f t, field_text f t -> piece_text (filter has_value [f]) t).
  { intros (k & [|c v]) t' F; cbn [filter has_value snd]; [apply (piece_blank k), F|apply piece_field; [exact F|discriminate]]. }
  induction 1 as [f t' F|f t' s fs ts F S _ IH]; [apply one_piece, P, F|]. change (f :: fs) with ([f] ++ fs). rewrite filter_app. apply more_pieces; [apply P, F|exact S|exact IH].
Qed.
Lemma written_query fs q : query_text fs q -> read_query (filter has_value fs) q.
Proof. intros [|fs' t F]; [apply read_none|apply read_some, written_pieces, F]. Qed.

(** *** the parts of a URI *)
Lemma alnum_is b : is_alnum b = true <-> alnum b.
Proof. unfold is_alnum, is_digit, is_upper, is_lower, alnum. lia. Qed.
Lemma alnum_free c l : Forall alnum l -> ~ (48 <= c <= 57 \/ 65 <= c <= 90 \/ 97 <= c <= 122) -> free c l.
Proof. intros A C. eapply Forall_impl; [|exact A]. unfold alnum. intros b B K. lia. Qed.
Lemma scheme_is s : scheme_text s <-> s <> [] /\ forallb scheme_char s = true.
Proof.
  unfold scheme_text. rewrite forallb_forall, Forall_forall. split; intros (N & H); (split; [exact N|]); intros b I; specialize (H b I); unfold scheme_char in *.
  - destruct H as [H|H]; [apply alnum_is in H; rewrite H; reflexivity|]. cbn [In] in H. destruct H as [<-|[<-|[<-|[]]]]; reflexivity.
  - rewrite !orb_true_iff, !is_iff, alnum_is in H. cbn [In]. destruct H as [[[H|H]|H]|H]; [left; exact H|right; left|right; right; left|right; right; right; left]; apply byte_of_bZ; symmetry; exact H.
Qed.
Lemma scheme_free s : scheme_text s -> free 58 s.
Proof.
  intros (_ & H). eapply Forall_impl; [|exact H]. cbv beta. intros b [A|A] K; [unfold alnum in A; lia|]. cbn [In] in A. destruct A as [<-|[<-|[<-|[]]]]; discriminate.
Qed.
Lemma split_scheme_ok s rest : scheme_text s -> rest <> [] -> forallb is_digit rest = false -> exists s', split_scheme (s ++ x3a :: rest) = (s', rest).
Proof.
  intros S R D. unfold split_scheme. rewrite cut_at_app by (apply scheme_free, S || reflexivity). pose proof (proj1 (scheme_is s) S) as (N & F).
  destruct s as [|b s]; [contradiction (N eq_refl)|]. destruct (bytes_eqb _ _); [eauto|]. rewrite F. destruct rest as [|c rest]; [contradiction (R eq_refl)|]. rewrite D. cbn [negb andb]. eauto.
Qed.
Lemma drop_params_id l : free 59 l -> drop_params l = l.
Proof. intros F. induction F as [|b l B _ IH]; cbn [drop_params]; [reflexivity|]. rewrite is_false by exact B. cbn [andb]. rewrite IH. reflexivity. Qed.
Lemma span_stop p a b : Forall (fun x => p x = true) a -> match b with [] => True | x :: _ => p x = false end -> span p (a ++ b) = (a, b).
Proof.
  intros A B. induction A as [|x a X _ IH]; cbn [app span].
  - destruct b as [|x b]; [reflexivity|]. cbn [span]. rewrite B. reflexivity.
  - rewrite X, IH. reflexivity.
Qed.
Lemma urlparse_ok scheme path fs t : uri_text scheme path fs t -> exists nl p q, urlparse t = Ok (nl, p, q) /\ (match p with [] => nl | _ => p end) = path /\ parse_qsl q = fs.
Proof.
  intros (sl & q & -> & SL & S & A & N & Q & ND). assert (FQ : free 35 q) by (destruct Q as [|fs t F]; [constructor|]; constructor; [cbn; lia|]; eapply pieces_free, F).
  assert (F35 : free 35 (path ++ q)) by (apply Forall_app; split; [apply alnum_free; [exact A|lia]|exact FQ]).
  destruct (split_scheme_ok scheme (sl ++ path ++ q) S) as (s' & E).
  { destruct sl; [|discriminate]. destruct path; [contradiction (N eq_refl)|discriminate]. }
  { destruct (forallb is_digit (sl ++ path ++ q)) eqn:D; [|reflexivity]. exfalso. destruct SL as [->| ->]; [|discriminate]. cbn [app] in D. apply forallb_digit, Forall_app in D as (D1 & D2).
    destruct Q as [|fs t F]; [contradiction (ND eq_refl eq_refl D1)|]. inversion D2 as [|x l X]; subst. unfold digit in X. cbn in X. lia. }
  unfold urlparse, urlsplit. rewrite E. clear E.
  assert (D : drop_params path = path) by (apply drop_params_id, alnum_free; [exact A|lia]).
  destruct SL as [->| ->]; cbn [app].
  - assert (NL : (match path ++ q with a :: b :: r => if is 47 a && is 47 b then span netloc_char r else ([], path ++ q) | _ => ([], path ++ q) end) = ([], path ++ q)).
    { destruct path as [|a path]; [contradiction (N eq_refl)|]. inversion A as [|x l X]; subst. unfold alnum in X. cbn [app]. destruct (path ++ q); [reflexivity|]. rewrite is_false by lia. reflexivity. }
    rewrite NL. cbn [existsb xorb]. rewrite (cut_at_none 35 _ F35). exists [], path. destruct Q as [|fs t F].
    + rewrite app_nil_r in *. rewrite cut_at_none by (apply alnum_free; [exact A|lia]). cbn [bind]. rewrite D. exists []. split; [destruct (existsb _ _); reflexivity|]. split; [destruct path; reflexivity|reflexivity].
    + rewrite cut_at_app by ((apply alnum_free; [exact A|lia]) || reflexivity). cbn [bind]. rewrite D. exists t. split; [destruct (existsb _ _); reflexivity|]. split; [destruct path; reflexivity|apply parse_qsl_ok, F].
  - change (is 47 x2f && is 47 x2f) with true. cbv iota. rewrite (span_stop netloc_char path q).
    2: { eapply Forall_impl; [|exact A]. unfold alnum, netloc_char. intros b B. rewrite !is_false by lia. reflexivity. }
    2: { destruct Q; [exact I|reflexivity]. }
    assert (NB : forall c, ~ (48 <= c <= 57 \/ 65 <= c <= 90 \/ 97 <= c <= 122) -> existsb (is c) path = false).
    { intros c C. destruct (existsb (is c) path) eqn:X; [|reflexivity]. apply existsb_exists in X as (y & Y & X). apply is_iff in X. rewrite Forall_forall in A. specialize (A y Y). unfold alnum in A. lia. }
    rewrite (NB 91), (NB 93) by lia. cbn [xorb]. rewrite (cut_at_none 35 _ FQ). exists path, []. destruct Q as [|fs t F].
    + cbn [cut_at bind]. exists []. split; [destruct (existsb _ _); reflexivity|]. split; reflexivity.
    + change (x3f :: t) with ([] ++ x3f :: t). rewrite cut_at_app by (constructor || reflexivity). cbn [bind]. exists t. split; [destruct (existsb _ _); reflexivity|]. split; [reflexivity|apply parse_qsl_ok, F].
Qed.

(** *** dictionaries *)
Lemma eqb_refl k : bytes_eqb k k = true.
Proof. apply bytes_eqb_iff'. reflexivity. Qed.
Lemma eqb_neq k k' : k <> k' -> bytes_eqb k k' = false.
Proof. intros H. destruct (bytes_eqb k k') eqn:E; [|reflexivity]. apply bytes_eqb_iff' in E. contradiction. Qed.
Lemma dget_in {A} k (d : dict A) v : dget k d = Some v -> In (k, v) d.
Proof.
  induction d as [|(k', v') d IH]; cbn [dget]; [discriminate|]. destruct (bytes_eqb k k') eqn:E; [|intros H; right; apply IH, H].
  apply bytes_eqb_iff' in E as ->. intros H. injection H as <-. left. reflexivity.
Qed.
Lemma dget_none {A} k (d : dict A) : dget k d = None <-> ~ In k (map fst d).
Proof.
  induction d as [|(k', v') d IH]; cbn [dget map fst In]; [tauto|]. destruct (bytes_eqb k k') eqn:E.
  - apply bytes_eqb_iff' in E as ->. split; [discriminate|]. intros H. contradiction H. left. reflexivity.
  - rewrite IH. split; intros H; [|tauto]. intros [->|K]; [rewrite eqb_refl in E; discriminate|tauto].
Qed.
Lemma dget_nodup {A} k (d : dict A) v : NoDup (map fst d) -> In (k, v) d -> dget k d = Some v.
Proof.
  induction d as [|(k', v') d IH]; cbn [map fst In dget]; [tauto|]. intros N I. inversion N as [|x l X N']; subst. destruct I as [I|I].
  - injection I as -> ->. rewrite eqb_refl. reflexivity.
  - rewrite eqb_neq; [apply IH; assumption|]. intros ->. apply X, in_map_iff. exists (k', v). auto.
Qed.
Lemma dget_remove {A} k k' (d : dict A) : dget k (dremove k' d) = if bytes_eqb k k' then None else dget k d.
Proof.
  unfold dremove. induction d as [|(c, v) d IH]; cbn [filter fst dget]; [destruct (bytes_eqb k k'); reflexivity|]. destruct (bytes_eqb k' c) eqn:E; cbn [negb].
  - rewrite IH. apply bytes_eqb_iff' in E as <-. destruct (bytes_eqb k k'); reflexivity.
  - cbn [dget]. rewrite IH. destruct (bytes_eqb k c) eqn:F; [|reflexivity]. apply bytes_eqb_iff' in F as <-. destruct (bytes_eqb k k') eqn:G; [|reflexivity]. apply bytes_eqb_iff' in G as <-. rewrite eqb_refl in E. discriminate.
Qed.
Lemma dget_app {A} k (a b : dict A) : dget k (a ++ b) = match dget k a with Some v => Some v | None => dget k b end.
Proof. induction a as [|(c, v) a IH]; cbn [app dget]; [reflexivity|]. destruct (bytes_eqb k c); [reflexivity|exact IH]. Qed.
Lemma dget_set {A} k (d : dict A) k' v : dget k (dset d k' v) = if bytes_eqb k k' then Some v else dget k d.
Proof. unfold dset. rewrite dget_app, dget_remove. cbn [dget]. destruct (bytes_eqb k k'); [reflexivity|]. destruct (dget k d); reflexivity. Qed.
Lemma remove_nodup {A} k (d : dict A) : NoDup (map fst d) -> NoDup (map fst (dremove k d)).
Proof.
  unfold dremove. induction d as [|(c, v) d IH]; cbn [filter map fst]; [auto|]. intros N. inversion N as [|x l X N']; subst. destruct (negb (bytes_eqb k c)); [|apply IH, N'].
  cbn [map fst]. constructor; [|apply IH, N']. intros K. apply X. apply in_map_iff in K as ((c' & v') & <- & K). apply filter_In in K as (K & _). apply in_map_iff. exists (c', v'). auto.
Qed.
Lemma remove_not_in {A} k (d : dict A) : ~ In k (map fst (dremove k d)).
Proof. apply dget_none. rewrite dget_remove, eqb_refl. reflexivity. Qed.
Lemma set_nodup {A} (d : dict A) k v : NoDup (map fst d) -> NoDup (map fst (dset d k v)).
Proof.
  intros N. unfold dset. rewrite map_app. cbn [map fst]. apply NoDup_Add with (a := k) (l := map fst (dremove k d)).
  - rewrite <- (app_nil_r (map fst (dremove k d))) at 1. apply Add_app.
  - split; [apply remove_nodup, N|apply remove_not_in].
Qed.
Lemma to_dict_snoc {A} (l : list (bytes * A)) e : to_dict (l ++ [e]) = dset (to_dict l) (fst e) (snd e).
Proof. unfold to_dict. rewrite fold_left_app. reflexivity. Qed.
Lemma to_dict_last k fs : last_value k fs (dget k (to_dict fs)).
Proof.
  induction fs as [|(c, v) fs IH] using rev_ind; [cbn; tauto|]. rewrite to_dict_snoc, dget_set. cbn [fst snd]. destruct (bytes_eqb k c) eqn:E.
  - apply bytes_eqb_iff' in E as <-. exists fs, []. split; [reflexivity|cbn; tauto].
  - assert (NK : c <> k) by (intros ->; rewrite eqb_refl in E; discriminate). destruct (dget k (to_dict fs)) as [w|]; cbn [last_value] in *.
    + destruct IH as (a & b & -> & NB). exists a, (b ++ [(c, v)]). split; [rewrite <- app_assoc; reflexivity|]. rewrite map_app, in_app_iff. cbn. tauto.
    + rewrite map_app, in_app_iff. cbn. tauto.
Qed.
Lemma to_dict_nodup {A} (fs : list (bytes * A)) : NoDup (map fst (to_dict fs)).
Proof. induction fs as [|e fs IH] using rev_ind; [constructor|]. rewrite to_dict_snoc. apply set_nodup, IH. Qed.
Lemma last_value_unique k fs v w : last_value k fs v -> last_value k fs w -> v = w.
Proof.
  assert (I : forall x a b, fs = a ++ (k, x) :: b -> In k (map fst fs)) by (intros x a b ->; apply in_map_iff; exists (k, x); split; [reflexivity|apply in_elt]).
  destruct v as [v|], w as [w|]; cbn [last_value].
  - intros (a & b & E & N) (a' & b' & E' & N'). f_equal. rewrite E in E'. clear I E fs. revert a' E'. induction a as [|x a IH]; intros [|y a'] E; cbn [app] in E.
    + congruence.
    + injection E as <- E. contradiction N. rewrite E. apply in_map_iff. exists (k, w). split; [reflexivity|apply in_elt].
    + injection E as -> E. contradiction N'. rewrite <- E. apply in_map_iff. exists (k, v). split; [reflexivity|apply in_elt].
    + injection E as -> E. apply (IH a' E).
  - intros (a & b & E & _) H. contradiction (H (I _ _ _ E)).
  - intros H (a & b & E & _). contradiction (H (I _ _ _ E)).
  - reflexivity.
Qed.
Lemma last_iff k fs v w : last_value k fs w -> last_value k fs v <-> w = v.
Proof. intros H. split; [intros K; exact (last_value_unique _ _ _ _ H K)|intros <-; exact H]. Qed.
Lemma parse_ok scheme path fs t : uri_text scheme path fs t -> exists d, uri_parse t = Ok d /\ NoDup (map fst d) /\
  dget k_address d = Some path /\ forall k, k <> k_address -> last_value k fs (dget k d).
Proof.
  intros U. destruct (urlparse_ok _ _ _ _ U) as (nl & p & q & E & PN & PQ). unfold uri_parse. rewrite E. cbn [bind].
  eexists. split; [reflexivity|]. split; [apply set_nodup, to_dict_nodup|].
  rewrite PQ. split.
  - rewrite dget_set, eqb_refl. f_equal. exact PN.
  - intros k K. rewrite dget_set, eqb_neq by exact K. apply to_dict_last.
Qed.
Lemma member_is k : existsb (bytes_eqb k) members = true <-> member k.
Proof. rewrite existsb_exists. unfold member. split; [intros (x & I & E); apply bytes_eqb_iff' in E as ->; exact I|intros I; exists k; split; [exact I|apply eqb_refl]]. Qed.
Definition other (d : dict bytes) : dict bytes := filter (fun e => negb (existsb (bytes_eqb (fst e)) members)) d.
Lemma dget_other k d : dget k (other d) = if existsb (bytes_eqb k) members then None else dget k d.
Proof.
  unfold other. induction d as [|(c, v) d IH]; cbn [filter fst dget]; [destruct (existsb _ _); reflexivity|]. destruct (existsb (bytes_eqb c) members) eqn:E; cbn [negb].
  - rewrite IH. destruct (bytes_eqb k c) eqn:F; [|reflexivity]. apply bytes_eqb_iff' in F as ->. rewrite E. reflexivity.
  - cbn [dget]. rewrite IH. destruct (bytes_eqb k c) eqn:F; [|reflexivity]. apply bytes_eqb_iff' in F as ->. rewrite E. reflexivity.
Qed.
Lemma filter_nodup {A} p (d : dict A) : NoDup (map fst d) -> NoDup (map fst (filter p d)).
Proof.
  induction d as [|e d IH]; cbn [filter map]; [auto|]. intros N. inversion N as [|x l X N']; subst. destruct (p e); [|apply IH, N'].
  cbn [map]. constructor; [|apply IH, N']. intros K. apply X. apply in_map_iff in K as (e' & <- & K). apply filter_In in K as (K & _). apply in_map_iff. exists e'. auto.
Qed.
Lemma build_ok d a path amount (value : bytes -> option bytes -> Prop) : NoDup (map fst d) -> dget k_address d = Some path -> addr_from_string path = Ok a ->
  (forall k v, k <> k_address -> k <> k_amount -> value k v <-> dget k d = v) ->
  match amount with None => True | Some x => exists u, unit_init (Some x) None None None = Ok u end ->
  exists u, build_from_dict d amount = Ok u /\ holds u a value /\
    match amount with None => uri_amount u = None | Some x => exists w, uri_amount u = Some w /\ unit_init (Some x) None None None = Ok w end.
Proof.
  intros ND DA AA V AM. unfold build_from_dict. rewrite DA, AA. cbn [bind].
  assert (H : exists un, (match amount with Some x => let! u := unit_init (Some x) None None None in Ok (Some u) | None => Ok None end) = Ok un /\
    match amount with None => un = None | Some x => exists w, un = Some w /\ unit_init (Some x) None None None = Ok w end).
  { destruct amount as [x|]; [|eauto]. destruct AM as (w & W). rewrite W. cbn [bind]. eauto. }
  destruct H as (un & -> & H). cbn [bind]. eexists. split; [reflexivity|]. split; [|exact H]. unfold holds. cbn [uri_address uri_message uri_label uri_r uri_extras].
  split; [reflexivity|]. repeat (split; [apply V; (discriminate || reflexivity)|]). fold (other d). split; [apply filter_nodup, ND|]. intros k v.
  pose proof (filter_nodup (fun e => negb (existsb (bytes_eqb (fst e)) members)) d ND) as NO. fold (other d) in NO. split.
  - intros I. apply (dget_nodup k (other d) v NO) in I. rewrite dget_other in I. destruct (existsb (bytes_eqb k) members) eqn:E; [discriminate|].
    assert (M : ~ member k) by (intros M; apply member_is in M; congruence). split; [exact M|]. apply V; [intros ->; apply M; cbn; tauto|intros ->; apply M; cbn; tauto|exact I].
  - intros (M & I). apply V in I; [|intros ->; apply M; cbn; tauto|intros ->; apply M; cbn; tauto]. apply dget_in. rewrite dget_other.
    destruct (existsb (bytes_eqb k) members) eqn:E; [apply member_is in E; contradiction|exact I].
Qed.
Lemma unit_again f u : unit_init None None None (Some (NFloat f)) = Ok u -> exists w, unit_init (Some (NInt (u_satoshis u))) None None None = Ok w /\ u_satoshis w = u_satoshis u.
Proof.
  cbn [unit_init]. unfold scaled. cbn [to_float bind]. intros E. destruct (set_values_float _ _ E) as (F & S). rewrite (set_float _ _ (trunc_val _ F)) in E.
  rewrite <- S in E. exists u. split; [exact E|reflexivity].
Qed.
Lemma init_ok scheme path fs t a : uri_text scheme path fs t -> addr_from_string path = Ok a -> last_value k_amount fs None ->
  exists u, uri_init (AText t) = Ok u /\ uri_amount u = None /\ holds u a (fun k v => last_value k fs v).
Proof.
  intros U A L. destruct (parse_ok _ _ _ _ U) as (d & E & ND & DA & V). unfold uri_init. rewrite E. cbn [bind].
  rewrite (last_value_unique k_amount fs _ _ (V k_amount ltac:(discriminate)) L). destruct (build_ok d a path None (fun k v => last_value k fs v) ND DA A) as (u & B & H & AM); [intros k v K _; apply last_iff, V, K|exact I|]. eauto.
Qed.
Lemma init_amount scheme path fs t a x f w : uri_text scheme path fs t -> addr_from_string path = Ok a -> last_value k_amount fs (Some x) ->
  py_float x = Ok f -> unit_init None None None (Some (NFloat f)) = Ok w ->
  exists u y, uri_init (AText t) = Ok u /\ uri_amount u = Some y /\ u_satoshis y = u_satoshis w /\ holds u a (fun k v => last_value k fs v).
Proof.
  intros U A L PF W. destruct (parse_ok _ _ _ _ U) as (d & E & ND & DA & V). unfold uri_init. rewrite E. cbn [bind].
  rewrite (last_value_unique k_amount fs _ _ (V k_amount ltac:(discriminate)) L), PF. cbn [bind]. rewrite W. cbn [bind]. destruct (unit_again f w W) as (w' & W' & SW).
  destruct (build_ok (dremove k_amount d) a path (Some (NInt (u_satoshis w))) (fun k v => last_value k fs v)) as (u & B & H & (y & AM & UY)).
  - apply remove_nodup, ND.
  - rewrite dget_remove. exact DA.
  - exact A.
  - intros k v K K'. rewrite dget_remove, eqb_neq by exact K'. apply last_iff, V, K.
  - eauto.
  - exists u, y. split; [exact B|]. split; [exact AM|]. split; [congruence|exact H].
Qed.

(** *** errors *)
Lemma btc_err f e : okf f = true -> unit_init None None None (Some (NFloat f)) = Err e <-> (e = E_ValueError /\ f = S754_nan) \/ (e = E_OverflowError /\ overflows f).
Proof.
  intros O. destruct (unit_val Btc) as (UO & UF & UV). change (unit_of Btc) with unit_btc in *. rewrite per_btc in UV. cbn [unit_init]. unfold scaled. cbn [to_float bind].
  destruct (fin f) eqn:F.
  - destruct (val_fvalue f F) as (q & Q & QV).
    assert (PQ : Q2R (q * inject_Z 100000000) = (val f * val unit_btc)%R) by (rewrite Q2R_mult, Q2R_Z, QV, UV; reflexivity).
    destruct (Rlt_or_le (Rabs (Q2R (q * inject_Z 100000000))) limit) as [L|L].
    + assert (IR : in_range (q * inject_Z 100000000)) by (apply in_range_R; exact L). destruct (mul_ok f unit_btc O UO F UF) as (MF & _); [apply RN_finite; rewrite <- PQ; exact L|].
      pose proof (mul_valid f unit_btc O UO) as MO. split.
      * intros E. apply set_values_err in E. destruct (f_mul f unit_btc); try discriminate; contradiction (E MO).
      * intros [(_ & ->)|(_ & [(s & ->)|(q' & Q' & NI)])]; try discriminate. assert (q' = q) as -> by congruence. contradiction.
    + assert (NF : fin (f_mul f unit_btc) = false).
      { destruct (fin (f_mul f unit_btc)) eqn:MF; [|reflexivity]. exfalso. destruct (mul_inv f unit_btc O UO MF) as (_ & _ & V). pose proof (mul_valid f unit_btc O UO) as MO.
        apply to_B in MO as (x & X). destruct (of_B x) as (_ & V2 & _). rewrite <- X, V in V2.
        pose proof (BinarySingleNaN.abs_B2R_lt_emax 53 1024 x) as B. rewrite <- V2 in B. rewrite PQ in L.
        destruct (Rle_or_lt 0 (val f * val unit_btc)) as [S|S].
        - rewrite Rabs_pos_eq in L by exact S. apply RN_infinite in L. rewrite Rabs_pos_eq in B by (rewrite <- RN_0; apply RN_le, S). lra.
        - rewrite Rabs_left in L by exact S. apply RN_infinite in L. rewrite RN_opp in L. rewrite <- Rabs_Ropp, Rabs_pos_eq in B; [lra|]. rewrite <- RN_opp, <- RN_0. apply RN_le. lra. }
      assert (OV : overflows f) by (right; exists q; split; [exact Q|]; intros K; apply in_range_R in K; lra).
      assert (NN : f_mul f unit_btc <> S754_nan).
      { intros K. assert (G : given Btc (NFloat f) = Err E_ValueError) by (cbn [given unit_init]; unfold scaled; cbn [to_float bind]; rewrite K; reflexivity).
        apply given_err in G; [|exact O]. destruct G as [G|(_ & G)]; [discriminate|]. assert (f = S754_nan) as -> by congruence. discriminate. }
      destruct (f_mul f unit_btc) as [s|s| |s m k]; try discriminate; [|contradiction (NN eq_refl)]. cbn. split.
      * intros E. right. split; [congruence|exact OV].
      * intros [(_ & ->)|(-> & _)]; [discriminate|reflexivity].
  - destruct f as [s|s| |s m k]; try discriminate.
    + change (set_values (NFloat (f_mul (S754_infinity s) unit_btc))) with (@Err unit_t E_OverflowError). split.
      * intros E. right. split; [congruence|left; eauto].
      * intros [(_ & E)|(-> & _)]; [discriminate|reflexivity].
    + change (set_values (NFloat (f_mul S754_nan unit_btc))) with (@Err unit_t E_ValueError). split.
      * intros E. left. split; [congruence|reflexivity].
      * intros [(-> & _)|(_ & [(s & E)|(q & E & _)])]; [reflexivity|discriminate|discriminate].
Qed.
Lemma urlsplit_err t e : urlsplit t = Err e -> e = E_ValueError.
Proof.
  unfold urlsplit. destruct (split_scheme t) as (s & url). destruct (match url with a :: b :: r => if is 47 a && is 47 b then span netloc_char r else ([], url) | _ => ([], url) end) as (nl & url').
  destruct (xorb _ _); [congruence|]. destruct (match cut_at 63 _ with Some uq => uq | None => _ end). discriminate.
Qed.
Lemma parse_err t e : uri_parse t = Err e -> e = E_ValueError.
Proof.
  unfold uri_parse, urlparse. intros E. apply bind_err in E as [E|(((nl & p) & q) & _ & E)]; [|discriminate]. apply bind_err in E as [E|((((s & nl) & p) & q) & _ & E)]; [eapply urlsplit_err, E|discriminate].
Qed.
Lemma caught_addr s e : addr_from_string s = Err e -> caught e = true.
Proof. intros E. apply addr_from_string_err in E as [(-> & _)|[(-> & _)|[->| ->]]]; reflexivity. Qed.
Lemma parse_has_address t d : uri_parse t = Ok d -> exists a, dget k_address d = Some a.
Proof.
  unfold uri_parse. destruct (urlparse t) as [((nl & p) & q)|]; cbn [bind]; [|discriminate]. intros E. injection E as <-. rewrite dget_set, eqb_refl. eauto.
Qed.
Lemma init_err t e : uri_init (AText t) = Err e -> caught e = true \/ (e = E_OverflowError /\
  exists d x f, uri_parse t = Ok d /\ dget k_amount d = Some x /\ py_float x = Ok f /\ overflows f).
Proof.
  unfold uri_init. intros E. apply bind_err in E as [E|(d & P & E)]; [left; rewrite (parse_err _ _ E); reflexivity|].
  destruct (parse_has_address t d P) as (a & DA). destruct (dget k_amount d) as [x|] eqn:AM.
  - apply bind_err in E as [E|(f & PF & E)]; [left; rewrite (py_float_err _ _ E); reflexivity|]. apply bind_err in E as [E|(w & W & E)].
    + apply btc_err in E; [|eapply py_float_valid, PF]. destruct E as [(-> & _)|(-> & OV)]; [left; reflexivity|right]. split; [reflexivity|]. exists d, x, f. auto.
    + left. unfold build_from_dict in E. rewrite dget_remove, DA in E. change (bytes_eqb k_address k_amount) with false in E. cbv iota in E.
      apply bind_err in E as [E|(a' & _ & E)]; [eapply caught_addr, E|]. destruct (unit_again f w W) as (w' & W' & _). rewrite W' in E. discriminate.
  - left. unfold build_from_dict in E. rewrite DA in E. apply bind_err in E as [E|(a' & _ & E)]; [eapply caught_addr, E|]. discriminate.
Qed.
Lemma is_valid_raises t e : uri_is_valid (AText t) = Err e <-> e = E_OverflowError /\
  exists d x f, uri_parse t = Ok d /\ dget (txt "amount") d = Some x /\ py_float x = Ok f /\ overflows f.
Proof.
  unfold uri_is_valid. split.
  - destruct (uri_init (AText t)) as [u|e'] eqn:E; [discriminate|]. destruct (caught e') eqn:C; [discriminate|]. intros H. injection H as <-. apply init_err in E as [E|E]; [congruence|exact E].
  - intros (-> & d & x & f & P & AM & PF & OV). unfold uri_init. rewrite P. cbn [bind]. change k_amount with (txt "amount"). rewrite AM, PF. cbn [bind].
    assert (B : unit_init None None None (Some (NFloat f)) = Err E_OverflowError) by (apply btc_err; [eapply py_float_valid, PF|right; auto]). rewrite B. reflexivity.
Qed.
Lemma is_valid_exact t : uri_is_valid (AText t) = Ok true <-> exists u, uri_init (AText t) = Ok u.
Proof. unfold uri_is_valid. destruct (uri_init (AText t)) as [u|e]; [split; eauto|]. destruct (caught e); (split; [discriminate|intros (u & E); discriminate]). Qed.
Lemma is_valid_other : uri_is_valid AOther = Ok false.
Proof. reflexivity. Qed.
Lemma is_valid_dict d amount e : match amount with Some (NFloat f) => is_float f | _ => True end -> uri_is_valid (ADict d amount) = Err e <->
  (e = E_AttributeError /\ dget (txt "address") d = None) \/
  (e = E_OverflowError /\ (exists s a, dget (txt "address") d = Some s /\ addr_from_string s = Ok a) /\
     ((exists z, amount = Some (NInt z) /\ too_large z) \/ exists b, amount = Some (NFloat (S754_infinity b)))).
Proof.
  intros O. unfold uri_is_valid, uri_init, build_from_dict. change k_address with (txt "address"). destruct (dget (txt "address") d) as [s|].
  2: { cbn. split; [intros E; left; split; [congruence|reflexivity]|]. intros [(-> & _)|(_ & (s & a & E & _) & _)]; [reflexivity|discriminate]. }
  destruct (addr_from_string s) as [a|e'] eqn:A; cbn [bind].
  2: { rewrite (caught_addr _ _ A). split; [discriminate|]. intros [(_ & E)|(_ & (s' & a & E & A') & _)]; [discriminate|]. assert (s' = s) as -> by congruence. congruence. }
  assert (EX : exists s' a', Some s = Some s' /\ addr_from_string s' = Ok a') by eauto.
  destruct amount as [x|]; cbn [bind].
  2: { split; [discriminate|]. intros [(_ & E)|(_ & _ & [(z & E & _)|(b & E)])]; discriminate. }
  cbn [unit_init]. destruct (set_values x) as [w|e'] eqn:SV; cbn [bind].
  - split; [discriminate|]. intros [(_ & E)|(_ & _ & [(z & E & T)|(b & E)])]; [discriminate| |].
    + assert (x = NInt z) as -> by congruence. rewrite (set_int_err z T) in SV. discriminate.
    + assert (x = NFloat (S754_infinity b)) as -> by congruence. discriminate.
  - apply set_values_err in SV. destruct x as [z|[b|b| |b m k]]; try contradiction (SV O).
    + destruct SV as (T & ->). cbn [caught]. split; [intros E; right; split; [congruence|]; split; [exact EX|left; eauto]|]. intros [(_ & E)|(-> & _)]; [discriminate|reflexivity].
    + subst e'. cbn [caught]. split; [intros E; right; split; [congruence|]; split; [exact EX|right; eauto]|]. intros [(_ & E)|(-> & _)]; [discriminate|reflexivity].
    + subst e'. cbn [caught]. split; [discriminate|]. intros [(_ & E)|(_ & _ & [(z & E & T)|(b & E)])]; discriminate.
Qed.

(** *** the scheme *)
Lemma split_scheme_any s rest : scheme_text s -> ~ In (map lower s) uses_params -> split_scheme (s ++ x3a :: rest) =
  if (match rest with [] => true | _ => negb (forallb is_digit rest) end) then (map lower s, rest) else ([], s ++ x3a :: rest).
Proof.
  intros S NP. unfold split_scheme. rewrite cut_at_app by (apply scheme_free, S || reflexivity). pose proof (proj1 (scheme_is s) S) as (N & F).
  destruct s as [|b s]; [contradiction (N eq_refl)|]. destruct (bytes_eqb (b :: s) (txt "http")) eqn:H; [apply bytes_eqb_iff' in H; exfalso; apply NP; rewrite H; cbn; tauto|].
  rewrite F. reflexivity.
Qed.
Lemma urlparse_scheme s s' rest : scheme_text s -> scheme_text s' -> ~ In (map lower s) uses_params -> ~ In (map lower s') uses_params ->
  rest = [] \/ ~ Forall digit rest -> urlparse (s ++ x3a :: rest) = urlparse (s' ++ x3a :: rest).
Proof.
  intros S S' N N' R. assert (G : (match rest with [] => true | _ => negb (forallb is_digit rest) end) = true).
  { destruct rest as [|b r]; [reflexivity|]. destruct R as [R|R]; [discriminate|]. destruct (forallb is_digit (b :: r)) eqn:E; [apply forallb_digit in E; contradiction|reflexivity]. }
  unfold urlparse, urlsplit. rewrite !split_scheme_any by assumption. rewrite G.
  destruct (match rest with a :: b :: r => if is 47 a && is 47 b then span netloc_char r else ([], rest) | _ => ([], rest) end) as (nl & url). destruct (xorb _ _); [reflexivity|].
  destruct (match cut_at 63 _ with Some uq => uq | None => _ end) as (p & q). cbn [bind].
  assert (X : forall z, ~ In z uses_params -> existsb (bytes_eqb z) uses_params = false).
  { intros z NZ. destruct (existsb (bytes_eqb z) uses_params) eqn:E; [|reflexivity]. apply existsb_exists in E as (y & I & E). apply bytes_eqb_iff' in E as ->. contradiction. }
  rewrite !X by assumption. reflexivity.
Qed.
Lemma scheme_ignored s s' rest : scheme_text s -> scheme_text s' -> ~ In (map lower s) uses_params -> ~ In (map lower s') uses_params ->
  rest = [] \/ ~ Forall digit rest -> uri_init (AText (s ++ x3a :: rest)) = uri_init (AText (s' ++ x3a :: rest)).
Proof. intros S S' N N' R. unfold uri_init, uri_parse. rewrite (urlparse_scheme s s' rest S S' N N' R). reflexivity. Qed.

(** *** validity of URIs of the expected shape *)
Lemma amount_reads x c q : padded c x -> denotes c q -> (Qabs q <= inject_Z (2 ^ 900))%Q -> exists f w, py_float x = Ok f /\ unit_init None None None (Some (NFloat f)) = Ok w.
Proof.
  intros P D B. assert (BR : (Rabs (Q2R q) <= bpow radix2 900)%R) by (rewrite <- Q2R_abs; apply Qle_Rle in B; rewrite Q2R_Z in B; exact B).
  assert (L : (bpow radix2 930 < limit)%R) by (rewrite <- (IZR_Zpower radix2) by lia; unfold limit; apply IZR_lt; change (Zpower radix2 930) with (2 ^ 930); lia).
  assert (L9 : (bpow radix2 900 < bpow radix2 930)%R) by (apply bpow_lt; lia).
  destruct (read_ok c q D) as (f & E & O & F & V); [apply in_range_R; lra|]. exists f. rewrite (py_float_padded c x q D P), E.
  destruct (unit_init None None None (Some (NFloat f))) as [w|e] eqn:U; [exists w; auto|]. exfalso. apply btc_err in U; [|exact O]. destruct U as [(_ & ->)|(_ & [(s & ->)|(q' & Q' & NI)])]; try discriminate.
  apply NI, in_range_R. destruct (fvalue_val f q' Q') as (_ & QV). rewrite Q2R_mult, Q2R_Z, QV, V, Rabs_mult. rewrite (Rabs_pos_eq 100000000) by lra.
  pose proof (RN_bound (Q2R q) 900 ltac:(lia) BR) as RB. change 930 with (900 + 30) in L. rewrite bpow_plus in L. assert (100000000 <= bpow radix2 30)%R by (cbn; lra).
  pose proof (bpow_gt_0 radix2 900). nra.
Qed.
Lemma valid_iff scheme path fs t : uri_text scheme path fs t -> amount_ok fs ->
  exists b, uri_is_valid (AText t) = Ok b /\ (b = true <-> exists a, valid_addr a /\ addr_to_string a = Ok path).
Proof.
  intros U A. destruct (uri_is_valid (AText t)) as [b|e] eqn:E.
  - exists b. split; [reflexivity|]. destruct (addr_from_string path) as [a|e] eqn:P.
    + assert (X : exists u, uri_init (AText t) = Ok u).
      { destruct A as [A|(x & c & q & A & PD & D & B)].
        - destruct (init_ok _ _ _ _ _ U P A) as (u & H & _). eauto.
        - destruct (amount_reads x c q PD D B) as (f & w & F & W). destruct (init_amount _ _ _ _ _ _ _ _ U P A F W) as (u & y & H & _). eauto. }
      apply is_valid_exact in X. rewrite X in E. injection E as <-. split; [|reflexivity]. intros _. exists a. apply addr_string_iff, P.
    + split.
      * intros ->. apply is_valid_exact in E as (u & E). exfalso. unfold uri_init in E. destruct (parse_ok _ _ _ _ U) as (d & PE & ND & DA & V). rewrite PE in E. cbn [bind] in E.
        destruct (dget k_amount d) as [x|].
        -- destruct (py_float x); cbn [bind] in E; [|discriminate]. destruct (unit_init _ _ _ _) in E; cbn [bind] in E; [|discriminate]. unfold build_from_dict in E. rewrite dget_remove, DA in E. change (bytes_eqb k_address k_amount) with false in E. cbv iota in E. rewrite P in E. discriminate.
        -- unfold build_from_dict in E. rewrite DA, P in E. discriminate.
      * intros (a & H). apply addr_string_iff in H. congruence.
  - exfalso. apply is_valid_raises in E as (_ & d & x & f & PE & DX & PF & OV). destruct (parse_ok _ _ _ _ U) as (d' & PE' & ND & DA & V). assert (d' = d) as -> by congruence.
    specialize (V k_amount ltac:(discriminate)). change k_amount with (txt "amount") in V. rewrite DX in V. destruct A as [A|(y & c & q & A & PD & D & B)].
    + pose proof (last_value_unique _ _ _ _ V A). discriminate.
    + pose proof (last_value_unique _ _ _ _ V A) as K. assert (x = y) as -> by congruence. destruct (amount_reads y c q PD D B) as (f' & w & F & W). assert (f' = f) as -> by congruence.
      assert (X : unit_init None None None (Some (NFloat f)) = Err E_OverflowError) by (apply btc_err; [eapply py_float_valid, PF|right; auto]). congruence.
Qed.
Lemma invalid_amount scheme path fs t x : uri_text scheme path fs t -> last_value k_amount fs (Some x) ->
  ~ (exists c, padded c x /\ ((exists q, denotes c q) \/ special_text c)) -> uri_is_valid (AText t) = Ok false.
Proof.
  intros U A N. destruct (parse_ok _ _ _ _ U) as (d & PE & ND & DA & V). specialize (V k_amount ltac:(discriminate)). pose proof (last_value_unique _ _ _ _ V A) as K.
  unfold uri_is_valid, uri_init. rewrite PE. cbn [bind]. rewrite K. destruct (py_float x) as [f|e] eqn:F; [exfalso; apply N, py_float_ok_iff; eauto|]. rewrite (py_float_err _ _ F). reflexivity.
Qed.

(** *** writing *)
Lemma hex_upper_ok z : 0 <= z < 16 -> hex_digit_is (hex_upper z) z.
Proof.
  intros H. unfold hex_upper. destruct (z <? 10) eqn:E.
  - replace z with (bZ (Zb (48 + z)) - 48) at 2 by (rewrite bZ_Zb; lia). constructor. rewrite bZ_Zb; lia.
  - replace z with (bZ (Zb (55 + z)) - 55) at 2 by (rewrite bZ_Zb; lia). apply hex_AF. rewrite bZ_Zb; lia.
Qed.
Lemma quote_ok l : encodes l (quote_plus l).
Proof.
  unfold quote_plus. induction l as [|b l IH]; cbn [flat_map]; [constructor|]. destruct (always_safe b) eqn:S; [|destruct (is 32 b) eqn:SP]; cbn [app].
  - apply enc_self; [|exact IH]. unfold reserved. intros K. cbn [In] in K. repeat (destruct K as [<-|K]; [discriminate S|]). contradiction.
  - apply is_iff in SP. assert (b = x20) as -> by (apply byte_of_bZ; exact SP). apply enc_plus, IH.
  - pose proof (bZ_range b). apply (enc_hex b _ _ (bZ b / 16) (bZ b mod 16)); [apply hex_upper_ok|apply hex_upper_ok| |exact IH].
    + lia.
    + apply Z.mod_pos_bound. lia.
    + apply Z.div_mod. lia.
Qed.
Lemma str_text_ok l : ascii_text l -> str_text l = Ok l.
Proof.
  intros A. unfold str_text. replace (forallb (fun b => bZ b <? 128) l) with true; [reflexivity|]. symmetry. apply forallb_forall. intros b I. unfold ascii_text in A. rewrite Forall_forall in A. specialize (A b I). lia.
Qed.
Definition text_of (v : qval) : bytes := match v with QText t => t | QFloat f => str_float f end.
Definition good_item (e : bytes * qval) : Prop := ascii_text (fst e) /\ match snd e with QText t => ascii_text t | _ => True end.
Lemma encode_fields_ok l : Forall good_item l -> exists ts, encode_fields l = Ok ts /\ Forall2 field_text (map (fun e => (fst e, text_of (snd e))) l) ts.
Proof.
  induction 1 as [|(k, v) l G _ (ts & E & F)]; cbn [encode_fields map]; [exists []; split; [reflexivity|constructor]|]. destruct G as (G1 & G3). cbn [fst snd] in *.
  rewrite (str_text_ok k G1). cbn [bind]. assert (SV : str_qval v = Ok (text_of v)) by (destruct v; [apply str_text_ok, G3|reflexivity]). rewrite SV. cbn [bind]. rewrite E. cbn [bind].
  eexists. split; [reflexivity|]. constructor; [|exact F]. constructor; apply quote_ok.
Qed.
Lemma join_ok fs ts : Forall2 field_text fs ts -> fs <> [] -> fields_text fs (join_amp ts) /\ join_amp ts <> [].
Proof.
  intros F. induction F as [|f t fs ts X F IH]; intros N; [contradiction (N eq_refl)|]. assert (TN : t <> []) by (destruct X as [? ? ek]; destruct ek; discriminate).
  destruct F as [|f' t' fs ts X' F]; cbn [join_amp].
  - split; [constructor; exact X|exact TN].
  - destruct IH as (A & B); [discriminate|]. split; [|destruct t; [contradiction (TN eq_refl)|discriminate]]. apply more_fields; [exact X|left; reflexivity|exact A].
Qed.
Lemma insert_perm {A} (e : bytes * A) l : Permutation (insert_item e l) (e :: l).
Proof.
  induction l as [|e' l IH]; cbn [insert_item]; [reflexivity|]. destruct (bytes_leb _ _); [reflexivity|]. rewrite IH. apply perm_swap.
Qed.
Lemma sorted_perm {A} (l : list (bytes * A)) : Permutation (sorted_items l) l.
Proof. unfold sorted_items. induction l as [|e l IH]; cbn [fold_right]; [reflexivity|]. rewrite insert_perm, IH. reflexivity. Qed.
Lemma leb_le a b : bytes_leb a b = true <-> text_le a b.
Proof.
  revert b. induction a as [|x a IH]; intros [|y b]; cbn [bytes_leb].
  - split; [constructor|reflexivity].
  - split; [constructor|reflexivity].
  - split; [discriminate|intros H; inversion H].
  - destruct (bZ x <? bZ y) eqn:L; [split; [intros _; apply le_lt; lia|reflexivity]|]. destruct (bZ y <? bZ x) eqn:G; [split; [discriminate|intros H; inversion H; subst; lia]|].
    rewrite IH. split; intros H.
    + assert (x = y) as -> by (apply byte_of_bZ; lia). apply le_eq, H.
    + inversion H; subst; [lia|assumption].
Qed.
Lemma leb_total a b : bytes_leb a b = false -> text_le b a.
Proof.
  revert b. induction a as [|x a IH]; intros [|y b]; cbn [bytes_leb]; try discriminate; [intros _; constructor|]. destruct (bZ x <? bZ y) eqn:L; [discriminate|]. destruct (bZ y <? bZ x) eqn:G; intros H.
  - apply le_lt. lia.
  - assert (x = y) as -> by (apply byte_of_bZ; lia). apply le_eq, IH, H.
Qed.
Lemma text_le_trans a b c : text_le a b -> text_le b c -> text_le a c.
Proof.
  intros H. revert c. induction H as [l|x y l m L|x l m H IH]; intros c K; [constructor| |].
  - inversion K; subst; apply le_lt; lia.
  - inversion K; subst; [apply le_lt; assumption|apply le_eq, IH; assumption].
Qed.
Definition item_le {A} (a b : bytes * A) : Prop := text_le (fst a) (fst b).
Lemma sorted_sorted {A} (l : list (bytes * A)) : StronglySorted item_le (sorted_items l).
Proof.
  unfold sorted_items. induction l as [|e l IH]; cbn [fold_right]; [constructor|]. induction IH as [|e' l' S IH' F]; cbn [insert_item]; [repeat constructor|].
  destruct (bytes_leb (fst e) (fst e')) eqn:L.
  - apply leb_le in L. constructor; [constructor; assumption|]. constructor; [exact L|]. eapply Forall_impl; [|exact F]. intros x X. eapply text_le_trans; [exact L|exact X].
  - apply leb_total in L. constructor; [exact IH'|]. rewrite insert_perm. constructor; [exact L|exact F].
Qed.
Lemma dset_in {A} (d : dict A) k v k' v' : In (k', v') (dset d k v) <-> (k' = k /\ v' = v) \/ (k' <> k /\ In (k', v') d).
Proof.
  unfold dset, dremove. rewrite in_app_iff, filter_In. cbn [In fst]. split.
  - intros [(I & N)|[E|[]]]; [right|left; split; congruence]. split; [|exact I]. intros ->. rewrite eqb_refl in N. discriminate.
  - intros [(-> & ->)|(N & I)]; [right; left; reflexivity|left]. split; [exact I|]. rewrite eqb_neq by congruence. reflexivity.
Qed.
(** the dictionary handed to [urlencode] *)
Definition query_items (u : uri_t) : dict qval :=
  let q := map (fun e => (fst e, QText (snd e))) (uri_extras u) in
  let q := match uri_amount u with Some a => dset q k_amount (QFloat (u_btc a)) | None => q end in
  opt_entry k_r (uri_r u) (opt_entry k_label (uri_label u) (opt_entry k_message (uri_message u) q)).
Lemma opt_entry_in k v q k' w : (forall x, ~ In (k, x) q) -> In (k', w) (opt_entry k v q) <-> In (k', w) q \/ exists t, v = Some t /\ t <> [] /\ k' = k /\ w = QText t.
Proof.
  intros N. destruct v as [[|b t]|]; cbn [opt_entry].
  - split; [tauto|]. intros [H|(t & E & NE & _)]; [exact H|]. assert (t = []) as -> by congruence. contradiction (NE eq_refl).
  - rewrite dset_in. split.
    + intros [(-> & ->)|(_ & H)]; [right; exists (b :: t); repeat split; discriminate|left; exact H].
    + intros [H|(t' & E & _ & -> & ->)]; [right; split; [intros ->; apply (N w), H|exact H]|left; split; [reflexivity|congruence]].
  - split; [tauto|]. intros [H|(t & E & _)]; [exact H|discriminate].
Qed.
Lemma opt_entry_nodup k v q : NoDup (map fst q) -> NoDup (map fst (opt_entry k v q)).
Proof. intros N. destruct v as [[|b t]|]; cbn [opt_entry]; [exact N|apply set_nodup, N|exact N]. Qed.
Lemma k_diff : k_message <> k_amount /\ k_label <> k_amount /\ k_r <> k_amount /\ k_label <> k_message /\ k_r <> k_message /\ k_r <> k_label.
Proof. repeat split; discriminate. Qed.
Lemma items_ok u : NoDup (map fst (uri_extras u)) -> (forall k v, In (k, v) (uri_extras u) -> ~ member k) -> NoDup (map fst (query_items u)) /\ forall k v, (exists w, In (k, w) (query_items u) /\ text_of w = v) <-> field_of u k v.
Proof.
  intros ND EX. unfold query_items. cbv zeta. set (q0 := map (fun e => (fst e, QText (snd e))) (uri_extras u)).
  assert (N0 : NoDup (map fst q0)) by (unfold q0; rewrite map_map; exact ND).
  assert (I0 : forall k w, In (k, w) q0 <-> exists v, w = QText v /\ In (k, v) (uri_extras u)).
  { intros k w. unfold q0. rewrite in_map_iff. split; [intros ((k' & v) & E & I); cbn [fst snd] in E; injection E as -> <-; eauto|intros (v & -> & I); exists (k, v); auto]. }
  assert (M0 : forall k w, In (k, w) q0 -> ~ member k) by (intros k w I; apply I0 in I as (v & _ & I); exact (EX _ _ I)). clearbody q0.
  set (q1 := match uri_amount u with Some a => dset q0 k_amount (QFloat (u_btc a)) | None => q0 end).
  assert (N1 : NoDup (map fst q1)) by (unfold q1; destruct (uri_amount u); [apply set_nodup, N0|exact N0]).
  assert (I1 : forall k w, In (k, w) q1 <-> In (k, w) q0 \/ exists a, uri_amount u = Some a /\ k = k_amount /\ w = QFloat (u_btc a)).
  { intros k w. unfold q1. destruct (uri_amount u) as [a|].
    - rewrite dset_in. split; [intros [(-> & ->)|(_ & H)]; eauto|]. intros [H|(a' & E & -> & ->)]; [right; split; [intros ->; apply (M0 _ _ H); cbn; tauto|exact H]|left; split; [reflexivity|congruence]].
    - split; [tauto|]. intros [H|(a & E & _)]; [exact H|discriminate]. }
  clearbody q1. pose proof k_diff as (D1 & D2 & D3 & D4 & D5 & D6).
  assert (X1 : forall k, member k -> k <> k_amount -> forall x, ~ In (k, x) q1) by (intros k M NK x K; apply I1 in K as [K|(a & _ & K & _)]; [apply (M0 _ _ K M)|contradiction]).
  assert (Mm : member k_message) by (cbn; tauto). assert (Ml : member k_label) by (cbn; tauto). assert (Mr : member k_r) by (cbn; tauto).
  set (q2 := opt_entry k_message (uri_message u) q1). assert (I2 : forall k w, In (k, w) q2 <-> _) by (intros k w; apply opt_entry_in, X1; assumption).
  assert (X2 : forall x, ~ In (k_label, x) q2) by (intros x K; apply I2 in K as [K|(t & _ & _ & K & _)]; [apply (X1 k_label Ml D2 _ K)|contradiction]).
  set (q3 := opt_entry k_label (uri_label u) q2). assert (I3 : forall k w, In (k, w) q3 <-> _) by (intros k w; apply opt_entry_in, X2).
  assert (X3 : forall x, ~ In (k_r, x) q3) by (intros x K; apply I3 in K as [K|(t & _ & _ & K & _)]; [apply I2 in K as [K|(t & _ & _ & K & _)]; [apply (X1 k_r Mr D3 _ K)|contradiction]|contradiction]).
  split; [apply opt_entry_nodup, opt_entry_nodup, opt_entry_nodup, N1|]. intros k v. unfold field_of. split.
  - intros (w & I & <-). apply opt_entry_in in I as [I|(t & E & NE & -> & ->)]; [|cbn [text_of]; auto 10|exact X3].
    apply I3 in I as [I|(t & E & NE & -> & ->)]; [|cbn [text_of]; auto 10]. apply I2 in I as [I|(t & E & NE & -> & ->)]; [|cbn [text_of]; auto 10].
    apply I1 in I as [I|(a & E & -> & ->)]; [|cbn [text_of]; right; left; split; [reflexivity|eauto]]. apply I0 in I as (t & -> & I). left. exact I.
  - intros [I|[(-> & a & E & ->)|(NE & [(-> & E)|[(-> & E)|(-> & E)]])]].
    + exists (QText v). split; [|reflexivity]. apply opt_entry_in; [exact X3|]. left. apply I3. left. apply I2. left. apply I1. left. apply I0. eauto.
    + exists (QFloat (u_btc a)). split; [|reflexivity]. apply opt_entry_in; [exact X3|]. left. apply I3. left. apply I2. left. apply I1. right. eauto.
    + exists (QText v). split; [|reflexivity]. apply opt_entry_in; [exact X3|]. left. apply I3. left. apply I2. right. exists v. auto.
    + exists (QText v). split; [|reflexivity]. apply opt_entry_in; [exact X3|]. left. apply I3. right. exists v. auto.
    + exists (QText v). split; [|reflexivity]. apply opt_entry_in; [exact X3|]. right. exists v. auto.
Qed.
Lemma denotes_nonempty t q : denotes t q -> t <> [].
Proof.
  intros (sg & s & ip & ft & fp & et & x & -> & S & F & X & NE & _) K. apply app_eq_nil in K as (_ & K). apply app_eq_nil in K as (-> & K). apply app_eq_nil in K as (K & _). destruct F; [contradiction (NE eq_refl)|discriminate].
Qed.
Lemma items_good u : plain u -> Forall good_item (query_items u).
Proof.
  intros P. pose proof P as (VA & ND & EX & OT & AM). apply Forall_forall. intros (k, w) I. destruct (items_ok u ND (fun k v H => proj1 (EX k v H))) as (_ & F). pose proof (proj1 (F k (text_of w)) (ex_intro _ w (conj I eq_refl))) as FO.
  unfold good_item. cbn [fst snd]. assert (LIT : ascii_text k_amount /\ ascii_text k_message /\ ascii_text k_label /\ ascii_text k_r) by (repeat split; repeat (constructor; [cbn; lia|]); constructor).
  assert (G : ascii_text k /\ (match w with QText t => ascii_text t | _ => True end \/ k = k_amount)).
  { destruct FO as [E|[(-> & a & E & EV)|(NE & [(-> & E)|[(-> & E)|(-> & E)]])]].
    - apply EX in E as (_ & A & B). split; [exact A|]. left. destruct w; [exact B|exact Logic.I].
    - split; [apply LIT|right; reflexivity].
    - split; [apply LIT|]. left. destruct w; [apply (OT t); auto|exact Logic.I].
    - split; [apply LIT|]. left. destruct w; [apply (OT t); auto|exact Logic.I].
    - split; [apply LIT|]. left. destruct w; [apply (OT t); auto|exact Logic.I]. }
  destruct G as (G1 & G3). split; [exact G1|]. destruct G3 as [G3|G3]; [exact G3|]. subst k. destruct w as [t|f]; [|exact Logic.I].
  assert (AT : forall q, (forall x, In (k_amount, x) q -> exists f, x = QFloat f) -> forall k v, k <> k_amount -> forall x, In (k_amount, x) (opt_entry k v q) -> exists f, x = QFloat f).
  { intros q H k v NK x K. destruct v as [[|b l]|]; cbn [opt_entry] in K; [apply H, K| |apply H, K]. apply dset_in in K as [(K & _)|(_ & K)]; [contradiction (NK (eq_sym K))|apply H, K]. }
  pose proof k_diff as (D1 & D2 & D3 & _). exfalso. unfold query_items in I. cbv zeta in I.
  assert (B : forall x, In (k_amount, x) (match uri_amount u with Some a => dset (map (fun e => (fst e, QText (snd e))) (uri_extras u)) k_amount (QFloat (u_btc a)) | None => map (fun e => (fst e, QText (snd e))) (uri_extras u) end) -> exists f, x = QFloat f).
  { assert (NA : forall x, ~ In (k_amount, x) (map (fun e => (fst e, QText (snd e))) (uri_extras u))).
    { intros x K. apply in_map_iff in K as ((k' & v') & E & K). cbn [fst snd] in E. injection E as -> _. apply EX in K as (K & _). apply K. cbn. tauto. }
    intros x K. destruct (uri_amount u) as [a|]; [|contradiction (NA _ K)]. apply dset_in in K as [(_ & ->)|(K & _)]; [eauto|contradiction (K eq_refl)]. }
  destruct (AT _ (AT _ (AT _ B k_message (uri_message u) D1) k_label (uri_label u) D2) k_r (uri_r u) D3 _ I) as (f & E). discriminate.
Qed.
Lemma to_uri_ok u : plain u -> exists t path fs q, to_uri u = Ok t /\ addr_to_string (uri_address u) = Ok path /\ t = txt "bitcoin:" ++ path ++ q /\
  query_text fs q /\ NoDup (map fst fs) /\ StronglySorted (fun a b => text_le (fst a) (fst b)) fs /\ forall k v, In (k, v) fs <-> field_of u k v.
Proof.
  intros P. pose proof P as (VA & ND0 & EX0 & _). destruct (addr_string_roundtrip _ VA) as (path & AS & _). destruct (items_ok u ND0 (fun k v H => proj1 (EX0 k v H))) as (ND & FO). pose proof (items_good u P) as GI.
  pose proof (sorted_perm (query_items u)) as PM. pose proof (sorted_sorted (query_items u)) as SS. set (items := sorted_items (query_items u)) in *.
  assert (GI' : Forall good_item items) by (rewrite PM; exact GI). destruct (encode_fields_ok items GI') as (ts & E & F2).
  set (fs := map (fun e => (fst e, text_of (snd e))) items) in *. exists (txt "bitcoin:" ++ path ++ match join_amp ts with [] => [] | _ => Zb 63 :: join_amp ts end), path, fs, (match join_amp ts with [] => [] | _ => Zb 63 :: join_amp ts end).
  split; [|split; [exact AS|split; [reflexivity|]]].
  - unfold to_uri. cbv zeta. change (opt_entry k_r (uri_r u) _) with (query_items u). fold items. unfold urlencode. rewrite E. cbn [bind]. rewrite AS. cbn [bind]. reflexivity.
  - split; [|split; [|split]].
    + destruct fs as [|f fs'] eqn:EF; [inversion F2; subst; constructor|]. destruct (join_ok _ _ F2) as (A & B); [discriminate|]. destruct (join_amp ts); [contradiction (B eq_refl)|]. constructor. exact A.
    + unfold fs. rewrite map_map. cbn [fst]. apply (Permutation_NoDup (l := map fst (query_items u))); [apply Permutation_map; symmetry; exact PM|exact ND].
    + unfold fs. clear - SS. induction SS as [|e l S IH F]; cbn [map]; [constructor|]. constructor; [exact IH|]. apply Forall_forall. intros x I. apply in_map_iff in I as (y & <- & I). rewrite Forall_forall in F. exact (F y I).
    + intros k v. rewrite <- FO. unfold fs. rewrite in_map_iff. split.
      * intros ((k' & w) & EQ & I). cbn [fst snd] in EQ. injection EQ as -> <-. exists w. split; [|reflexivity]. rewrite <- PM. exact I.
      * intros (w & I & <-). exists (k, w). split; [reflexivity|]. rewrite PM. exact I.
Qed.
Lemma last_value_nodup k fs v : NoDup (map fst fs) -> last_value k fs (Some v) <-> In (k, v) fs.
Proof.
  intros N. cbn [last_value]. split.
  - intros (a & b & -> & _). apply in_elt.
  - intros I. apply in_split in I as (a & b & ->). exists a, b. split; [reflexivity|]. rewrite map_app in N. cbn [map fst] in N. apply NoDup_remove_2 in N. rewrite in_app_iff in N. tauto.
Qed.
Lemma address_alnum a path : valid_addr a -> addr_to_string a = Ok path -> Forall alnum path /\ path <> [].
Proof.
  intros V E. assert (F : addr_from_string path = Ok a) by (apply addr_string_iff; auto). split.
  - unfold addr_from_string in F. destruct (decode_base58h path) as [b|] eqn:D; cbn [recatch bind] in F; [|destruct (is_invalid_base58h e); discriminate].
    unfold decode_base58h in D. destruct (a2b_hashed_base58 path) as [p|e] eqn:H; [|cbn in D; destruct (is_utils_encoding e); discriminate]. unfold a2b_hashed_base58 in H. destruct (a2b_base58 path) as [data|] eqn:AB; [|discriminate].
    assert (I : Forall in58 path) by (apply a2b_base58_ok_iff; eauto). eapply Forall_impl; [|exact I]. intros c C. unfold in58, rank58 in C. cbv zeta in C. unfold alnum.
    repeat match type of C with context [if ?x then _ else _] => destruct x eqn:?; [lia|] end. contradiction (C eq_refl).
  - intros ->. vm_compute in F. discriminate.
Qed.
Lemma plain_text u t path fs q : valid_addr (uri_address u) -> addr_to_string (uri_address u) = Ok path -> t = txt "bitcoin:" ++ path ++ q -> query_text fs q -> (q = [] -> ~ Forall digit path) -> uri_text (txt "bitcoin") path (filter has_value fs) t.
Proof.
  intros V A T Q D. destruct (address_alnum _ _ V A) as (AL & NE). exists [], q. split; [exact T|]. split; [left; reflexivity|]. split; [apply scheme_is; split; [discriminate|reflexivity]|].
  split; [exact AL|]. split; [exact NE|]. split; [apply written_query, Q|auto].
Qed.
(** writing and reading back *)
Lemma has_value_in k v fs : In (k, v) (filter has_value fs) <-> In (k, v) fs /\ v <> [].
Proof. rewrite filter_In. unfold has_value. cbn [snd]. destruct v; split; intros (H & K); (split; [exact H|]); congruence. Qed.
Lemma kept_value v : v <> [] -> kept (Some v) = Some v.
Proof. destruct v; [congruence|reflexivity]. Qed.
Lemma field_value u k fs : NoDup (map fst fs) -> (forall k v, In (k, v) fs <-> field_of u k v /\ v <> []) -> plain u ->
  last_value k_message fs (kept (uri_message u)) /\ last_value k_label fs (kept (uri_label u)) /\ last_value k_r fs (kept (uri_r u)) /\
  (~ member k -> forall v, last_value k fs (Some v) <-> In (k, v) (uri_extras u) /\ v <> []) /\
  (forall w, uri_amount u = Some w -> last_value k_amount fs (Some (str_float (u_btc w)))) /\ (uri_amount u = None -> last_value k_amount fs None).
Proof.
  intros N H (VA & ND & EX & OT & AM). pose proof k_diff as (D1 & D2 & D3 & D4 & D5 & D6).
  assert (NX : forall k v, member k -> ~ In (k, v) (uri_extras u)) by (intros k' v M I; apply EX in I; tauto).
  assert (Mm : member k_message) by (cbn; tauto). assert (Ml : member k_label) by (cbn; tauto). assert (Mr : member k_r) by (cbn; tauto). assert (Ma : member k_amount) by (cbn; tauto).
  assert (G : forall kk vv, (forall v, v <> [] -> vv = Some v -> field_of u kk v) -> (forall v, field_of u kk v -> v <> [] -> vv = Some v) -> last_value kk fs (kept vv)).
  { intros kk vv G1 G2. destruct (kept vv) as [v|] eqn:E.
    - assert (v <> [] /\ vv = Some v) as (NV & EV) by (destruct vv as [[|c l]|]; cbn [kept] in E; try discriminate; split; congruence). apply last_value_nodup; [exact N|]. apply H. split; [apply G1; assumption|exact NV].
    - intros I. apply in_map_iff in I as ((k', v) & K & I). cbn [fst] in K. subst k'. apply H in I as (I & NV). rewrite (G2 v I NV) in E. rewrite kept_value in E by exact NV. discriminate. }
  split; [|split; [|split; [|split; [|split]]]].
  - apply G; [intros v NV E; right; right; split; [exact NV|left; split; [reflexivity|exact E]]|].
    intros v [I|[(K & _)|(_ & [(_ & K)|[(K & _)|(K & _)]])]] _; [contradiction (NX _ _ Mm I)|contradiction (D1 K)|exact K|contradiction (D4 (eq_sym K))|contradiction (D5 (eq_sym K))].
  - apply G; [intros v NV E; right; right; split; [exact NV|right; left; split; [reflexivity|exact E]]|].
    intros v [I|[(K & _)|(_ & [(K & _)|[(_ & K)|(K & _)]])]] _; [contradiction (NX _ _ Ml I)|contradiction (D2 K)|contradiction (D4 K)|exact K|contradiction (D6 (eq_sym K))].
  - apply G; [intros v NV E; right; right; split; [exact NV|right; right; split; [reflexivity|exact E]]|].
    intros v [I|[(K & _)|(_ & [(K & _)|[(K & _)|(_ & K)]])]] _; [contradiction (NX _ _ Mr I)|contradiction (D3 K)|contradiction (D5 K)|contradiction (D6 K)|exact K].
  - intros M v. rewrite last_value_nodup by exact N. rewrite H. split; [|intros (I & NV); split; [left; exact I|exact NV]].
    intros ([I|[(-> & _)|(_ & [(-> & _)|[(-> & _)|(-> & _)]])]] & NV); [split; assumption|contradiction|contradiction|contradiction|contradiction].
  - intros w W. apply last_value_nodup; [exact N|]. apply H. split; [right; left; split; [reflexivity|eauto]|]. destruct (AM w W) as (q & Q). destruct (write_ok _ _ Q) as (q' & D & _). eapply denotes_nonempty, D.
  - intros W I. apply in_map_iff in I as ((k', v) & K & I). cbn [fst] in K. subst k'.
    apply H in I as ([I|[(_ & w & E & _)|(_ & [(K & _)|[(K & _)|(K & _)]])]] & _); [apply (NX _ _ Ma I)|congruence|apply D1; symmetry; exact K|apply D2; symmetry; exact K|apply D3; symmetry; exact K].
Qed.
Lemma holds_same u u' fs : NoDup (map fst fs) -> (forall k v, In (k, v) fs <-> field_of u k v /\ v <> []) -> plain u ->
  holds u' (uri_address u) (fun k v => last_value k fs v) -> same_uri u u'.
Proof.
  intros N H P (A & B & C & D & ND' & EX'). destruct (field_value u [] fs N H P) as (F1 & F2 & F3 & _). split; [exact A|].
  split; [apply (last_value_unique _ _ _ _ B F1)|]. split; [apply (last_value_unique _ _ _ _ C F2)|]. split; [apply (last_value_unique _ _ _ _ D F3)|]. split; [exact ND'|].
  pose proof P as (_ & ND & EX & _). intros k v. rewrite EX'. destruct (field_value u k fs N H P) as (_ & _ & _ & F4 & _). split.
  - intros (M & I). apply F4; assumption.
  - intros I. pose proof (EX k v (proj1 I)) as (M & _). split; [exact M|]. apply F4; assumption.
Qed.
Lemma written u : plain u -> exists t path q fs, to_uri u = Ok t /\ addr_to_string (uri_address u) = Ok path /\ addr_from_string path = Ok (uri_address u) /\ t = txt "bitcoin:" ++ path ++ q /\
  NoDup (map fst fs) /\ (forall k v, In (k, v) fs <-> field_of u k v /\ v <> []) /\ ((q = [] -> ~ Forall digit path) -> uri_text (txt "bitcoin") path fs t) /\ (q = [] -> fs = []).
Proof.
  intros P. pose proof P as (VA & _). destruct (to_uri_ok u P) as (t & path & fs & q & E & AS & T & Q & N & _ & H).
  exists t, path, q, (filter has_value fs). split; [exact E|]. split; [exact AS|]. split; [apply addr_string_iff; auto|]. split; [exact T|]. split; [apply filter_nodup, N|].
  split; [intros k v; rewrite has_value_in, H; reflexivity|]. split; [intros D; apply (plain_text u t path fs q); assumption|]. intros ->. inversion Q. reflexivity.
Qed.
Lemma roundtrip u path : plain u -> addr_to_string (uri_address u) = Ok path -> ~ Forall digit path -> uri_amount u = None ->
  exists t u', to_uri u = Ok t /\ uri_init (AText t) = Ok u' /\ same_uri u u' /\ uri_amount u' = None.
Proof.
  intros P AS D AN. destruct (written u P) as (t & path' & q & fs & E & AS' & AF & T & N & H & U & _). assert (path' = path) as -> by congruence. specialize (U (fun _ => D)).
  destruct (field_value u [] fs N H P) as (_ & _ & _ & _ & _ & F6). destruct (init_ok _ _ _ _ _ U AF (F6 AN)) as (u' & I & AM & HO). exists t, u'. split; [exact E|]. split; [exact I|]. split; [|exact AM].
  apply (holds_same u u' fs); assumption.
Qed.
Lemma roundtrip_btc u w f v : plain u -> uri_amount u = Some w -> py_float (str_float (u_btc w)) = Ok f -> unit_init None None None (Some (NFloat f)) = Ok v ->
  exists t u' w', to_uri u = Ok t /\ uri_init (AText t) = Ok u' /\ same_uri u u' /\ uri_amount u' = Some w' /\ u_satoshis w' = u_satoshis v.
Proof.
  intros P AN PF UI. destruct (written u P) as (t & path & q & fs & E & AS & AF & T & N & H & U & EQ).
  destruct (field_value u [] fs N H P) as (_ & _ & _ & _ & F5 & _). specialize (F5 w AN).
  assert (NF : q = [] -> ~ Forall digit path). { intros K. apply EQ in K as ->. exfalso. destruct F5 as (a & b & K & _). destruct a; discriminate. }
  destruct (init_amount _ _ _ _ _ _ _ _ (U NF) AF F5 PF UI) as (u' & y & I & AM & SY & HO). exists t, u', y. split; [exact E|]. split; [exact I|]. split; [apply (holds_same u u' fs); assumption|]. split; [exact AM|exact SY].
Qed.
Lemma roundtrip_amount u w s : plain u -> uri_amount u = Some w -> unit_init (Some (NInt s)) None None None = Ok w -> 0 <= s < 10 ^ 12 ->
  exists t u' w', to_uri u = Ok t /\ uri_init (AText t) = Ok u' /\ same_uri u u' /\ uri_amount u' = Some w' /\ (u_satoshis w' = s \/ u_satoshis w' = s - 1).
Proof.
  intros P AN W B. pose proof (btc_text s w B W) as D. destruct (amount_text _ _ s D) as (f & v & PF & UI & SW); [unfold Qeq, inject_Z; cbn; lia|lia|].
  destruct (roundtrip_btc u w f v P AN PF UI) as (t & u' & w' & E & I & S & A & SY). exists t, u', w'. repeat (split; [assumption|]).
  rewrite SY. destruct SW as [->| ->]; [left; reflexivity|]. destruct (Z.eq_dec s 0) as [->|NZ]; [left; reflexivity|]. right. rewrite Z.sgn_pos; lia.
Qed.

(** *** texts that cannot be written *)
Lemma str_text_res l : str_text l = if forallb (fun b => bZ b <? 128) l then Ok l else Err E_ValueError.
Proof. reflexivity. Qed.
Lemma str_text_inv l l' : str_text l = Ok l' -> ascii_text l.
Proof.
  rewrite str_text_res. destruct (forallb _ l) eqn:E; [|discriminate]. intros _. apply Forall_forall. intros b I. rewrite forallb_forall in E. specialize (E b I). lia.
Qed.
Lemma str_text_err l e : str_text l = Err e -> e = E_ValueError.
Proof. rewrite str_text_res. destruct (forallb _ l); [discriminate|congruence]. Qed.
Lemma encode_fields_inv l : match encode_fields l with Ok _ => Forall good_item l | Err e => e = E_ValueError end.
Proof.
  induction l as [|(k, v) l IH]; cbn [encode_fields]; [constructor|]. destruct (str_text k) as [k'|e] eqn:K; cbn [bind]; [|eapply str_text_err, K].
  assert (V : match str_qval v with Ok _ => match v with QText t => ascii_text t | _ => True end | Err e => e = E_ValueError end).
  { destruct v as [t|f]; [|exact I]. cbn [str_qval]. destruct (str_text t) eqn:T; [eapply str_text_inv, T|eapply str_text_err, T]. }
  destruct (str_qval v) as [v'|e]; cbn [bind]; [|exact V]. destruct (encode_fields l) as [ts|e]; cbn [bind]; [|exact IH].
  constructor; [|exact IH]. split; [eapply str_text_inv, K|exact V].
Qed.
Lemma to_uri_total u : valid_addr (uri_address u) -> NoDup (map fst (uri_extras u)) -> (forall k v, In (k, v) (uri_extras u) -> ~ member k) ->
  match to_uri u with Ok _ => all_ascii u | Err e => e = E_ValueError /\ ~ all_ascii u end.
Proof.
  intros VA ND EX. destruct (items_ok u ND EX) as (_ & FO). destruct (addr_string_roundtrip _ VA) as (path & AS & _).
  unfold to_uri. cbv zeta. change (opt_entry k_r (uri_r u) _) with (query_items u). unfold urlencode. pose proof (encode_fields_inv (sorted_items (query_items u))) as EI.
  destruct (encode_fields (sorted_items (query_items u))) as [ts|e] eqn:E; cbn [bind].
  - rewrite AS. cbn [bind]. rewrite (sorted_perm (query_items u)), Forall_forall in EI.
    assert (TX : forall k v, field_of u k v -> k <> k_amount -> ascii_text k /\ ascii_text v).
    { intros k v F NK. destruct (proj2 (FO k v) F) as (w & I & W). pose proof (EI _ I) as (G1 & G2). cbn [fst snd] in *. split; [exact G1|]. destruct w as [t|f]; [subst v; exact G2|].
      exfalso. clear - I NK. unfold query_items in I. cbv zeta in I.
      assert (OE : forall k' v q, In (k, QFloat f) (opt_entry k' v q) -> In (k, QFloat f) q) by (intros k' v q H; destruct v as [[|b t]|]; cbn [opt_entry] in H; [exact H| |exact H]; apply dset_in in H as [(_ & H)|(_ & H)]; [discriminate|exact H]).
      apply OE, OE, OE in I. assert (NM : forall x, ~ In (x, QFloat f) (map (fun e => (fst e, QText (snd e))) (uri_extras u))) by (intros x H; apply in_map_iff in H as (e & H & _); discriminate).
      destruct (uri_amount u); [|contradiction (NM _ I)]. apply dset_in in I as [(K & _)|(_ & I)]; [contradiction|contradiction (NM _ I)]. }
    pose proof k_diff as (D1 & D2 & D3 & _). split.
    + intros k v I. apply TX; [left; exact I|]. intros ->. apply (EX _ _ I). cbn. tauto.
    + intros v H. destruct v as [|b v]; [constructor|]. destruct H as [H|[H|H]].
      * apply (TX k_message (b :: v)); [|exact D1]. right. right. split; [discriminate|auto].
      * apply (TX k_label (b :: v)); [|exact D2]. right. right. split; [discriminate|auto].
      * apply (TX k_r (b :: v)); [|exact D3]. right. right. split; [discriminate|auto].
  - split; [exact EI|]. intros (A1 & A2). assert (G : Forall good_item (sorted_items (query_items u))).
    { rewrite (sorted_perm (query_items u)). apply Forall_forall. intros (k, w) I. pose proof (proj1 (FO k (text_of w)) (ex_intro _ w (conj I eq_refl))) as F.
      assert (LIT : ascii_text k_amount /\ ascii_text k_message /\ ascii_text k_label /\ ascii_text k_r) by (repeat split; repeat (constructor; [cbn; lia|]); constructor).
      split; cbn [fst snd].
      - destruct F as [F|[(-> & _)|(_ & [(-> & _)|[(-> & _)|(-> & _)]])]]; [apply (A1 _ _ F)|apply LIT|apply LIT|apply LIT|apply LIT].
      - destruct w as [t|f]; [|exact Logic.I]. cbn [text_of] in F. destruct F as [F|[(-> & F)|(_ & [(_ & F)|[(_ & F)|(_ & F)]])]]; [apply (A1 _ _ F)| |apply A2; auto|apply A2; auto|apply A2; auto].
        exfalso. destruct (FO k_amount t) as (_ & _). clear - I EX. unfold query_items in I. cbv zeta in I. pose proof k_diff as (D1 & D2 & D3 & _).
        assert (OE : forall k' v q, k' <> k_amount -> In (k_amount, QText t) (opt_entry k' v q) -> In (k_amount, QText t) q) by (intros k' v q NK H; destruct v as [[|b l]|]; cbn [opt_entry] in H; [exact H| |exact H]; apply dset_in in H as [(H & _)|(_ & H)]; [contradiction (NK (eq_sym H))|exact H]).
        apply OE, OE, OE in I; try assumption.
        assert (NM : ~ In (k_amount, QText t) (map (fun e => (fst e, QText (snd e))) (uri_extras u))) by (intros H; apply in_map_iff in H as ((k, v) & H & J); cbn [fst snd] in H; injection H as -> _; apply (EX _ _ J); cbn; tauto).
        destruct (uri_amount u); [|contradiction (NM I)]. apply dset_in in I as [(_ & K)|(K & _)]; [discriminate|contradiction (K eq_refl)]. }
    destruct (encode_fields_ok _ G) as (ts & K & _). congruence.
Qed.

(** *** statements that fail *)
Lemma encodes_self l : Forall (fun b => ~ reserved b) l -> encodes l l.
Proof. induction 1 as [|b l B _ IH]; [constructor|apply enc_self; assumption]. Qed.
Lemma encodes_alnum l : forallb (fun b => is_alnum b || is 46 b || is 45 b) l = true -> encodes l l.
Proof.
  intros H. apply encodes_self, Forall_forall. intros b I R. rewrite forallb_forall in H. specialize (H b I). unfold reserved in R. cbn [In] in R.
  destruct R as [<-|[<-|[<-|[<-|[<-|[<-|[]]]]]]]; discriminate.
Qed.
Definition zero_address : address := Address (Str (repeat x00 20)) livenet T_PublicKey.
Lemma zero_address_valid : valid_addr zero_address.
Proof. split; [vm_compute; tauto|]. exists (repeat x00 20). split; reflexivity. Qed.
(** a URI with one field of simple characters *)
Lemma simple_uri scheme k v : scheme_text scheme -> encodes k k -> encodes v v -> v <> [] ->
  exists path t, addr_from_string path = Ok zero_address /\ uri_text scheme path [(k, v)] t /\ t = scheme ++ x3a :: path ++ x3f :: k ++ x3d :: v.
Proof.
  intros S K V N. destruct (addr_string_roundtrip _ zero_address_valid) as (path & AS & AF). destruct (address_alnum _ _ zero_address_valid AS) as (AL & NE).
  exists path. eexists. split; [exact AF|]. split; [|reflexivity]. exists [], (x3f :: k ++ x3d :: v). split; [reflexivity|]. split; [left; reflexivity|]. split; [exact S|]. split; [exact AL|]. split; [exact NE|].
  split; [|intros _ H; discriminate]. apply read_some, one_piece, piece_field; [constructor; assumption|exact N].
Qed.
Lemma one_last k v : last_value k [(k, v)] (Some v).
Proof. exists [], []. split; [reflexivity|cbn; tauto]. Qed.
Lemma bitcoin_scheme : scheme_text (txt "bitcoin").
Proof. apply scheme_is. split; [discriminate|reflexivity]. Qed.
Lemma scheme_not_checked : ~ forall scheme path fs t, uri_text scheme path fs t -> uri_is_valid (AText t) = Ok true -> map lower scheme = txt "bitcoin".
Proof.
  intros H. destruct (simple_uri (txt "ftp2") (txt "x") (txt "1")) as (path & t & AF & U & _); [apply scheme_is; split; [discriminate|reflexivity]|apply encodes_alnum; reflexivity|apply encodes_alnum; reflexivity|discriminate|].
  destruct (init_ok _ _ _ _ _ U AF) as (u & I & _); [cbn [last_value map fst In]; intros [K|[]]; discriminate|].
  specialize (H _ _ _ _ U (proj2 (is_valid_exact t) (ex_intro _ u I))). discriminate.
Qed.
Lemma is_valid_not_total : ~ forall t, exists b, uri_is_valid (AText t) = Ok b.
Proof.
  intros H. destruct (simple_uri (txt "bitcoin") k_amount (txt "1e301") bitcoin_scheme) as (path & t & AF & U & _); [apply encodes_alnum; reflexivity|apply encodes_alnum; reflexivity|discriminate|].
  destruct (H t) as (b & B). assert (E : uri_is_valid (AText t) = Err E_OverflowError); [|congruence]. apply is_valid_raises. split; [reflexivity|].
  destruct (parse_ok _ _ _ _ U) as (d & P & _ & _ & L). exists d, (txt "1e301"). pose proof (last_value_unique _ _ _ _ (L k_amount ltac:(discriminate)) (one_last k_amount (txt "1e301"))) as DA.
  destruct (py_float (txt "1e301")) as [f|] eqn:PF; [|vm_compute in PF; discriminate]. exists f. split; [exact P|]. split; [exact DA|]. split; [reflexivity|].
  vm_compute in PF. injection PF as <-. right. eexists. split; [reflexivity|]. unfold in_range. vm_compute. discriminate.
Qed.
Lemma is_valid_dict_not_total : ~ forall d amount, exists b, uri_is_valid (ADict d amount) = Ok b.
Proof. intros H. destruct (H [] None) as (b & B). discriminate. Qed.
Lemma amount_not_exact : ~ forall scheme path fs t x q s u w, uri_text scheme path fs t -> last_value (txt "amount") fs (Some x) -> denotes x q -> (q * inject_Z 100000000 == inject_Z s)%Q -> Z.abs s < 2 ^ 52 ->
  uri_init (AText t) = Ok u -> uri_amount u = Some w -> u_satoshis w = s.
Proof.
  intros H. destruct (simple_uri (txt "bitcoin") k_amount (txt "0.00000003") bitcoin_scheme) as (path & t & AF & U & _); [apply encodes_alnum; reflexivity|apply encodes_alnum; reflexivity|discriminate|].
  destruct (py_float (txt "0.00000003")) as [f|] eqn:PF; [|vm_compute in PF; discriminate]. destruct (unit_init None None None (Some (NFloat f))) as [v|] eqn:UI; [|vm_compute in PF; injection PF as <-; vm_compute in UI; discriminate].
  destruct (init_amount _ _ _ _ _ _ _ _ U AF (one_last _ _) PF UI) as (u & w & I & AM & SW & _).
  assert (K : u_satoshis w = 3).
  { apply (H _ _ _ _ (txt "0.00000003") (3 # 100000000)%Q 3 u w U (one_last _ _)); [|reflexivity|reflexivity|exact I|exact AM].
    exists [], 1, [x30], (x2e :: txt "00000003"), (txt "00000003"), [], 0. split; [reflexivity|]. split; [constructor|]. split; [constructor|]. split; [constructor|]. split; [discriminate|].
    split; [repeat (constructor; [unfold digit; cbn; lia|]); constructor|reflexivity]. }
  vm_compute in PF. injection PF as <-. vm_compute in UI. injection UI as <-. rewrite SW in K. discriminate.
Qed.
Lemma roundtrip_not_exact : ~ forall u w s t u' w', plain u -> uri_amount u = Some w -> unit_init (Some (NInt s)) None None None = Ok w -> 0 <= s <= 2100000000000000 ->
  to_uri u = Ok t -> uri_init (AText t) = Ok u' -> uri_amount u' = Some w' -> s - 1 <= u_satoshis w' <= s.
Proof.
  intros H. destruct (unit_init (Some (NInt 1234567890123)) None None None) as [w|] eqn:W; [|vm_compute in W; discriminate].
  set (u := Uri zero_address (Some w) None None None []). assert (P : plain u).
  { split; [exact zero_address_valid|]. split; [constructor|]. split; [intros k v []|]. split; [intros v [E|[E|E]]; discriminate|]. intros w' E. cbn [uri_amount u] in E. assert (w' = w) as -> by congruence.
    clear - W. vm_compute in W. injection W as <-. eexists. vm_compute. reflexivity. }
  destruct (py_float (str_float (u_btc w))) as [f|] eqn:PF; [|vm_compute in W; injection W as <-; vm_compute in PF; discriminate].
  destruct (unit_init None None None (Some (NFloat f))) as [v|] eqn:UI; [|vm_compute in W; injection W as <-; vm_compute in PF; injection PF as <-; vm_compute in UI; discriminate].
  destruct (roundtrip_btc u w f v P eq_refl PF UI) as (t & u' & w' & E & I & _ & A & SY).
  specialize (H u w 1234567890123 t u' w' P eq_refl W ltac:(lia) E I A). rewrite SY in H. clear - W PF UI H.
  vm_compute in W. injection W as <-. vm_compute in PF. injection PF as <-. vm_compute in UI. injection UI as <-. cbn in H. lia.
Qed.
Lemma empty_lost : ~ forall u t u', plain u -> to_uri u = Ok t -> uri_init (AText t) = Ok u' -> forall k v, In (k, v) (uri_extras u) -> In (k, v) (uri_extras u').
Proof.
  intros H. destruct (unit_init (Some (NInt 0)) None None None) as [w|] eqn:W; [|vm_compute in W; discriminate]. set (u := Uri zero_address (Some w) None None None [(txt "x", [])]). 
  assert (P : plain u).
  { split; [exact zero_address_valid|]. split; [constructor; [intros []|constructor]|]. split; [|split; [intros v [E|[E|E]]; discriminate|]].
    - intros k v [E|[]]. injection E as <- <-. split; [unfold member; cbn [map In]; intros [K|[K|[K|[K|[K|[]]]]]]; discriminate|]. split; [repeat (constructor; [cbn; lia|]); constructor|constructor].
    - intros w' E. cbn [uri_amount u] in E. assert (w' = w) as -> by congruence. clear - W. vm_compute in W. injection W as <-. eexists. vm_compute. reflexivity. }
  destruct (roundtrip_amount u w 0 P eq_refl W ltac:(lia)) as (t & u' & w' & E & I & S & _). specialize (H u t u' P E I (txt "x") [] (or_introl eq_refl)).
  destruct S as (_ & _ & _ & _ & _ & S). destruct (proj1 (S _ _) H) as (_ & NE). contradiction (NE eq_refl).
Qed.

(** *** examples, from the theorems: evaluating the checksum of the address would take a while *)
Lemma simple_valid scheme v : scheme_text scheme -> encodes v v -> v <> [] -> exists path, addr_from_string path = Ok zero_address /\
  uri_text scheme path [(k_amount, v)] (scheme ++ x3a :: path ++ x3f :: k_amount ++ x3d :: v).
Proof.
  intros S V N. destruct (simple_uri scheme k_amount v S) as (path & t & AF & U & ->); [apply encodes_alnum; reflexivity|exact V|exact N|]. eauto.
Qed.
Lemma addr_text_unique p p' a : addr_from_string p = Ok a -> addr_from_string p' = Ok a -> p = p'.
Proof. intros A B. apply addr_string_iff in A as (_ & A), B as (_ & B). congruence. Qed.
Lemma uri_example_valid : exists path, addr_from_string path = Ok zero_address /\
    uri_is_valid (AText (txt "bitcoin:" ++ path ++ txt "?amount=1e301")) = Err E_OverflowError /\
    uri_is_valid (AText (txt "bitcoin:" ++ path ++ txt "?amount=12")) = Ok true /\
    uri_is_valid (AText (txt "litecoin:" ++ path ++ txt "?amount=12")) = Ok true.
Proof.
  destruct (simple_valid (txt "bitcoin") (txt "1e301") bitcoin_scheme) as (path & AF & U1); [apply encodes_alnum; reflexivity|discriminate|].
  destruct (simple_valid (txt "bitcoin") (txt "12") bitcoin_scheme) as (p2 & AF2 & U2); [apply encodes_alnum; reflexivity|discriminate|].
  destruct (simple_valid (txt "litecoin") (txt "12")) as (p3 & AF3 & U3); [apply scheme_is; split; [discriminate|reflexivity]|apply encodes_alnum; reflexivity|discriminate|].
  rewrite (addr_text_unique _ _ _ AF2 AF) in U2. rewrite (addr_text_unique _ _ _ AF3 AF) in U3. clear p2 p3 AF2 AF3. exists path. split; [exact AF|].
  assert (OK : forall scheme t, uri_text scheme path [(k_amount, txt "12")] t -> uri_is_valid (AText t) = Ok true).
  { intros scheme t U. apply is_valid_exact. destruct (py_float (txt "12")) as [f|] eqn:PF; [|vm_compute in PF; discriminate].
    destruct (unit_init None None None (Some (NFloat f))) as [v|] eqn:UI; [|vm_compute in PF; injection PF as <-; vm_compute in UI; discriminate].
    destruct (init_amount _ _ _ _ _ _ _ _ U AF (one_last _ _) PF UI) as (u & w & I & _). eauto. }
  split; [|split; [exact (OK _ _ U2)|exact (OK _ _ U3)]].
  apply is_valid_raises. split; [reflexivity|]. destruct (parse_ok _ _ _ _ U1) as (d & P & _ & _ & L). exists d, (txt "1e301").
  pose proof (last_value_unique _ _ _ _ (L k_amount ltac:(discriminate)) (one_last k_amount (txt "1e301"))) as DA.
  destruct (py_float (txt "1e301")) as [f|] eqn:PF; [|vm_compute in PF; discriminate]. exists f. split; [exact P|]. split; [exact DA|]. split; [reflexivity|].
  vm_compute in PF. injection PF as <-. right. eexists. split; [reflexivity|]. unfold in_range. vm_compute. discriminate.
Qed.
Lemma uri_example_read : exists path u, addr_from_string path = Ok zero_address /\
  uri_init (AText (txt "bitcoin://" ++ path ++ txt "?label=a&x=%41+b;label=Caf%c3%A9&message=&y")) = Ok u /\
  uri_address u = zero_address /\ uri_amount u = None /\ uri_message u = None /\
  uri_label u = Some (txt "Caf" ++ [xc3; xa9]) /\ uri_extras u = [(txt "x", txt "A b")].
Proof.
  destruct (addr_string_roundtrip _ zero_address_valid) as (path & AS & AF). destruct (address_alnum _ _ zero_address_valid AS) as (AL & NE).
  set (fs := [(txt "label", txt "a")] ++ [(txt "x", txt "A b")] ++ [(txt "label", txt "Caf" ++ [xc3; xa9])] ++ [] ++ []).
  assert (U : uri_text (txt "bitcoin") path fs (txt "bitcoin" ++ x3a :: [x2f; x2f] ++ path ++ txt "?label=a&x=%41+b;label=Caf%c3%A9&message=&y")).
  { eexists [x2f; x2f], _. split; [reflexivity|]. split; [right; reflexivity|]. split; [exact bitcoin_scheme|]. split; [exact AL|]. split; [exact NE|]. split; [|discriminate].
    apply (read_some fs (txt "label=a" ++ x26 :: txt "x=%41+b" ++ x3b :: txt "label=Caf%c3%A9" ++ x26 :: txt "message=" ++ x26 :: txt "y")).
    assert (E : forall l, forallb (fun b => is_alnum b || is 46 b || is 45 b) l = true -> encodes l l) by exact encodes_alnum.
    assert (H : forall b, (forall c, In c [x25; x2b; x26; x3b; x3d; x23] -> bZ c <> bZ b) -> ~ reserved b) by (intros b K R; exact (K b R eq_refl)).
    apply more_pieces; [|left; reflexivity|apply more_pieces; [|right; reflexivity|apply more_pieces; [|left; reflexivity|apply more_pieces; [|left; reflexivity|apply one_piece]]]].
    - apply piece_field; [|discriminate]. apply (a_field (txt "label") (txt "a") (txt "label") (txt "a")); apply E; reflexivity.
    - apply piece_field; [|discriminate]. apply (a_field (txt "x") (txt "A b") (txt "x") (txt "%41+b")); [apply E; reflexivity|].
      apply (enc_hex x41 x34 x31 4 1); [apply (hex_09 x34); cbn; lia|apply (hex_09 x31); cbn; lia|reflexivity|]. apply enc_plus, E. reflexivity.
    - apply piece_field; [|discriminate]. apply (a_field (txt "label") (txt "Caf" ++ [xc3; xa9]) (txt "label") (txt "Caf%c3%A9")); [apply E; reflexivity|].
      do 3 (apply enc_self; [intros R; cbn [In reserved] in R; destruct R as [R|[R|[R|[R|[R|[R|[]]]]]]]; discriminate|]).
      apply (enc_hex xc3 x63 x33 12 3); [apply (hex_af x63); cbn; lia|apply (hex_09 x33); cbn; lia|reflexivity|].
      apply (enc_hex xa9 x41 x39 10 9); [apply (hex_AF x41); cbn; lia|apply (hex_09 x39); cbn; lia|reflexivity|constructor].
    - apply (piece_blank (txt "message")). apply (a_field (txt "message") [] (txt "message") []); apply E; reflexivity.
    - apply piece_nothing. constructor; [|constructor]. intros R. cbn [In] in R. destruct R as [R|[R|[R|[R|[]]]]]; discriminate. }
  destruct (init_ok _ _ _ _ _ U AF) as (u & I & AM & (A & M & L & R & ND & EX)).
  { cbn [last_value fs app map fst In]. intros [K|[K|[K|[]]]]; discriminate. }
  exists path, u. split; [exact AF|]. split; [exact I|]. split; [exact A|]. split; [exact AM|]. split; [|split].
  - apply (last_value_unique _ _ _ _ M). cbn [last_value fs app map fst In]. intros [K|[K|[K|[]]]]; discriminate.
  - apply (last_value_unique _ _ _ _ L). exists [(txt "label", txt "a"); (txt "x", txt "A b")], []. split; [reflexivity|intros []].
  - assert (EX' : forall k v, In (k, v) (uri_extras u) <-> k = txt "x" /\ v = txt "A b").
    { intros k v. rewrite EX. assert (LX : last_value (txt "x") fs (Some (txt "A b"))) by (exists [(txt "label", txt "a")], [(txt "label", txt "Caf" ++ [xc3; xa9])]; split; [reflexivity|]; cbn [map fst In]; intros [K|[]]; discriminate).
      split.
      - intros (NM & a & b & E & _). assert (IN : In (k, v) fs) by (rewrite E; apply in_elt). cbn [fs app In] in IN. destruct IN as [K|[K|[K|[]]]]; [|split; congruence|]; exfalso; apply NM; assert (k = txt "label") as -> by congruence; cbn; tauto.
      - intros (-> & ->). split; [|exact LX]. unfold member. cbn [map In]. intros [K|[K|[K|[K|[K|[]]]]]]; discriminate. }
    destruct (uri_extras u) as [|(k, v) l]; [destruct (proj2 (EX' (txt "x") (txt "A b")) (conj eq_refl eq_refl))|].
    destruct (proj1 (EX' k v) (or_introl eq_refl)) as (-> & ->). destruct l as [|(k', v') l]; [reflexivity|]. exfalso.
    destruct (proj1 (EX' k' v') (or_intror (or_introl eq_refl))) as (-> & ->). inversion ND as [|x y X _]. apply X. left. reflexivity.
Qed.
Lemma uri_example_write : exists u w t path, plain u /\ unit_init (Some (NInt 150000000)) None None None = Ok w /\ uri_amount u = Some w /\
  addr_to_string (uri_address u) = Ok path /\ to_uri u = Ok t /\ t = txt "bitcoin:" ++ path ++ txt "?amount=1.5&label=a%26b+c&zz=1".
Proof.
  destruct (unit_init (Some (NInt 150000000)) None None None) as [w|] eqn:W; [|vm_compute in W; discriminate].
  destruct (addr_string_roundtrip _ zero_address_valid) as (path & AS & AF). exists (Uri zero_address (Some w) None (Some (txt "a&b c")) None [(txt "zz", txt "1")]), w. eexists. exists path.
  assert (A : forall l, forallb (fun b => bZ b <? 128) l = true -> ascii_text l) by (intros l H; apply Forall_forall; intros b I; rewrite forallb_forall in H; specialize (H b I); lia).
  split; [|split; [reflexivity|split; [reflexivity|split; [exact AS|split]]]].
  - split; [exact zero_address_valid|]. split; [constructor; [intros []|constructor]|]. split; [|split].
    + intros k v [E|[]]. injection E as <- <-. split; [unfold member; cbn [map In]; intros [K|[K|[K|[K|[K|[]]]]]]; discriminate|]. split; apply A; reflexivity.
    + cbn [uri_message uri_label uri_r]. intros v [E|[E|E]]; [discriminate| |discriminate]. injection E as <-. apply A. vm_compute. reflexivity.
    + intros w' E. cbn [uri_amount] in E. assert (w' = w) as -> by congruence. clear - W. vm_compute in W. injection W as <-. eexists. vm_compute. reflexivity.
  - unfold to_uri. cbn [uri_address]. rewrite AS. vm_compute in W. injection W as <-. 
    match goal with |- bind ?x _ = _ => assert (K : x = Ok (txt "amount=1.5&label=a%26b+c&zz=1")) by (vm_compute; reflexivity); rewrite K end. cbn [bind]. reflexivity.
  - reflexivity.
Qed.
