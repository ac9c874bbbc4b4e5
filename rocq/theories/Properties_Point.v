(** Property theorems C106: curves and points as objects. *)
From Coq Require Import ZArith Znumtheory List String.
From Verif Require Import Base M_Codec M_Keys M_EC S_EC S_Show M_Show M_Point S_Point P_DSA P_Point.
Import ListNotations.
Open Scope Z_scope.

(** *** C106 *)
Theorem C106_new : forall d c x y o P, o_init (S d) c x y o = Ok P <-> P = Pt c x y o /\
  (forall C, c = Some C -> exists x' y', x = Some x' /\ y = Some y' /\ solves (co_curve C) x' y').
Proof. exact new_iff. Qed.
Print Assumptions C106_new.

Theorem C106_new_errors : forall d c x y o e, o_init (S d) c x y o = Err e <-> exists C, c = Some C /\
  ((e = E_TypeError /\ (x = None \/ y = None)) \/
   (e = E_NoSuchPoint /\ exists x' y', x = Some x' /\ y = Some y' /\ ~ solves (co_curve C) x' y')).
Proof. exact new_err. Qed.
Print Assumptions C106_new_errors.

Theorem C106_equal : forall P Q, (o_eq P Q = 1 <-> option_map co_id (pt_curve P) = option_map co_id (pt_curve Q) /\ pt_x P = pt_x Q /\ pt_y P = pt_y Q) /\
  (o_eq P Q = 0 <-> o_eq P Q <> 1).
Proof. exact o_eq_spec. Qed.
Print Assumptions C106_equal.

Theorem C106_equivalence : forall P Q R, o_eq P P = 1 /\ o_eq P Q = o_eq Q P /\ (o_eq P Q = 1 -> o_eq Q R = 1 -> o_eq P R = 1).
Proof. exact o_eq_equiv. Qed.
Print Assumptions C106_equivalence.

Theorem C106_not_equal_refuted : ~ (forall i j P Q, o_ne i j P Q = true <-> o_eq P Q = 0).
Proof. exact ne_identity. Qed.
Print Assumptions C106_not_equal_refuted.

Theorem C106_hash_refuted : ~ (forall i j P Q, o_eq P Q = 1 -> o_hash i P = o_hash j Q).
Proof. exact hash_identity. Qed.
Print Assumptions C106_hash_refuted.

Theorem C106_equal_points_refuted : ~ (forall d C x y P Q, o_init (S d) (Some C) (Some x) (Some y) None = Ok P ->
  o_init (S d) (Some C) (Some (x mod c_p (co_curve C))) (Some (y mod c_p (co_curve C))) None = Ok Q -> o_eq P Q = 1).
Proof. exact eq_not_group. Qed.
Print Assumptions C106_equal_points_refuted.

Theorem C106_functional_model : forall C d P Q x y o e,
  o_init (S d) (Some C) (Some x) (Some y) o = as_object C (new_point (co_curve C) x y o) /\
  o_double (o_init (S d)) (on_object C P) = as_object C (p_double (co_curve C) P) /\
  o_add (o_init (S d)) (on_object C P) (on_object C Q) = as_object C (p_add (co_curve C) P Q) /\
  o_mul (o_init (S d)) (on_object C P) e = as_object C (p_mul (co_curve C) P e).
Proof. exact one_curve. Qed.
Print Assumptions C106_functional_model.

Theorem C106_infinity : forall i P Q e, o_eq Q INFINITY = 1 -> o_add i P Q = Ok P /\ (exists R, o_add i Q P = Ok R /\ o_eq R P = 1) /\
  o_double i Q = Ok INFINITY /\ o_mul i Q e = Ok INFINITY.
Proof. exact infinity_neutral. Qed.
Print Assumptions C106_infinity.

Theorem C106_add : forall C d P Q E F, prime (c_p (co_curve C)) -> c_p (co_curve C) <> 2 -> denotes C P E -> denotes C Q F ->
  exists R G, o_add (o_init d) P Q = Ok R /\ denotes C R G /\ is_sum (c_p (co_curve C)) (c_a (co_curve C)) E F G.
Proof. exact add_denotes. Qed.
Print Assumptions C106_add.

Theorem C106_add_same_class : forall C d x1 y1 o1 x2 y2 o2, prime (c_p (co_curve C)) -> c_p (co_curve C) <> 2 -> x1 <> x2 -> x1 mod c_p (co_curve C) = x2 mod c_p (co_curve C) ->
  let P := Pt (Some C) (Some x1) (Some y1) o1 in let Q := Pt (Some C) (Some x2) (Some y2) o2 in o_eq P Q = 0 /\ o_add (o_init d) P Q = Err E_AssertionError.
Proof. exact add_class. Qed.
Print Assumptions C106_add_same_class.

Theorem C106_double : forall C d P x y, prime (c_p (co_curve C)) -> c_p (co_curve C) <> 2 -> denotes C P (EA x y) -> y <> 0 ->
  exists R G, o_double (o_init d) P = Ok R /\ denotes C R G /\ is_sum (c_p (co_curve C)) (c_a (co_curve C)) (EA x y) (EA x y) G.
Proof. exact double_denotes. Qed.
Print Assumptions C106_double.

Theorem C106_double_raises : forall C d P x, prime (c_p (co_curve C)) -> c_p (co_curve C) <> 2 -> denotes C P (EA x 0) -> o_double (o_init d) P = Err E_AssertionError.
Proof. exact double_denotes_fail. Qed.
Print Assumptions C106_double_raises.

Theorem C106_mul : forall C d P E e e', prime (c_p (co_curve C)) -> c_p (co_curve C) <> 2 -> no_two_torsion (co_curve C) -> denotes C P E ->
  scalar (pt_order P) e e' -> 0 <= e' ->
  exists R G, o_mul (o_init (S d)) P e = Ok R /\ o_rmul (o_init (S d)) e P = Ok R /\ denotes C R G /\ multiple (c_p (co_curve C)) (c_a (co_curve C)) E e' G.
Proof. exact mul_denotes. Qed.
Print Assumptions C106_mul.

Theorem C106_mul_negative : forall C i P x y e e', denotes C P (EA x y) -> scalar (pt_order P) e e' -> e' < 0 -> o_mul i P e = Err E_AssertionError.
Proof. exact mul_neg. Qed.
Print Assumptions C106_mul_negative.

Theorem C106_order_refuted : ~ (forall d C P x y e, prime (c_p (co_curve C)) -> c_p (co_curve C) <> 2 -> no_two_torsion (co_curve C) -> denotes C P (EA x y) ->
  o_init (S d) (pt_curve P) (pt_x P) (pt_y P) (pt_order P) = Ok P -> 0 <= e ->
  forall R, o_mul (o_init (S d)) P e = Ok R -> exists G, denotes C R G /\ multiple (c_p (co_curve C)) (c_a (co_curve C)) (EA x y) e G).
Proof. exact order_wrong. Qed.
Print Assumptions C106_order_refuted.

Theorem C106_other_curve : forall i P Q, option_map co_id (pt_curve P) <> option_map co_id (pt_curve Q) -> ~ infinite P -> ~ infinite Q ->
  o_eq P Q = 0 /\ o_add i P Q = Err E_AssertionError.
Proof. exact add_other. Qed.
Print Assumptions C106_other_curve.

Theorem C106_equal_curves_refuted : ~ (forall d C D P Q, co_curve C = co_curve D -> denotes C P (EA 2 12) -> denotes D Q (EA 2 12) -> o_eq P Q = 1 /\ exists R, o_add (o_init d) P Q = Ok R).
Proof. exact other_object. Qed.
Print Assumptions C106_equal_curves_refuted.

Theorem C106_no_curve : forall d x y o e, let P := Pt None (Some x) (Some y) o in
  o_init (S d) None (Some x) (Some y) o = Ok P /\ o_double (o_init d) P = Err E_AttributeError /\
  (forall Q, pt_curve Q = None -> (exists y', pt_y Q = Some y') -> o_add (o_init d) P Q = Err E_AttributeError) /\
  (scalar o e 1 -> o_mul (o_init (S d)) P e = Ok P) /\
  (forall e', scalar o e e' -> 1 < e' -> o_mul (o_init (S d)) P e = Err E_AttributeError).
Proof. exact no_curve. Qed.
Print Assumptions C106_no_curve.

Theorem C106_no_curve_add : forall i P Q, pt_curve P = None -> pt_curve Q = None -> ~ infinite P -> ~ infinite Q ->
  (pt_x P = pt_x Q -> pt_y P = None \/ pt_y Q = None -> o_add i P Q = Err E_TypeError) /\
  (pt_x P <> pt_x Q \/ (pt_y P <> None /\ pt_y Q <> None) -> o_add i P Q = Err E_AttributeError).
Proof. exact no_curve_add. Qed.
Print Assumptions C106_no_curve_add.

Example C106_no_curve_ex : ~ infinite (Pt None (Some 1) None None) /\ ~ infinite (Pt None (Some 1) (Some 2) None) /\
  o_add (o_init 1) (Pt None (Some 1) None None) (Pt None (Some 1) (Some 2) None) = Err E_TypeError /\
  o_add (o_init 1) (Pt None (Some 2) None None) (Pt None (Some 1) (Some 2) None) = Err E_AttributeError.
Proof. split; [intros (_ & X & _); discriminate X|]. split; [intros (_ & X & _); discriminate X|]. split; reflexivity. Qed.

Theorem C106_none_only_infinity_refuted : ~ (forall d x y o P, o_init (S d) None x y o = Ok P -> o_eq P INFINITY = 1).
Proof. exact none_not_infinity. Qed.
Print Assumptions C106_none_only_infinity_refuted.

Theorem C106_repr : forall lg P, point_text lg P (o_repr lg P).
Proof. exact point_repr_text. Qed.
Print Assumptions C106_repr.

Theorem C106_repr_determines : forall lg P Q, o_repr lg P = o_repr lg Q ->
  option_map co_curve (pt_curve P) = option_map co_curve (pt_curve Q) /\ pt_x P = pt_x Q /\ pt_y P = pt_y Q /\ pt_order P = pt_order Q.
Proof. exact point_repr_inj. Qed.
Print Assumptions C106_repr_determines.

Theorem C106_curve_repr : forall lg c, curve_text lg c (curve_repr lg c).
Proof. exact curve_repr_text. Qed.
Print Assumptions C106_curve_repr.

Theorem C106_curve_repr_determines : forall lg c c', curve_repr lg c = curve_repr lg c' -> c = c'.
Proof. exact curve_repr_inj. Qed.
Print Assumptions C106_curve_repr_determines.

Theorem C106_curve_str : forall c, equation_text c (curve_str c).
Proof. exact curve_str_text. Qed.
Print Assumptions C106_curve_str.

Theorem C106_curve_str_determines : forall c c', curve_str c = curve_str c' -> c = c'.
Proof. exact curve_str_inj. Qed.
Print Assumptions C106_curve_str_determines.

Theorem C106_str : forall P, (infinite P -> o_str P = Ok (txt "infinity")) /\
  (forall x y, pt_x P = Some x -> pt_y P = Some y -> exists t, o_str P = Ok t /\ pair_text x y t) /\
  (~ infinite P -> pt_x P = None \/ pt_y P = None -> o_str P = Err E_TypeError).
Proof. exact point_str. Qed.
Print Assumptions C106_str.

Theorem C106_str_coordinates : forall P Q t, o_str P = Ok t -> o_str Q = Ok t -> pt_x P = pt_x Q /\ pt_y P = pt_y Q.
Proof. exact point_str_inj. Qed.
Print Assumptions C106_str_coordinates.

Theorem C106_str_determines_refuted : ~ (forall P Q t, o_str P = Ok t -> o_str Q = Ok t -> o_eq P Q = 1).
Proof. exact str_no_curve. Qed.
Print Assumptions C106_str_determines_refuted.

Theorem C106_message : forall c x y, exists a b, pair_text x y a /\ equation_text c b /\ no_such_point c x y = a ++ txt " is not on the curve " ++ b.
Proof. exact no_such_text. Qed.
Print Assumptions C106_message.

Theorem C106_message_determines : forall c x y c' x' y', no_such_point c x y = no_such_point c' x' y' -> c = c' /\ x = x' /\ y = y'.
Proof. exact no_such_inj. Qed.
Print Assumptions C106_message_determines.

(** the curve and the points of the file's self-test *)
Example C106_ex : let C := CObj 0 (Curve 23 1 1) in let mk x y o := Pt (Some C) (Some x) (Some y) o in
  o_add (o_init 1) (mk 3 10 None) (mk 9 7 None) = Ok (mk 17 20 None) /\ o_double (o_init 1) (mk 3 10 None) = Ok (mk 7 12 None) /\
  o_add (o_init 1) (mk 3 10 None) (mk 3 10 None) = Ok (mk 7 12 None) /\ o_mul (o_init 1) (mk 3 10 None) 2 = Ok (mk 7 12 None) /\
  o_double (o_init 1) INFINITY = Ok INFINITY /\ o_init 1 (Some C) (Some 13) (Some 7) (Some 7) = Ok (mk 13 7 (Some 7)) /\
  o_rmul (o_init 1) (7 mod 7) (mk 13 7 (Some 7)) = Ok INFINITY.
Proof. exact self_test. Qed.
Example C106_ex2 : denotes (CObj 0 toy) (Pt (Some (CObj 0 toy)) (Some 2) (Some 12) (Some 31)) (EA 2 12) /\ scalar (Some 31) (-26) 5 /\
  prime (c_p toy) /\ c_p toy <> 2 /\ no_two_torsion toy /\ o_str (Pt (Some (CObj 0 toy)) (Some 2) (Some 12) (Some 31)) = Ok (txt "(2,12)") /\
  o_repr (fun _ => false) (Pt (Some (CObj 0 toy)) (Some 2) (Some 12) (Some 31)) = txt "Point(CurveFp(43,0,7),2,12,31)" /\ curve_str toy = txt "y^2 = x^3 + 0*x + 7 (mod 43)".
Proof. exact texts_ex. Qed.
