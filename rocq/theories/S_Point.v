(** Specifications for points and curves as objects. *)
From Coq Require Import ZArith List String.
From Verif Require Import Base M_Codec M_Keys M_EC S_EC S_Show M_Show M_Point.
Import ListNotations.
Open Scope Z_scope.

(** Nothing but the order may be given in a point that equals INFINITY. *)
Definition infinite (P : pt) : Prop := pt_curve P = None /\ pt_x P = None /\ pt_y P = None.

(** The equation of the curve, for numbers of any size. *)
Definition solves (c : curve) (x y : Z) : Prop := (y * y) mod c_p c = (x * x * x + c_a c * x + c_b c) mod c_p c.

(** [P] stands for the point [E] of the curve object [C]: the abscissa reduced, the ordinate any. *)
Definition denotes (C : cobj) (P : pt) (E : ecp) : Prop :=
  match E with
  | EO => infinite P
  | EA x y => pt_curve P = Some C /\ pt_x P = Some x /\ 0 <= x < c_p (co_curve C) /\
      exists y', pt_y P = Some y' /\ y = y' mod c_p (co_curve C) /\
        (y' * y') mod c_p (co_curve C) = (x * x * x + c_a (co_curve C) * x + c_b (co_curve C)) mod c_p (co_curve C)
  end.

(** The scalar that counts: reduced by the order given to the constructor, unless that is None or 0. *)
Definition scalar (order : option Z) (e e' : Z) : Prop :=
  ((order = None \/ order = Some 0) /\ e' = e) \/ (exists o, order = Some o /\ o <> 0 /\ e' = e mod o).

(** The object for a point of the functional model, on the curve object [C]. *)
Definition on_object (C : cobj) (P : point) : pt :=
  match P with PInf => INFINITY | PAff x y o => Pt (Some C) (Some x) (Some y) o end.
Definition as_object (C : cobj) (r : res point) : res pt := match r with Ok P => Ok (on_object C P) | Err e => Err e end.

(** ** texts *)
Definition opt_text (lg : Z -> bool) (z : option Z) (t : bytes) : Prop :=
  match z with None => t = txt "None" | Some z => num_text lg z t end.
Definition curve_text (lg : Z -> bool) (c : curve) (t : bytes) : Prop :=
  exists p a b, num_text lg (c_p c) p /\ num_text lg (c_a c) a /\ num_text lg (c_b c) b /\
    t = txt "CurveFp(" ++ p ++ txt "," ++ a ++ txt "," ++ b ++ txt ")".
Definition point_text (lg : Z -> bool) (P : pt) (t : bytes) : Prop :=
  exists c x y o, match pt_curve P with None => c = txt "None" | Some C => curve_text lg (co_curve C) c end /\
    opt_text lg (pt_x P) x /\ opt_text lg (pt_y P) y /\ opt_text lg (pt_order P) o /\
    t = txt "Point(" ++ c ++ txt "," ++ x ++ txt "," ++ y ++ txt "," ++ o ++ txt ")".
Definition equation_text (c : curve) (t : bytes) : Prop :=
  exists p a b, numeral p (c_p c) /\ numeral a (c_a c) /\ numeral b (c_b c) /\
    t = txt "y^2 = x^3 + " ++ a ++ txt "*x + " ++ b ++ txt " (mod " ++ p ++ txt ")".
Definition pair_text (x y : Z) (t : bytes) : Prop :=
  exists a b, numeral a x /\ numeral b y /\ t = txt "(" ++ a ++ txt "," ++ b ++ txt ")".
