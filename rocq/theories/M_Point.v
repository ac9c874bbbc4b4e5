(** Model of the classes CurveFp and Point of bitforge/utils/ellipticcurve.py as objects: the curve of
    a point is a reference that may be None or another object, coordinates may be None, and the order
    given to the constructor is checked.  M_EC.v has the points of one curve only. *)
From Coq Require Import String.
From Verif Require Import Base M_Hash M_Codec M_Keys M_EC M_Show.
Open Scope Z_scope.

(** bitforge/utils/ellipticcurve.py:40-54: a CurveFp object.  The class has no [__eq__], so two
    references are equal when they are the same object; [co_id] stands for that.
    Simplification: the modulus is positive (M_EC.inverse_mod). *)
Record cobj := CObj { co_id : nat; co_curve : curve }.
Definition co_same (a b : option cobj) : bool :=
  match a, b with
  | None, None => true
  | Some c, Some d => Nat.eqb (co_id c) (co_id d)
  | _, _ => false
  end.

(** bitforge/utils/ellipticcurve.py:71-76: the attributes of a Point *)
Record pt := Pt { pt_curve : option cobj; pt_x : option Z; pt_y : option Z; pt_order : option Z }.

(** bitforge/utils/ellipticcurve.py:194 *)
Definition INFINITY : pt := Pt None None None None.

Definition same_num (a b : option Z) : bool :=
  match a, b with None, None => true | Some x, Some y => x =? y | _, _ => false end.
(** arithmetic on None is a TypeError *)
Definition num (a : option Z) : res Z := match a with Some z => Ok z | None => Err E_TypeError end.
(** a method call on None is an AttributeError *)
Definition deref (c : option cobj) : res curve := match c with Some c => Ok (co_curve c) | None => Err E_AttributeError end.

(** bitforge/utils/ellipticcurve.py:82-89 [__eq__] *)
Definition o_eq (P Q : pt) : Z :=
  if co_same (pt_curve P) (pt_curve Q) && same_num (pt_x P) (pt_x Q) && same_num (pt_y P) (pt_y Q) then 1 else 0.
(** the truth of that number *)
Definition o_is (P Q : pt) : bool := negb (o_eq P Q =? 0).
(** [P != Q] and [hash(P)]: the class has neither [__ne__] nor [__hash__], and Python 2 then uses the
    identity of the objects, given here as numbers *)
Definition o_ne (idP idQ : nat) (P Q : pt) : bool := negb (Nat.eqb idP idQ).
Definition o_hash (idP : nat) (P : pt) : nat := idP.

(** bitforge/utils/ellipticcurve.py:57-59 [contains_point] on what the constructor was given *)
Definition o_contains (c : curve) (x y : option Z) : res bool :=
  let! y := num y in
  let! x := num x in
  Ok (contains_point c x y).

Section methods.
(** the constructor the methods call *)
Variable init : option cobj -> option Z -> option Z -> option Z -> res pt.

(** bitforge/utils/ellipticcurve.py:158-175 [double] *)
Definition o_double (P : pt) : res pt :=
  if o_is P INFINITY then Ok INFINITY else
  let! c := deref (pt_curve P) in
  let p := c_p c in
  let! x := num (pt_x P) in
  let! y := num (pt_y P) in
  let! inv := inverse_mod (2 * y) p in
  let l := ((3 * x * x + c_a c) * inv) mod p in
  let x3 := (l * l - 2 * x) mod p in
  let y3 := (l * (x - x3) - y) mod p in
  init (pt_curve P) (Some x3) (Some y3) None.

(** bitforge/utils/ellipticcurve.py:91-113 [__add__] *)
Definition o_add (P Q : pt) : res pt :=
  if o_is Q INFINITY then Ok P else
  if o_is P INFINITY then Ok Q else
  if negb (co_same (pt_curve P) (pt_curve Q)) then Err E_AssertionError else
  if same_num (pt_x P) (pt_x Q) then
    let! y1 := num (pt_y P) in
    let! y2 := num (pt_y Q) in
    let! c := deref (pt_curve P) in
    if (y1 + y2) mod c_p c =? 0 then Ok INFINITY else o_double P
  else
    let! c := deref (pt_curve P) in
    let p := c_p c in
    let! y2 := num (pt_y Q) in
    let! y1 := num (pt_y P) in
    let! x2 := num (pt_x Q) in
    let! x1 := num (pt_x P) in
    let! inv := inverse_mod (x2 - x1) p in
    let l := ((y2 - y1) * inv) mod p in
    let x3 := (l * l - x1 - x2) mod p in
    let y3 := (l * (x1 - x3) - y1) mod p in
    init (pt_curve P) (Some x3) (Some y3) None.

(** bitforge/utils/ellipticcurve.py:137-142, the loop of [__mul__]; the loop variable is [2 ^ j] *)
Fixpoint o_loop (self neg : pt) (e : Z) (j : nat) (result : pt) : res pt :=
  match j with
  | O => Ok result
  | S j' =>
      let e3 := 3 * e in
      let i := Z.of_nat j in
      let! result := o_double result in
      let! result := (if Z.testbit e3 i && negb (Z.testbit e i) then o_add result self else Ok result) in
      let! result := (if negb (Z.testbit e3 i) && Z.testbit e i then o_add result neg else Ok result) in
      o_loop self neg e j' result
  end.

(** bitforge/utils/ellipticcurve.py:115-144 [__mul__]; [leftmost_bit(e3)] is [2 ^ log2 e3] *)
Definition o_mul (P : pt) (other : Z) : res pt :=
  let e := match pt_order P with Some o => if o =? 0 then other else other mod o | None => other end in
  if e =? 0 then Ok INFINITY else
  if o_is P INFINITY then Ok INFINITY else
  if negb (e >? 0) then Err E_AssertionError else
  let e3 := 3 * e in
  let! y := num (pt_y P) in
  let! neg := init (pt_curve P) (pt_x P) (Some (- y)) (pt_order P) in
  o_loop P neg e (Z.to_nat (Z.log2 e3) - 1) P.
(** bitforge/utils/ellipticcurve.py:146-149 [__rmul__] *)
Definition o_rmul (other : Z) (P : pt) : res pt := o_mul P other.
End methods.

(** bitforge/utils/ellipticcurve.py:71-80 [Point.__init__]: it multiplies the new point by its order,
    and [__mul__] may construct a point with that order again.  [depth] is how deep Python allows that;
    beyond, Python 2 raises RuntimeError ([P_Point.depth_enough]: 1 is enough). *)
Fixpoint o_init (depth : nat) (c : option cobj) (x y order : option Z) : res pt :=
  let self := Pt c x y order in
  let! on := match c with None => Ok true | Some c => o_contains (co_curve c) x y end in
  if negb on then Err E_NoSuchPoint else
  match order with
  | None => Ok self
  | Some o =>
      if o =? 0 then Ok self else
      match depth with
      | O => Err E_RuntimeError
      | S d => let! R := o_mul (o_init d) self o in
               if o_is R INFINITY then Ok self else Err E_AssertionError
      end
  end.

(** ** texts *)

(** bitforge/utils/ellipticcurve.py:61-62 and 64-65.  [lg] says which numbers are longs (M_Show.v). *)
Definition curve_repr (lg : Z -> bool) (c : curve) : bytes :=
  txt "CurveFp(" ++ repr_num lg (c_p c) ++ txt "," ++ repr_num lg (c_a c) ++ txt "," ++ repr_num lg (c_b c) ++ txt ")".
Definition curve_str (c : curve) : bytes :=
  txt "y^2 = x^3 + " ++ sdec (c_a c) ++ txt "*x + " ++ sdec (c_b c) ++ txt " (mod " ++ sdec (c_p c) ++ txt ")".
Definition num_repr (lg : Z -> bool) (z : option Z) : bytes := match z with Some z => repr_num lg z | None => txt "None" end.
(** bitforge/utils/ellipticcurve.py:151-152 *)
Definition o_repr (lg : Z -> bool) (P : pt) : bytes :=
  txt "Point(" ++ match pt_curve P with Some c => curve_repr lg (co_curve c) | None => txt "None" end ++ txt "," ++
  num_repr lg (pt_x P) ++ txt "," ++ num_repr lg (pt_y P) ++ txt "," ++ num_repr lg (pt_order P) ++ txt ")".
(** bitforge/utils/ellipticcurve.py:154-156; [%d] of None is a TypeError *)
Definition o_str (P : pt) : res bytes :=
  if o_is P INFINITY then Ok (txt "infinity") else
  let! x := num (pt_x P) in
  let! y := num (pt_y P) in
  Ok (txt "(" ++ sdec x ++ txt "," ++ sdec y ++ txt ")").
(** bitforge/utils/ellipticcurve.py:79, the message of the NoSuchPointError of [Point(c, x, y)] *)
Definition no_such_point (c : curve) (x y : Z) : bytes :=
  txt "(" ++ sdec x ++ txt "," ++ sdec y ++ txt ") is not on the curve " ++ curve_str c.
