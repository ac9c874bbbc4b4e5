(** Model of bitforge/unit.py.  Python floats are IEEE 754 binary64 with rounding to nearest,
    ties to even, as in [Coq.Floats.SpecFloat]; Python ints are integers. *)
From Coq Require Import ZArith SpecFloat List.
From Verif Require Import Base.
Open Scope Z_scope.

Notation float := spec_float.
Definition f_mul : float -> float -> float := SFmul 53 1024.
Definition f_div : float -> float -> float := SFdiv 53 1024.
Definition f_round (m e : Z) : float := binary_normalize 53 1024 m e false.

(** The numbers a caller may pass.  Python 2 [int] and [long] are one type here; strings,
    Decimals and other objects are not modelled. *)
Inductive num := NInt (z : Z) | NFloat (f : float).

(** [float(z)], also the conversion Python does in a mixed operation: nearest, and
    OverflowError when that is not finite *)
Definition float_of_int (z : Z) : res float :=
  match f_round z 0 with S754_infinity _ => Err E_OverflowError | f => Ok f end.
Definition to_float (x : num) : res float := match x with NInt z => float_of_int z | NFloat f => Ok f end.

(** [int(f)]: truncation *)
Definition int_of_float (f : float) : res Z :=
  match f with
  | S754_nan => Err E_ValueError
  | S754_infinity _ => Err E_OverflowError
  | S754_zero _ => Ok 0
  | S754_finite s m e =>
      let a := if 0 <=? e then Zpos m * 2 ^ e else Zpos m / 2 ^ (- e) in
      Ok (if s then - a else a)
  end.
Definition to_int (x : num) : res Z := match x with NInt z => Ok z | NFloat f => int_of_float f end.

(** float division: by zero it raises *)
Definition py_div (a b : float) : res float :=
  match b with S754_zero _ => Err E_ZeroDivisionError | _ => Ok (f_div a b) end.

(** bitforge/unit.py:6-9, the class attributes *)
Definition unit_btc : float := f_round 100000000 0.
Definition unit_mbtc : float := f_round 100000 0.
Definition unit_bits : float := f_round 100 0.

Record unit_t := Unit { u_satoshis : Z; u_bits : float; u_mbtc : float; u_btc : float }.

(** bitforge/unit.py:27-31 [_set_values] *)
Definition set_values (satoshis : num) : res unit_t :=
  let! s := to_int satoshis in
  let! f := float_of_int s in
  let! b := py_div f unit_bits in
  let! m := py_div f unit_mbtc in
  let! c := py_div f unit_btc in
  Ok (Unit s b m c).

(** the product of a number and a class attribute *)
Definition scaled (x : num) (u : float) : res num := let! f := to_float x in Ok (NFloat (f_mul f u)).

(** bitforge/unit.py:15-25 [__init__] *)
Definition unit_init (satoshis bits mbtc btc : option num) : res unit_t :=
  match satoshis, bits, mbtc, btc with
  | Some x, _, _, _ => set_values x
  | None, Some x, _, _ => let! y := scaled x unit_bits in set_values y
  | None, None, Some x, _ => let! y := scaled x unit_mbtc in set_values y
  | None, None, None, Some x => let! y := scaled x unit_btc in set_values y
  | None, None, None, None => Err E_ValueError
  end.

(** bitforge/unit.py:11-13 [from_fiat] *)
Definition from_fiat (value rate : num) : res unit_t :=
  let! r := to_float rate in
  let! v := to_float value in
  let! q := py_div v r in
  unit_init None None None (Some (NFloat q)).

(** bitforge/unit.py:33-34 [at_rate] *)
Definition at_rate (u : unit_t) (rate : num) : res float :=
  let! r := to_float rate in Ok (f_mul (u_btc u) r).

(** bitforge/unit.py:36-37 [__str__] is the decimal text of [satoshis]; it is left out. *)
