(** What makes two plain values (numbers, texts, byte strings, None, address types) equal. *)
From Verif Require Import Base M_Keys M_Obj.
Open Scope Z_scope.

(** A value that is none of the library's objects, nor a tuple or list. *)
Inductive plain : pyv -> Prop :=
  | Plain_none : plain VNone
  | Plain_bool b : plain (VBool b)
  | Plain_int z : plain (VInteger z)
  | Plain_text t : plain (VString t)
  | Plain_bytes p : plain (VBytes p)
  | Plain_type t : plain (VType t).

(** [True] and [False] are the numbers 1 and 0. *)
Inductive number : pyv -> Z -> Prop :=
  | Number_int z : number (VInteger z) z
  | Number_true : number (VBool true) 1
  | Number_false : number (VBool false) 0.

(** The characters of a text; a [str] of ASCII bytes is such a text too, a bytearray never. *)
Inductive characters : pyv -> list Z -> Prop :=
  | Char_text t : characters (VString t) t
  | Char_str s : Forall (fun b => bZ b < 128) s -> characters (VBytes (Str s)) (map bZ s).

Inductive same_plain : pyv -> pyv -> Prop :=
  | Same_none : same_plain VNone VNone
  | Same_number u v z : number u z -> number v z -> same_plain u v
  | Same_text u v t : characters u t -> characters v t -> same_plain u v
  | Same_bytes p q : pyb_bytes p = pyb_bytes q -> same_plain (VBytes p) (VBytes q)
  | Same_type t : same_plain (VType t) (VType t).
