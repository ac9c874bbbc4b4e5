(** Repeated derivation of public keys (specification). *)
From Coq Require Import ZArith List.
From Verif Require Import Base M_Keys S_Keys M_EC S_EC M_HD S_HD.
Import ListNotations.
Open Scope Z_scope.

(** Calls of HDPublicKey.derive one after the other, with these indices. *)
Fixpoint derive_path (h : hdpub) (p : list Z) : res hdpub :=
  match p with
  | [] => Ok h
  | i :: r => match hdpub_derive h i false with Ok a => derive_path a r | Err e => Err e end
  end.
(** CKDpub of BIP 32 along a path, no point being infinite; only public data occur.  [t] is the sum
    of the numbers parse256(IL).  Derived keys are serialised in compressed form. *)
Inductive descends : Z -> Z -> bool -> bytes -> list Z -> Z -> Z -> bytes -> Z -> Prop :=
| de_here x y cp chain : descends x y cp chain [] x y chain 0
| de_child x y cp chain i r sec is left A x1 y1 chain1 x' y' chain' t :
    sec_of x y cp sec -> ser32 i is -> hmac_halves chain (sec ++ is) left chain1 ->
    multiple secp_p 0 (EA secp_gx secp_gy) (left mod curve_order) A -> is_sum secp_p 0 A (EA x y) (EA x1 y1) ->
    descends x1 y1 true chain1 r x' y' chain' t -> descends x y cp chain (i :: r) x' y' chain' (left + t).
Definition pub_x (h : hdpub) : Z := fst (pk_pair (hp_pubkey h)).
Definition pub_y (h : hdpub) : Z := snd (pk_pair (hp_pubkey h)).
(** [h'] holds the key and chain code that BIP 32 derives from those of [h] along [p]. *)
Definition bip32_descendant (h : hdpub) (p : list Z) (h' : hdpub) (t : Z) : Prop :=
  descends (pub_x h) (pub_y h) (pk_compressed (hp_pubkey h)) (hp_chain h) p (pub_x h') (pub_y h') (hp_chain h') t.
