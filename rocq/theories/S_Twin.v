(** Specifications for changing the signature inside a signed transaction. *)
From Verif Require Import Base S_Codec M_Hash M_Keys S_Keys M_EC S_EC M_Script S_Script M_Tx S_Tx M_Sign S_Sign.
Open Scope Z_scope.

(** [t'] is [t] with the instructions [l'] in the script of input [j], where [t] has [l] *)
Definition rescripted (j : nat) (l l' : list instr) (t t' : tx) : Prop :=
  tx_outputs t' = tx_outputs t /\ tx_lock_time t' = tx_lock_time t /\ tx_version t' = tx_version t /\ equal_but j (tx_inputs t) (tx_inputs t') /\
  exists i i', nth_error (tx_inputs t) j = Some i /\ nth_error (tx_inputs t') j = Some i' /\ same_but_script i i' /\
    s_ins (in_script i) = l /\ s_ins (in_script i') = l'.
(** the instruction [a] pushes the DER signature [(r, s)] and the hash type [h] *)
Definition pushes_sig (r s : Z) (h : byte) (a : instr) : Prop :=
  well_formed a /\ exists der, der_sig r s der /\ option_map pyb_bytes (i_data a) = Some (der ++ [h]).
(** a script of less than 2^63 bytes *)
Definition short_script (l : list instr) : Prop := forall w, wire_script (map content l) w -> blen w < 2 ^ 63.
(** the instructions redeem an output to the key hash [h] with the signature [(r, s)] of the point [(x, y)], and the key bytes [kb] *)
Definition redeems_with (h digest : bytes) (sigtype : Z) (kb : bytes) (x y r s : Z) (l : list instr) : Prop :=
  exists a b compressed, l = [a; b] /\ pushes_sig r s (Zb sigtype) a /\ is_a_push b /\ i_data b = Some (Str kb) /\
    ripemd160 (sha256 kb) = h /\ sec_of x y compressed kb /\ on_curve secp_p 0 7 (EA x y) /\ secp_valid x y (be_val digest) r s.
(** the lower half of the possible [s] *)
Definition low_s (s : Z) : Prop := 1 <= s <= (curve_order - 1) / 2.
