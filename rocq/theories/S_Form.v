(** What keys and addresses look like as text. *)
From Coq Require Import ZArith List String.
From Verif Require Import Base M_Keys M_EC M_HD S_Codec S_Keys.
Import ListNotations.
Open Scope Z_scope.

(** [s] begins with the characters of [p] *)
Definition begins (p : string) (s : bytes) : Prop := exists r, s = List.app (txt p) r.

(** Addresses: length and first character, by network and type. *)
Inductive address_look : network -> addr_type -> bytes -> Prop :=
  | al_live_key s : (26 <= List.length s <= 34)%nat -> begins "1" s -> address_look livenet T_PublicKey s
  | al_live_script s : List.length s = 34%nat -> begins "3" s -> address_look livenet T_Script s
  | al_test_key s : List.length s = 34%nat -> begins "m" s \/ begins "n" s -> address_look testnet T_PublicKey s
  | al_test_script s : List.length s = 35%nat -> begins "2" s -> address_look testnet T_Script s.

(** Private keys in wallet import format, by network and by compression of the public key. *)
Inductive wif_look : network -> bool -> bytes -> Prop :=
  | wl_live s : List.length s = 51%nat -> begins "5" s -> wif_look livenet false s
  | wl_live_compressed s : List.length s = 52%nat -> begins "K" s \/ begins "L" s -> wif_look livenet true s
  | wl_test s : List.length s = 51%nat -> begins "9" s -> wif_look testnet false s
  | wl_test_compressed s : List.length s = 52%nat -> begins "c" s -> wif_look testnet true s.

(** Hierarchical keys of 78 bytes. *)
Inductive hd_look : network -> bool -> bytes -> Prop :=
  | hl_live_public s : List.length s = 111%nat -> begins "xpub" s -> hd_look livenet true s
  | hl_live_private s : List.length s = 111%nat -> begins "xprv" s -> hd_look livenet false s
  | hl_test_public s : List.length s = 111%nat -> begins "tpub" s -> hd_look testnet true s
  | hl_test_private s : List.length s = 111%nat -> begins "tprv" s -> hd_look testnet false s.

(** The text readers of the library for keys and addresses, each with the texts it accepts. *)
Inductive reader := R_address | R_address_hex | R_wif | R_secret_hex | R_public_hex | R_hd_public | R_hd_private.
Definition accepts (r : reader) (s : bytes) : Prop :=
  match r with
  | R_address => exists a, addr_from_string s = Ok a
  | R_address_hex => exists a, addr_from_hex s = Ok a
  | R_wif => exists k, priv_from_wif s = Ok k
  | R_secret_hex => exists v c k, priv_from_hex s v c = Ok k
  | R_public_hex => exists v k, pk_from_hex s v = Ok k
  | R_hd_public => exists h, hdpub_from_string s = Ok h
  | R_hd_private => exists h, hdpriv_from_string s = Ok h
  end.
