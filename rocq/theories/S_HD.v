(** Specifications for hierarchical keys, after BIP 32. *)
From Coq Require Import ZArith List String.
From Verif Require Import Base M_Hash S_Codec M_Keys S_Keys M_EC S_EC.
Import ListNotations.
Open Scope Z_scope.

(** [t] is the base58check text of [b] *)
Definition check_text (b t : bytes) : Prop := base58_of (b ++ firstn 4 (sha256 (sha256 b))) t.

(** the 78-byte structure of BIP 32: version(4) depth(1) parent(4) index(4) chain(32) key(33) *)
Definition hd_layout (version depth parent index : Z) (chain key b : bytes) : Prop :=
  exists v d p i, b = v ++ d ++ p ++ i ++ chain ++ key /\
    length v = 4%nat /\ length d = 1%nat /\ length p = 4%nat /\ length i = 4%nat /\ length chain = 32%nat /\ length key = 33%nat /\
    be_val v = version /\ be_val d = depth /\ be_val p = parent /\ be_val i = index.

(** the fingerprint: the first four bytes of HASH160 of the serialised public key *)
Definition fingerprint_of (x y : Z) (compressed : bool) (f : Z) : Prop :=
  exists sec four rest, sec_of x y compressed sec /\ ripemd160 (sha256 sec) = four ++ rest /\ length four = 4%nat /\ f = be_val four.

(** the public point of a secret *)
Definition point_of (secret x y : Z) : Prop := multiple secp_p 0 (EA secp_gx secp_gy) secret (EA x y).

(** the two halves of HMAC-SHA512 *)
Definition hmac_halves (key msg : bytes) (left : Z) (right : bytes) : Prop :=
  exists l, hmac_sha512 key msg = l ++ right /\ length l = 32%nat /\ left = be_val l.

(** four bytes of a child number *)
Definition ser32 (i : Z) (s : bytes) : Prop := length s = 4%nat /\ be_val s = i mod 2 ^ 32.

(** the child point of CKDpub: [parse256(IL) G + K], possibly infinite; [chain'] is [IR].  The
    requirement IL < n of BIP 32 is not part of this relation. *)
Definition ckd_pub (x y : Z) (compressed : bool) (chain : bytes) (i : Z) (child : ecp) (chain' : bytes) : Prop :=
  exists sec is left A, sec_of x y compressed sec /\ ser32 i is /\ hmac_halves chain (sec ++ is) left chain' /\
    multiple secp_p 0 (EA secp_gx secp_gy) (left mod curve_order) A /\ is_sum secp_p 0 A (EA x y) child.

(** the master key of BIP 32 *)
Definition master (seed : bytes) (secret : Z) (chain : bytes) : Prop :=
  hmac_halves (txt "Bitcoin seed") seed secret chain /\ 0 < secret < curve_order.
