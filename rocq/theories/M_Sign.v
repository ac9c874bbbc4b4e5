(** Model of PrivateKey.sign and PrivateKey.verify (bitforge/privkey.py:130-138) together with what they call in the
    package [ecdsa], version 0.13 (pinned in setup.py:19 and requirements.txt:2).  The package is not part of /repo; the
    definitions marked "ecdsa 0.13" follow its published source from memory, with no copy at hand to compare.  Its curve arithmetic, [Private_key.sign] and
    [Public_key.verifies] are the code that bitforge/utils copied, so [M_EC] is used for them. *)
From Verif Require Import Base M_Hash M_Codec M_Keys M_EC M_HD M_Utils.
Open Scope Z_scope.

(** the exceptions of the package beside Python's own *)
Inductive sexn := SX (e : exn) | BadDigestError | UnexpectedDER | BadSignatureError.
Inductive sres (A : Type) := SOk (a : A) | SErr (e : sexn).
Arguments SOk {A} a.
Arguments SErr {A} e.
Definition lift {A} (m : res A) : sres A := match m with Ok a => SOk a | Err e => SErr (SX e) end.
Definition sbind {A B} (m : sres A) (f : A -> sres B) : sres B := match m with SOk a => f a | SErr e => SErr e end.

(** ecdsa 0.13, util.py [string_to_number]: [int(hexlify(string), 16)] *)
Definition string_to_number (l : bytes) : sres Z :=
  match l with [] => SErr (SX E_ValueError) | _ => SOk (int_from_bytes l) end.

(** ecdsa 0.13, der.py [encode_integer]: [s] is the unhexlified "%x" text, padded to an even length *)
Definition der_integer (r : Z) : bytes :=
  let s := match int_to_bytes r with [] => [x00] | l => l end in
  if bZ (nth 0 s x00) <=? 127 then x02 :: Zb (blen s) :: s else x02 :: Zb (blen s + 1) :: x00 :: s.
(** ecdsa 0.13, der.py [encode_length] *)
Definition der_length (l : Z) : bytes :=
  if l <? 128 then [Zb l] else let s := int_to_bytes l in Zb (Z.lor 128 (blen s)) :: s.
(** ecdsa 0.13, util.py [sigencode_der] with der.py [encode_sequence] *)
Definition sigencode_der (r s : Z) : bytes :=
  let body := der_integer r ++ der_integer s in x30 :: der_length (blen body) ++ body.
(** ecdsa 0.13, util.py [sigencode_der_canonize] *)
Definition sigencode_der_canonize (r s order : Z) : bytes :=
  sigencode_der r (if s >? order / 2 then order - s else s).

(** ecdsa 0.13, der.py [read_length] *)
Definition read_length (l : bytes) : sres (Z * Z) :=
  match l with
  | [] => SErr (SX E_IndexError)
  | b :: r =>
      if Z.land (bZ b) 128 =? 0 then SOk (Z.land (bZ b) 127, 1) else
      let llen := Z.land (bZ b) 127 in
      if llen >? blen r then SErr UnexpectedDER else
      sbind (string_to_number (slice_to llen r)) (fun n => SOk (n, 1 + llen))
  end.
(** the first lines of [remove_sequence] and [remove_integer]: the tag, then the length; what follows the length and
    the length itself *)
Definition read_tag (tag : byte) (l : bytes) : sres (bytes * Z) :=
  match l with
  | [] => SErr (SX E_IndexError)
  | b :: r =>
      if negb (byte_eqb b tag) then SErr UnexpectedDER else
      sbind (read_length r) (fun '(n, k) => SOk (slice_from k r, n))
  end.
(** ecdsa 0.13, der.py [remove_sequence] *)
Definition remove_sequence (l : bytes) : sres (bytes * bytes) :=
  sbind (read_tag x30 l) (fun '(r, n) => SOk (slice_to n r, slice_from n r)).
(** ecdsa 0.13, der.py [remove_integer] *)
Definition remove_integer (l : bytes) : sres (Z * bytes) :=
  sbind (read_tag x02 l) (fun '(r, n) =>
  match slice_to n r with
  | [] => SErr (SX E_IndexError)
  | b :: t => if bZ b <? 128 then SOk (int_from_bytes (b :: t), slice_from n r) else SErr (SX E_AssertionError)
  end).
(** ecdsa 0.13, util.py [sigdecode_der] *)
Definition sigdecode_der (l : bytes) : sres (Z * Z) :=
  sbind (remove_sequence l) (fun '(body, junk) =>
  match junk with
  | _ :: _ => SErr UnexpectedDER
  | [] =>
      sbind (remove_integer body) (fun '(r, rest) =>
      sbind (remove_integer rest) (fun '(s, junk) =>
      match junk with _ :: _ => SErr UnexpectedDER | [] => SOk (r, s) end))
  end).

(** ecdsa 0.13, keys.py [SigningKey.from_secret_exponent] and ecdsa.py [Public_key.__init__]: the public point.
    Simplification: the check that the order times the point is INFINITY, true for every multiple of the generator, is
    left out. *)
Definition signing_key (secret : Z) : sres (Z * Z) :=
  if negb ((1 <=? secret) && (secret <? key_max)) then SErr (SX E_AssertionError) else
  sbind (lift (public_pair_for_secret secp256k1 secp_G secret)) (fun o =>
  match o with
  | None => SErr (SX E_AssertionError)
  | Some (x, y) =>
      if (x <? 0) || (key_max <=? x) || (y <? 0) || (key_max <=? y) then SErr (SX E_RuntimeError) else SOk (x, y)
  end).

(** bitforge/privkey.py:130-132 [sign], ecdsa 0.13, keys.py [sign_digest] and [sign_number]; [nonce] is the random
    number drawn between 1 and the order *)
Definition priv_sign (k : privkey) (nonce : Z) (message : bytes) : sres bytes :=
  sbind (signing_key (k_secret k)) (fun _ =>
  if blen message >? 32 then SErr BadDigestError else
  sbind (string_to_number message) (fun number =>
  sbind (lift (ecdsa_sign_k secp256k1 secp_G (k_secret k) number nonce)) (fun '(r, s) =>
  SOk (sigencode_der_canonize r s key_max)))).

(** bitforge/privkey.py:134-138 [verify], ecdsa 0.13, keys.py [VerifyingKey.verify] and [verify_digest]: the default
    hash function is SHA-1 *)
Definition priv_verify (k : privkey) (signature message : bytes) : sres bool :=
  sbind (signing_key (k_secret k)) (fun pair =>
  sbind (string_to_number (sha1 message)) (fun number =>
  sbind (sigdecode_der signature) (fun sig =>
  sbind (lift (ecdsa_verify secp256k1 secp_G pair number sig)) (fun b =>
  if b then SOk true else SErr BadSignatureError)))).
