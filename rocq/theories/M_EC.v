(** Model of bitforge/utils/numbertheory.py, utils/ellipticcurve.py, utils/secp256k1.py,
    utils/ecdsa.py, the SEC part of utils/encoding.py, and bitforge/pubkey.py. *)
From Coq Require Import String.
From Verif Require Import Base M_Hash M_Codec M_Keys.
Open Scope Z_scope.

(** ** numbertheory.py *)

(** Python 3-argument [pow(a, e, m)] for [e >= 0], [m > 0]: a builtin; square and multiply. *)
Fixpoint powmod_pos (a : Z) (e : positive) (m : Z) : Z :=
  match e with
  | xH => a mod m
  | xO e' => let t := powmod_pos a e' m in (t * t) mod m
  | xI e' => let t := powmod_pos a e' m in ((t * t) mod m * a) mod m
  end.
Definition powmod (a e m : Z) : Z :=
  match e with Z0 => 1 mod m | Zpos p => powmod_pos a p m | Zneg _ => 0 end.

(** bitforge/utils/numbertheory.py:10-14, the loop of [inverse_mod].  Of the four
    coefficients only [uc], [ud] are ever read back ([vc], [vd] are dead) but all are kept.
    Fuel: [c] halves every two steps; [P_NumTheory.euclid_enough] shows it never runs out. *)
Fixpoint euclid (fuel : nat) (c d uc vc ud vd : Z) : option (Z * Z) :=
  if c =? 0 then Some (d, ud) else
  match fuel with
  | O => None
  | S f => let q := d / c in
           euclid f (d mod c) c (ud - q * uc) (vd - q * vc) uc vc
  end.

(** bitforge/utils/numbertheory.py:3-21 [inverse_mod].
    Simplification: [m > 0] (every caller passes a prime). *)
Definition inverse_mod (a m : Z) : res Z :=
  let a := if (a <? 0) || (m <=? a) then a mod m else a in
  match euclid (Z.to_nat (2 * Z.log2 m + 4)) a m 1 0 0 1 with
  | None => Err E_Fuel
  | Some (d, ud) => if negb (d =? 1) then Err E_AssertionError
                    else if ud >? 0 then Ok ud else Ok (ud + m)
  end.

(** bitforge/utils/numbertheory.py:106-116 [legendre_symbol] *)
Definition legendre_symbol (a p : Z) : Z :=
  let ls := powmod a ((p - 1) / 2) p in
  if ls =? p - 1 then -1 else ls.

(** bitforge/utils/numbertheory.py:56-60: [while s % 2 == 0: s /= 2; e += 1] *)
Fixpoint split_twos (fuel : nat) (s e : Z) : option (Z * Z) :=
  if negb (s mod 2 =? 0) then Some (s, e) else
  match fuel with O => None | S f => split_twos f (s / 2) (e + 1) end.

(** bitforge/utils/numbertheory.py:65-67: the first non-residue from 2 *)
Fixpoint find_nonresidue (fuel : nat) (n p : Z) : option Z :=
  if legendre_symbol n p =? -1 then Some n else
  match fuel with O => None | S f => find_nonresidue f (n + 1) p end.

(** bitforge/utils/numbertheory.py:90-95: [t = b; m = 0; for m in range(r): if t == 1:
    break; t = pow(t, 2, p)]; the value of [m] afterwards.  [k] counts the remaining
    iterations, [m] is the loop variable of the current one. *)
Fixpoint ts_order (k : nat) (m t p : Z) (last : Z) : Z :=
  match k with
  | O => last
  | S k' => if t =? 1 then m else ts_order k' (m + 1) (powmod t 2 p) p m
  end.

(** bitforge/utils/numbertheory.py:89-104, the main loop *)
Fixpoint ts_loop (fuel : nat) (x b g r p : Z) : option Z :=
  let m := ts_order (Z.to_nat r) 0 b p 0 in
  if m =? 0 then Some x else
  match fuel with
  | O => None
  | S f =>
      let gs := powmod g (2 ^ (r - m - 1)) p in
      let g := (gs * gs) mod p in
      ts_loop f ((x * gs) mod p) ((b * g) mod p) g m p
  end.

(** bitforge/utils/numbertheory.py:25-104 [modular_sqrt] *)
Definition modular_sqrt (a p : Z) : res Z :=
  if negb (legendre_symbol a p =? 1) then Ok 0
  else if a =? 0 then Ok 0
  else if p =? 2 then Ok p
  else if p mod 4 =? 3 then Ok (powmod a ((p + 1) / 4) p)
  else
    match split_twos (Z.to_nat (Z.log2 p)) (p - 1) 0 with
    | None => Err E_Fuel
    | Some (s, e) =>
        match find_nonresidue (Z.to_nat p) 2 p with
        | None => Err E_Fuel
        | Some n =>
            match ts_loop (Z.to_nat e) (powmod a ((s + 1) / 2) p) (powmod a s p) (powmod n s p) e p with
            | None => Err E_Fuel
            | Some x => Ok x
            end
        end
    end.

(** ** ellipticcurve.py *)

(** bitforge/utils/ellipticcurve.py:40-54 [CurveFp] *)
Record curve := Curve { c_p : Z; c_a : Z; c_b : Z }.

(** bitforge/utils/ellipticcurve.py:57-59 [contains_point] *)
Definition contains_point (c : curve) (x y : Z) : bool :=
  (y * y - (x * x * x + c_a c * x + c_b c)) mod c_p c =? 0.

(** bitforge/utils/ellipticcurve.py:68-80 [Point].  [PInf] is the unique object INFINITY;
    [order] is the optional constructor argument.  Simplification: all points are on one
    curve object (the library has exactly one), so the curve is a parameter and
    [assert self.__curve == other.__curve] holds. *)
Inductive point := PInf | PAff (x y : Z) (order : option Z).

(** bitforge/utils/ellipticcurve.py:71-80 [Point.__init__].  The final
    [if order: assert self * order == INFINITY] computes [e = order % order = 0] and so
    always passes (see [P_EC.order_assertion_vacuous]). *)
Definition new_point (c : curve) (x y : Z) (order : option Z) : res point :=
  if contains_point c x y then Ok (PAff x y order) else Err E_NoSuchPoint.

(** bitforge/utils/ellipticcurve.py:158-175 [double] *)
Definition p_double (c : curve) (P : point) : res point :=
  match P with
  | PInf => Ok PInf
  | PAff x y _ =>
      let p := c_p c in
      let! inv := inverse_mod (2 * y) p in
      let l := ((3 * x * x + c_a c) * inv) mod p in
      let x3 := (l * l - 2 * x) mod p in
      let y3 := (l * (x - x3) - y) mod p in
      new_point c x3 y3 None
  end.

(** bitforge/utils/ellipticcurve.py:91-113 [__add__] *)
Definition p_add (c : curve) (P Q : point) : res point :=
  match Q, P with
  | PInf, _ => Ok P
  | _, PInf => Ok Q
  | PAff x2 y2 _, PAff x1 y1 _ =>
      let p := c_p c in
      if x1 =? x2 then
        (if (y1 + y2) mod p =? 0 then Ok PInf else p_double c P)
      else
        let! inv := inverse_mod (x2 - x1) p in
        let l := ((y2 - y1) * inv) mod p in
        let x3 := (l * l - x1 - x2) mod p in
        let y3 := (l * (x1 - x3) - y1) mod p in
        new_point c x3 y3 None
  end.

(** bitforge/utils/ellipticcurve.py:137-142, the loop of [__mul__]; the loop variable
    [i] is [2 ^ j]. *)
Fixpoint mul_loop (c : curve) (self neg : point) (e : Z) (j : nat) (result : point) : res point :=
  match j with
  | O => Ok result
  | S j' =>
      let e3 := 3 * e in
      let i := Z.of_nat j in
      let! result := p_double c result in
      let! result := (if Z.testbit e3 i && negb (Z.testbit e i) then p_add c result self else Ok result) in
      let! result := (if negb (Z.testbit e3 i) && Z.testbit e i then p_add c result neg else Ok result) in
      mul_loop c self neg e j' result
  end.

(** bitforge/utils/ellipticcurve.py:115-144 [__mul__].  [leftmost_bit(e3)] is
    [2 ^ log2 e3]. *)
Definition p_mul (c : curve) (P : point) (other : Z) : res point :=
  let order := match P with PInf => None | PAff _ _ o => o end in
  let e := match order with Some o => if o =? 0 then other else other mod o | None => other end in
  if e =? 0 then Ok PInf else
  match P with
  | PInf => Ok PInf
  | PAff x y o =>
      if negb (e >? 0) then Err E_AssertionError else
      let e3 := 3 * e in
      let! neg := new_point c x (- y) o in
      mul_loop c P neg e (Z.to_nat (Z.log2 e3) - 1) P
  end.

(** ** secp256k1.py *)

(** bitforge/utils/secp256k1.py:4-9 *)
Definition secp_p : Z := 0xfffffffffffffffffffffffffffffffffffffffffffffffffffffffefffffc2f.
Definition secp_gx : Z := 0x79be667ef9dcbbac55a06295ce870b07029bfcdb2dce28d959f2815b16f81798.
Definition secp_gy : Z := 0x483ada7726a3c4655da4fbfc0e1108a8fd17b448a68554199c47d08ffb10d4b8.
Definition secp256k1 : curve := Curve secp_p 0 7.
(** bitforge/utils/secp256k1.py:11; the order [_r] is [key_max]. *)
Definition secp_G : point := PAff secp_gx secp_gy (Some key_max).

(** ** utils/ecdsa.py *)

(** bitforge/utils/ecdsa.py:73-84, the inner loop and the extraction of [k1]: [t] is grown
    by HMACs until it has [size] bytes.  Returns [t] and the new [v]. *)
Fixpoint grow_t (fuel : nat) (k v t : bytes) (size : nat) : bytes * bytes :=
  if (length t <? size)%nat then
    match fuel with
    | O => (t, v)
    | S f => let v := hmac_sha256 k v in grow_t f k v (t ++ v) size
    end
  else (t, v).

Definition bit_length (n : Z) : Z := if n =? 0 then 0 else Z.log2 (Z.abs n) + 1.

(** bitforge/utils/ecdsa.py:70-84, the outer [while 1]; [None] when [fuel] rounds were not
    enough (the real loop has no bound). *)
Fixpoint det_k_loop (fuel : nat) (n : Z) (k v : bytes) : option Z :=
  match fuel with
  | O => None
  | S f =>
      let size := Z.to_nat ((bit_length n + 7) / 8) in
      let '(t, v) := grow_t size k v [] size in
      let k1 := Z.shiftr (decode_int t true) (blen t * 8 - bit_length n) in
      if (1 <=? k1) && (k1 <? n) then Some k1
      else let k := hmac_sha256 k (v ++ [x00]) in
           let v := hmac_sha256 k v in
           det_k_loop f n k v
  end.

(** bitforge/utils/ecdsa.py:49-84 [deterministic_generate_k] with [hash_f = sha256].
    [intbytes.to_bytes] keeps the low [length] bytes. *)
Definition deterministic_generate_k (fuel : nat) (n secret val : Z) : option Z :=
  let size := Z.to_nat ((bit_length n + 7) / 8) in
  let v := repeat x01 32 in
  let k := repeat x00 32 in
  let priv := be_bytes size secret in
  let shift := 8 * 32 - bit_length n in
  let val := if shift >? 0 then Z.shiftr val shift else val in
  let val := if val >? n then val - n else val in
  let h1 := be_bytes size val in
  let k := hmac_sha256 k (v ++ [x00] ++ priv ++ h1) in
  let v := hmac_sha256 k v in
  let k := hmac_sha256 k (v ++ [x01] ++ priv ++ h1) in
  let v := hmac_sha256 k v in
  det_k_loop fuel n k v.

Definition point_x (P : point) : option Z := match P with PInf => None | PAff x _ _ => Some x end.
Definition point_order (P : point) : Z := match P with PAff _ _ (Some o) => o | _ => 0 end.

(** bitforge/utils/ecdsa.py:102-110, [sign] after the choice of [k]: [k * G] etc.  The
    abscissa of INFINITY is None, which fails in the arithmetic (TypeError), after the inverse. *)
Definition ecdsa_sign_k (c : curve) (G : point) (secret val k : Z) : res (Z * Z) :=
  let n := point_order G in
  let! p1 := p_mul c G k in
  match point_x p1 with
  | None => let! _ := inverse_mod k n in Err E_TypeError
  | Some r =>
      if r =? 0 then Err E_RuntimeError else
      let! ki := inverse_mod k n in
      let s := (ki * (val + (secret * r) mod n)) mod n in
      if s =? 0 then Err E_RuntimeError else Ok (r, s)
  end.

(** bitforge/utils/ecdsa.py:87-110 [sign] *)
Definition ecdsa_sign (fuel : nat) (c : curve) (G : point) (secret val : Z) : res (Z * Z) :=
  match deterministic_generate_k fuel (point_order G) secret val with
  | None => Err E_Fuel
  | Some k => ecdsa_sign_k c G secret val k
  end.

(** bitforge/utils/ecdsa.py:127-145 [verify] *)
Definition ecdsa_verify (c : curve) (G : point) (pair : Z * Z) (val : Z) (sig : Z * Z) : res bool :=
  let n := point_order G in
  let '(r, s) := sig in
  if (r <? 1) || (r >? n - 1) then Ok false else
  if (s <? 1) || (s >? n - 1) then Ok false else
  let! ci := inverse_mod s n in
  let u1 := (val * ci) mod n in
  let u2 := (r * ci) mod n in
  let! a := p_mul c G u1 in
  let! Q := new_point c (fst pair) (snd pair) (Some n) in
  let! b := p_mul c Q u2 in
  let! pt := p_add c a b in
  match point_x pt with
  | None => Err E_TypeError
  | Some x => Ok (x mod n =? r)
  end.

(** bitforge/utils/ecdsa.py:166-175, the body of the loop over the two ordinates: [Some] the
    public pair if it verifies.  For INFINITY the pair is (None, None), on which [verify]
    fails in [contains_point] (TypeError) unless it rejects [r] or [s] before. *)
Definition recover_one (c : curve) (G : point) (val r s inv_r y : Z) : res (option (Z * Z)) :=
  let n := point_order G in
  let! R := new_point c r y (Some n) in
  let! A := p_mul c R s in
  let! B := p_mul c G ((- val) mod n) in
  let! T := p_add c A B in
  let! Q := p_mul c T inv_r in
  match Q with
  | PInf => if (r <? 1) || (r >? n - 1) || (s <? 1) || (s >? n - 1) then Ok None else Err E_TypeError
  | PAff qx qy _ => let! b := ecdsa_verify c G (qx, qy) val (r, s) in Ok (if b then Some (qx, qy) else None)
  end.

(** bitforge/utils/ecdsa.py:147-176 [possible_public_pairs_for_signature]; the set is a list
    (perhaps with a repetition). *)
Definition recover (c : curve) (G : point) (val : Z) (sig : Z * Z) : res (list (Z * Z)) :=
  let '(r, s) := sig in
  let p := c_p c in
  let! inv_r := inverse_mod r (point_order G) in
  let alpha := (powmod r 3 p + c_a c * r + c_b c) mod p in
  let! beta := modular_sqrt alpha p in
  let! o1 := recover_one c G val r s inv_r beta in
  let! o2 := recover_one c G val r s inv_r (p - beta) in
  Ok (match o1 with Some q => [q] | None => [] end ++ match o2 with Some q => [q] | None => [] end).

(** bitforge/utils/ecdsa.py:112-113 [public_pair_for_secret_exponent]; [None] is the pair
    (None, None) of INFINITY *)
Definition public_pair_for_secret (c : curve) (G : point) (secret : Z) : res (option (Z * Z)) :=
  let! P := p_mul c G secret in
  Ok (match P with PInf => None | PAff x y _ => Some (x, y) end).

(** bitforge/utils/ecdsa.py:115-122 [public_pair_for_x] *)
Definition public_pair_for_x (c : curve) (x : Z) (is_even : bool) : res (Z * Z) :=
  let p := c_p c in
  let alpha := (powmod x 3 p + c_a c * x + c_b c) mod p in
  let! beta := modular_sqrt alpha p in
  if Bool.eqb is_even (negb (Z.land beta 1 =? 0)) then Ok (x, p - beta) else Ok (x, beta).

(** ** SEC encoding, utils/encoding.py *)

(** bitforge/utils/encoding.py:222-229 [public_pair_to_sec]; [2 + (y & 1)] is 2 or 3. *)
Definition public_pair_to_sec (pair : Z * Z) (compressed : bool) : res bytes :=
  let! xs := to_bytes_32 (fst pair) in
  if compressed then Ok (Zb (2 + Z.land (snd pair) 1) :: xs)
  else let! ys := to_bytes_32 (snd pair) in Ok (x04 :: xs ++ ys).

(** [sec[a:a+k]] keeps the kind *)
Definition pyb_sub (a k : nat) (p : pyb) : pyb := pyb_map (fun l => firstn k (skipn a l)) p.

(** bitforge/utils/encoding.py:232-249 [sec_to_public_pair] *)
Definition sec_to_public_pair (sec : pyb) : res (Z * Z) :=
  let! x := from_bytes_32 (pyb_sub 1 32 sec) in
  let sec0 := firstn 1 (pyb_bytes sec) in
  if bytes_eqb sec0 [x04] then
    let! y := from_bytes_32 (pyb_sub 33 32 sec) in
    if contains_point secp256k1 x y then Ok (x, y) else Err E_UtilsEncodingError
  else if bytes_eqb sec0 [x02] || bytes_eqb sec0 [x03] then
    public_pair_for_x secp256k1 x (bytes_eqb sec0 [x02])
  else Err E_UtilsEncodingError.

(** bitforge/utils/encoding.py:252-254 [is_sec_compressed] *)
Definition is_sec_compressed (sec : pyb) : bool :=
  let sec0 := firstn 1 (pyb_bytes sec) in bytes_eqb sec0 [x02] || bytes_eqb sec0 [x03].

(** ** pubkey.py *)

(** bitforge/pubkey.py:18-20 *)
Record pubkey := PublicKey { pk_pair : Z * Z; pk_network : network; pk_compressed : bool }.

(** bitforge/pubkey.py:40-46 [PublicKey.__new__] on a pair of ints *)
Definition new_pubkey (pair : Z * Z) (net : nval) (compressed : bool) : res pubkey :=
  let! n := recatch (find net (txt "name")) is_unknown_network E_Pub_UnknownNetwork in
  if negb (contains_point secp256k1 (fst pair) (snd pair)) then Err E_Pub_InvalidPair
  else Ok (PublicKey pair n compressed).

(** bitforge/pubkey.py:48-55 [from_private_key]; the pair (None, None) makes
    [contains_point] raise TypeError *)
Definition pk_from_private_key (k : privkey) : res pubkey :=
  let! opair := public_pair_for_secret secp256k1 secp_G (k_secret k) in
  match opair with
  | None => Err E_TypeError
  | Some pr => new_pubkey pr (VNet (k_network k)) (k_compressed k)
  end.

(** [except (EncodingError, ValueError)]; UnicodeDecodeError and NoSuchPointError are
    ValueErrors *)
Definition is_sec_error (e : exn) : bool :=
  match e with
  | E_UtilsEncodingError | E_ValueError | E_UnicodeDecodeError | E_NoSuchPoint => true
  | _ => false
  end.

(** bitforge/pubkey.py:57-65 [from_bytes] *)
Definition pk_from_bytes (b : pyb) (net : nval) : res pubkey :=
  let! pr := recatch (sec_to_public_pair b) is_sec_error E_Pub_InvalidBinary in
  new_pubkey pr net (is_sec_compressed b).

(** bitforge/pubkey.py:67-74 [from_hex] *)
Definition pk_from_hex (s : bytes) (net : nval) : res pubkey :=
  let! b := recatch (decode_hex s) is_invalid_hex E_Pub_InvalidHex in
  pk_from_bytes (Str b) net.

(** bitforge/pubkey.py:77-78 [to_bytes] *)
Definition pk_to_bytes (k : pubkey) : res bytes := public_pair_to_sec (pk_pair k) (pk_compressed k).

(** bitforge/pubkey.py:80-81 [to_hex] *)
Definition pk_to_hex (k : pubkey) : res bytes := let! b := pk_to_bytes k in Ok (encode_hex b).

(** bitforge/address.py:100-103 [Address.from_public_key] *)
Definition addr_from_public_key (k : pubkey) : res address :=
  let! b := pk_to_bytes k in
  new_address (Str (ripemd160 (sha256 b))) (VNet (pk_network k)) (TA T_PublicKey).

(** bitforge/privkey.py:124-128 [to_public_key], [to_address] *)
Definition priv_to_public_key (k : privkey) : res pubkey := pk_from_private_key k.
Definition priv_to_address (k : privkey) : res address :=
  let! p := pk_from_private_key k in addr_from_public_key p.
