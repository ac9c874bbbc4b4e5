(** Model of the places that draw random numbers: bitforge/privkey.py:13-17, 58-67 and
    bitforge/hdprivkey.py:35-45. *)
From Coq Require Import String.
From Verif Require Import Base M_Hash M_Codec M_Keys M_EC M_HD.
Open Scope Z_scope.

(** [rng] (bitforge/privkey.py:13) is a [random.SystemRandom]; its [getrandbits(k)] asks
    [os.urandom] for [(k + 7) // 8] bytes, reads them as one number and shifts the surplus bits
    out.  [block] is what the operating system returned. *)
Definition rng_getrandbits (k : Z) (block : bytes) : Z := Z.shiftr (decode_int block true) (8 * blen block - k).

(** The loop of [Random._randbelow(n)]: draw until the number is below [n].  [blocks] are the
    successive answers of the operating system; [None]: it asks for more.  [k] is the number of
    bits that the library chooses; for the width of line 17 it is 257 in Python 2.7
    ([int(1.00001 + log(n - 1, 2.0))]) and 256 in Python 3 ([n.bit_length()]). *)
Fixpoint rng_below (k n : Z) (blocks : list bytes) : option Z :=
  match blocks with
  | [] => None
  | b :: r => let x := rng_getrandbits k b in if x >=? n then rng_below k n r else Some x
  end.

(** [randint(a, b)] is [randrange(a, b + 1)], which is [a + _randbelow(b + 1 - a)] *)
Definition rng_randint (k a b : Z) (blocks : list bytes) : option Z :=
  match rng_below k (b + 1 - a) blocks with Some r => Some (a + r) | None => None end.

(** bitforge/privkey.py:16-17 [random_secret] *)
Definition random_secret (k : Z) (blocks : list bytes) : option Z := rng_randint k 1 (key_max - 1) blocks.

(** bitforge/privkey.py:58-67 [PrivateKey.__new__] with an optional secret: the network is looked
    up before anything is drawn.  [None]: more random bytes are needed. *)
Definition new_privkey_opt (k : Z) (secret : option Z) (net : nval) (compressed : bool) (blocks : list bytes) : option (res privkey) :=
  match priv_find_network net (txt "name") with
  | Err e => Some (Err e)
  | Ok network =>
      match (match secret with None => random_secret k blocks | Some s => Some s end) with
      | None => None
      | Some s => Some (if negb ((0 <? s) && (s <? key_max)) then Err E_Priv_InvalidSecret
                        else Ok (PrivateKey s network compressed))
      end
  end.

(** bitforge/hdprivkey.py:35-45 [from_seed] with an optional seed; [os_bytes n] is [os.urandom(n)] *)
Definition hdpriv_from_seed_opt (seed : option bytes) (os_bytes : Z -> bytes) : res hdpriv :=
  hdpriv_from_seed (match seed with None => os_bytes min_seed_len | Some s => s end).
