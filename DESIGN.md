# Design of the bitforge model and proofs

Source: `/repo/bitforge` (read as text, never run).  Prover: Coq 8.16.1.

## 1. What runtime is modelled

Python 2.7.  The transaction, script and key code only works there (on
Python 3 `bytes` are indexed to ints, `str`/`bytes` concatenation fails and
`BitforgeError.__str__` fails).  Where Python 2's `str` / `bytearray` / `unicode`
distinction decides whether a call succeeds or raises (for example data parsed
from a `Buffer` is a `bytearray`), the model carries the distinction.

Conventions of the model:

* a byte string is `list byte` (`Coq.Init.Byte`); text is the list of its
  character codes (restricted to one byte per character);
* Python integers are `Z`;
* a Python call that may raise is a total function into
  `res A := Ok a | Err e`; `e : exn` has one constructor per exception class
  that can be observed, builtin exceptions included;
* loops are structural recursions, or recursions on fuel where fuel exhaustion
  is the separate error `E_Fuel`, proved unreachable;
* hash functions (SHA-256, RIPEMD-160, SHA-1, SHA-512, HMAC) are concrete Gallina
  functions; no property relies on collision resistance, so nothing is assumed
  about them.  Their standard test vectors are `Example`s (tests, not proofs);
* the external `ecdsa` package used by `PrivateKey.sign` is not in /repo.  In the transaction chapter
  (C41–C46, C70) it is a universally quantified function argument (secret, message -> signature), never an axiom.
  In the signing chapter (C89–C94) the functions of version 0.13, the version pinned in `setup.py:19` and
  `requirements.txt:2`, are modelled in `M_Sign.v` (see section 3 for what that rests on).

## 2. Layout of `rocq/theories`

* `Base.v`: result monad, exceptions, byte/integer conversions, tactics.
* `M_*.v`: the model, function by function; each definition cites file and lines.
* `S_*.v`: specifications, written without the model's helpers.
* `P_*.v`: lemmas and proofs.
* `Properties_*.v`: only property theorems, each closed by `exact`, with
  `Print Assumptions` beneath, and `Example`s meeting the hypotheses.

## 3. Trusted base

* The Coq 8.16.1 kernel (and `coqchk`).  `vm_compute` is used in examples,
  for finite case tables (e.g. 256 opcodes) and for the certificates of C74.
* What `Print Assumptions` lists: every theorem is meant to be
  "Closed under the global context".  The only exception is the
  floating-point chapter (C65, C66, C81–C85, C123; and C99_except_uri, which is about URIs), whose proofs use Flocq and with it the standard library's
  axioms of the reals (`ClassicalDedekindReals.sig_forall_dec`,
  `sig_not_dec`, `functional_extensionality_dep`, `Classical_Prop.classic`).
  The statements themselves mention no real number: floats are `SpecFloat` data and their values rationals.
  Section 6 keeps the list as checked.
* `coqchk` also lists the library constants `Coq.ssr.ssrunder.Under_rel.*`, which come with the
  standard library's ssreflect files; no theorem here depends on them.
* The reading of Python 2.7 semantics in the model: integer arithmetic, slicing,
  `str`/`bytearray` operations, `collections.namedtuple` equality, `binascii`,
  `hashlib`, and the exceptions these raise.
* That the model mirrors the code.  Every definition cites the lines it mirrors;
  mutation tests (`seeded/LOG.jsonl`) check that the theorems notice edits.
  As a test of the reading, `T_Repo.v` evaluates the definitions on the assertions of the repository's own
  test files (`tests/*.py`, `tests/script/*.py`, with the address and WIF lists they load; random keys replaced
  by fixed ones), and `T_TxData.v` on the transactions of `tests/data/tx_valid.json` and `tx_invalid.json`.
  These are tests, not proofs, and no claim rests on them.

Modelled: `encoding.py`, `tools.py` (Buffer), `networks.py`, `privkey.py`,
`pubkey.py`, `address.py`, `signature.py`, `script/*`, `transaction/*`, `hdprivkey.py`, `hdpubkey.py`, `unit.py`, `uri.py`,
and of `utils/*` intbytes, encoding, numbertheory, ellipticcurve, secp256k1 and ecdsa.

Simplifications in `uri.py`: texts are lists of bytes that stand for the characters below 256; of Python's library,
`urlparse`, `parse_qsl`, `urlencode`, `float` and `str` of a float are modelled as in 2.7 (`str` writes 12 significant digits);
numerals have no underscores or non-ASCII digits; a dict argument has text values except for the amount, a number;
`sorted` on items with distinct keys is an insertion sort by key.

Simplifications in `unit.py`: arguments are ints or floats (no strings, Decimals or bools); floats are
binary64 with round-to-nearest-even as in `Coq.Floats.SpecFloat`.

Simplifications in the hierarchical keys: the chain code is a `str`, the network a `Network` object;
the HMAC computed by the private
derivation before it fails has no effect of its own and only the failure is kept.

The reference semantics of `S_Ref.v` (C95, C96) is written from memory of the published Bitcoin rules.  It covers the
flags NULLDUMMY, SIGPUSHONLY, MINIMALDATA and DISCOURAGE_UPGRADABLE_NOPS (the others that the interpreter reads are P2SH, with
which it never accepts, and CHECKLOCKTIMEVERIFY, whose opcode always fails in it).  It leaves out the second stage of P2SH and
everything that depends on a transaction: CHECKSIG and CHECKSIGVERIFY fail in it (the interpreter under `verify` without a
transaction cannot check signatures either), CHECKMULTISIG is given for zero signatures only, and CHECKLOCKTIMEVERIFY fails
when its flag is set.

Simplifications in `M_Sign.v`: this is the one place where code outside /repo is modelled, from memory of its published source,
so its faithfulness cannot be checked against /repo.  The curve arithmetic and the ECDSA formulas of the package are those that
`bitforge/utils` copied, so `M_EC.v` serves for both; the check that n times the public point is INFINITY is left out (it holds
for every multiple of G); the package's verifying point carries no order while `M_EC.v`'s has order n, which gives the same
product for multipliers below n; the random number is an argument.

Simplifications in `M_Obj.v` (comparing and hashing): only the classes that can meet in a library object are values; the
anonymous named-tuple base of each class is left out; only Opcodes have an identity; `functools.total_ordering` is Python 2.7's;
members of `Address.Type` (enum34) equal themselves only; the built-in hash functions are arbitrary functions that agree on a
`str` and an ASCII text of the same characters; the data of an Instruction are None, a `str` or a `bytearray`.

Simplifications in `M_Show.v` (messages and `repr`): texts are lists of characters below 256, names of networks are ASCII;
whether a number is a long (and its `repr` ends in L) is any function of its value, how the `repr` of an input's id looks any
function of the id; an argument of an exception that is no number, string, text or Opcode is known by the text it turns into, or
by the exception that raises; the attribute `cause`, which no message uses, is left out.

Simplifications in `M_Rand.v` (random keys): the bytes of `os.urandom` are an argument, one block for each draw; Python's
`random.SystemRandom().randint` is modelled from its published source as drawing k bits until the number is below n-1, for any k
that can hold it (256 in Python 3; 257 in Python 2.7, which goes through floats to choose k only).  That the operating system's
bytes are uniform and independent is outside; the theorems count the sequences that give each key.

Simplifications in `M_Point.v` (points as objects): the identity of a curve object is a number, the modulus is positive, and
what `+` and `==` get is a Point; in `M_EC.v` all points are on one curve object, which C106_functional_model justifies.

Not modelled: `setup.py`,
the parts of the external `ecdsa` package other than those in `M_Sign.v`, pickling, Python object
identity (except for Opcodes in `M_Obj.v`) and memory limits, non-latin1 text.

## 4. How each property is treated

| id | modelled | proof |
|----|----------|-------|
| C01 | `encode_int` loop on Z with padding/truncation; `decode_int` | induction on digits; spec is the list of `n / 256^i mod 256` |
| C02 | same | induction on fuel-free recursion by strong induction on n |
| C03 | `encode_varint`, `Buffer.read_varint` | case split on ranges + C01; spec is CompactSize |
| C04 | `Buffer` as a state machine | refinement to a FIFO, induction on the history |
| C05 | `binascii.hexlify/unhexlify` on all bytes | list induction (step 2) + 256-case tables |
| C06, C07 | `to_long`, `from_long`, `b2a_base58`, `a2b_base58` loops | positional-number lemmas; spec independent of loops |
| C08 | hashed base58 with concrete double SHA-256 | from C06/C07 plus list splitting |
| C09, C10 | `encode_script_number`, `decode_script_number` byte by byte | sign-magnitude value spec, induction |
| C11 | table of two networks, generic attribute lookup | case analysis on the finite table, quantified over values |
| C12–C15 | `PrivateKey` constructor, bytes, hex, WIF | composition of codec theorems |
| C16–C17 | `Address` | same |
| C18–C21 | `PublicKey`, `sec_to_public_pair`, `public_pair_for_x`; curve parameters concrete | SEC format as an inductive spec; needs `p` prime (C74) |
| C22 | extended Euclid loop | loop invariant; fuel bound from the halving argument |
| C23 | `modular_sqrt` (p = 3 mod 4 branch and Tonelli-Shanks), `legendre_symbol` | Fermat and Euler criterion from scratch over a field of residues; loop invariant of Tonelli-Shanks; every odd prime, not only p = 3 mod 4 |
| C24 | `Point.__init__`, `__add__`, `double` | code shown equal to the chord-and-tangent relation `is_sum` |
| C25 | `Point.__mul__` (the 3e/e signed-digit loop) | loop invariant over the signed-digit prefix, using associativity; "e-fold sum" is the inductive relation `multiple` |
| C26, C76, C77 | `utils.ecdsa.sign`, `deterministic_generate_k`, `verify`, `possible_public_pairs_for_signature` (`is_public_pair_valid` is `contains_point` and has no definition of its own; verifying for the pair (None, None) raises TypeError at once in the model, in the code only after the inverse of s and a multiple of G, which cannot fail for a prime order) | for every `dsa_group` (prime field, no 2-torsion, generator of prime order); secp256k1 is shown to be one |
| C73 | same | associativity of the chord-and-tangent law by field identities over all case splits (`P_Group.v`) |
| C74 | constants of `secp256k1.py` | Pocklington certificates for p and n, a checked chain of point additions for n*G = O, computed inside Coq |
| C80 | `deterministic_generate_k` | RFC 6979 3.2 as inductive relations (`S_RFC6979.v`); both directions, the loop bound of the model shown irrelevant |
| C75 | `PublicKey.from_private_key`, `Address.from_public_key` | from C25 and C74 |
| C27 | `validate_signature` index by index | list case analysis; spec is an existential description |
| C28–C30 | `Opcode`, `Instruction` | finite tables lifted to all bytes; integer case analysis |
| C31, C32 | `Script.from_buffer`, `to_bytes` | induction on the instruction list / the buffer |
| C33, C34 | `get_structure`, the six `is_valid`, `classify` | list case analysis; spec as shape predicates |
| C35 | token printer/parser | induction, token lemmas; `S_TextErr.v` states the errors of the first unreadable instruction (`C35_errors`) |
| C36 | getters | computation on the created scripts |
| C37 | `Transaction.__new__` with dynamically-typed list elements | case analysis |
| C38–C40 | `to_bytes`, `from_bytes` over lists of inputs and outputs | induction over counts |
| C41–C46 | `sign`, `replace_script`, `can_sign` with signer oracle | list lemmas; pre-image injectivity from C39; which errors signing raises is an equivalence (`C44_errors`, `C45_sign_errors`) |
| C47–C50 | `get_id`, `Output.create`, `Input.create` | unfolding + earlier results |
| C51–C61 | `Interpreter` as state machine over exact opcodes | per-opcode symbolic execution; invariants by induction over the instruction list; `P_Peak.v` attains the bound of C56 with 9799 pushes and 201 3DUP |
| C72 | same | symbolic execution of three-instruction scripts with the hash functions kept opaque |
| C62–C64, C78, C79 | `HDPrivateKey`, `HDPublicKey` | BIP-32 as a separate spec (`S_HD.v`); field extraction by list splitting; HMAC-SHA512 concrete; BIP-32 conformance refuted with witnesses; `Properties_HDText.v` pins what the failing texts never show on the library's networks: the texts on any network (fields by `S_HDText.v`), the check bytes of a unicode text, the first hardened index |
| C70 | `ScriptInput.sign` | induction over the keys; signer is an argument; the errors are characterised exactly (`C70_errors`) |
| C71 | `Address.from_script` | composition of C16, C31 and C36 |
| C67–C69 | `Script.push_data`, `remove_opcode_by_data`, `is_push_only`, `is_minimal_push` | case analysis on instructions |
| C65, C81 | `Unit` with IEEE binary64 (`SpecFloat`) | the model's operations are shown equal to Flocq's, then relative error analysis over the reals; results transported to rationals |
| C66, C82, C83 | `URI` together with `urlparse`, `parse_qsl`, `urlencode` | grammar of URIs as inductive relations (`S_URI.v`); parsing by list splitting, dictionaries as association lists, writing by a sortedness and permutation argument |
| C84, C85 | `float(text)`, `str(float)` | numerals denote rationals (`denotes`); rounding shown equal to Flocq's, error bounds over the reals (`P_Decimal.v`) |
| C89–C92 | `PrivateKey.sign`, `verify`, ecdsa 0.13's `sign_digest`, `verify`, DER encoder and decoder | DER and its lax reading as relations (`S_Sign.v`); algebra of the ECDSA equation over every `dsa_group` (`P_SigAlg.v`): mirror signatures, which other numbers and keys a signature is good for; the errors of the decoder as a separate grammar of what is not a signature (`S_Der.v`) |
| C93, C94 | `Transaction.sign` with `PrivateKey.sign` in place of the oracle | composition of C42, C45, C70, C75 and C89; redeeming is stated by `redeems_hash` and `multi_match`, independent of the interpreter |
| C86–C88 | the remaining functions of `utils/encoding.py`, `utils/intbytes.py` (`M_Utils.v`) | base58check texts as a relation (`check_text`), so the helpers reduce to list splitting; agreement with the classes from C12–C16 and C75 |
| C95, C96 | `Interpreter.verify` with any flags on scripts without signature checks | a second, functional semantics of Bitcoin script with top-first stacks (`S_Ref.v`), parametrised by a `dialect` listing the points of difference and the effect of the flags; the interpreter is shown equal to the dialect `bitforge` step by step (`P_Ref.v`), and the two dialects are compared (`P_RefBtc.v`) |
| C97, C98 | `==`, `!=`, `<`… and `hash` on the objects of the library (`M_Obj.v`) | one recursive comparison over a type of Python values, including which operand is asked first, with a full account of plain values (`S_Leaf.v`: True is 1, an ASCII `str` is a text, a bytearray is not); "the same object" is stated over the records of the other model files (`S_Obj.v`), and the equalities used there (`op_eqb`, `instr_eqb`, `pubkey_eqb`) are shown to be this one |
| C99 | every exception class with its docstring, its bases and `BitforgeError.__init__` (`M_Show.v`) | messages are given by tables of the text before and after each argument (`S_Show.v`), literals and numerals by relations; subclassing by C3 linearisation, shown equal to reachability; the exceptions that the other model files raise in place of one whose message cannot be built are shown to be the right ones |
| C100 | all `__repr__` and `__str__` methods and those inherited from named tuples | texts as relations; injectivity by splitting at characters that cannot occur |
| C101, C102 | `utils.ecdsa.sign` and `verify` | algebra over every `dsa_group` (`P_Mall.v`); the signature of a published vector on secp256k1 is checked by a chain of doublings and additions (`P_Vector.v`) |
| C103 | `PrivateKey(None)`, `random_secret`, `HDPrivateKey.from_seed(None)` (`M_Rand.v`) | the secret is the first accepted draw; the sequences of blocks that give a secret are counted by an explicit list without duplicates (`how_many`) |
| C104 | `Transaction.to_bytes` and the signature message on any fields | the bytes are those of the transaction with its numbers cut (`stored_tx`), so the theorems for fitting transactions apply; errors in both directions |
| C105 | `examples/example_pubkey.py`, `examples/example_serial.py` (`M_Flow.v`) | composition of the theorems for keys, addresses, `Transaction.sign` and the serializer; the constants of the programs are arguments, and printing is the tuple of texts printed |
| C106 | `CurveFp` and `Point` as objects (`M_Point.v`): references to curves, None, orders, `==`, `!=`, `hash`, `repr`, `str` | the constructor's multiplication by its order is modelled with a recursion depth and shown to need depth 1; operations on one curve object are those of `M_EC.v`, so its theorems carry over; the texts are cut at separators |
| C107 | nothing new; lengths and first characters of base58check texts, and which reader accepts a text (`S_Form.v`) | a text without leading zero byte has as many base-58 digits as its number, and its first digits are the quotient by a power of 58; the bounds of that quotient over all payloads with a given version are computed once per version; livenet key hashes by the number of leading zero bytes; hexadecimal public keys start with 0, which is not a base-58 character, and the other readers differ in length |
| C108 | nothing new; the state with items put below, the state under other flags, two scripts joined (`S_Local.v`) | every opcode by cases on the model: an operation reads and removes only the last items it has asked for, so list slices from the end commute with a prefix; the same cases again for two states that differ in flags and position; whole scripts by induction, the stack limit from the bound of three new items per instruction, joined scripts through the reference semantics of C95 |
| C109 | nothing new; the size of each object as a sum over its fields, what a parsed script holds (`S_Size.v`) | fields of fixed width and CompactSize by cases, lists by induction, without any condition on the fields; templates from the items they compile; parsing from the wire relation of C40 with every length form; refuted: a multisig input with three keys, once signed, cannot be serialised (its redeem script of more than 75 bytes needs a PUSHDATA, which `to_bytes` cannot write); the bound of a signature (72 bytes) is a hypothesis here and proved of `PrivateKey.sign` in C93 |
| C110 | nothing new; a transaction with one script changed, a push of a signature (`S_Twin.v`) | the new signature is at most 72 bytes, so the changed script stays writable; bytes differ by the injectivity of `to_bytes` (C38) and of DER; validity by the symmetry of C101; the signing message blanks every other script. Trust: that a transaction's id is the double SHA-256 of these bytes is not part of the statement, and neither is what nodes relay |
| C111 | nothing new; a list of calls of `Transaction.sign`, the network's message for an input as bytes (`S_All.v`) | signing an input does the same when other inputs have other scripts (C42), so by induction on the calls; the message by unfolding both descriptions of the bytes. Trust: the message and the two rules for redeeming are written from memory of the published Bitcoin rules (hash type ALL, without witnesses); other hash types are signed as if they were ALL (C43) |
| C112 | nothing new; lists of opcodes, a grammar of scripts that fail whatever the stack holds (`S_Dead.v`) | `dead` opcodes: one direction from the steps (C57, C58), the other by a passing state for each of the remaining opcodes; balanced parts by induction on the grammar of C54; then induction on `doomed`. `doomed` and `broken` are sufficient, not necessary |
| C113 | nothing new; what it means to be self-delimiting (`S_Stream.v`). Transaction.from_bytes reads one transaction and drops the rest; reading several from one buffer is its body repeated (`tx_from_buffer`) | prefix lemmas of the wire relations (C11, C16), induction over the list; the message is a serialised transaction and four more bytes. The refutation is a transaction with an id of 51 bytes that covers most of the message |
| C114 | nothing new; when one part of a script may stand for another, a machine for stack words over any items, the lists of replacements (`S_Peep.v`) | a run that counts fewer operations goes on in the same way (every opcode by cases), so replacements compose; the effect of each opcode on the two stacks as a relation, equivalent to the model's step, and every rule by inversion; stack words move items without reading them, so a stack is the image of a numbered one, and deep stacks are framed ones. The limit of 1000 items is checked only at the end of a script in this code, so longer intermediate stacks do not matter |
| C115 | nothing new; CKDpriv of BIP 32 (`S_KeyArith.v`) | the group law (C73) and the multiples of the generator (C25, C74); equal x means equal or opposite points |
| C116 | nothing new | a point outside the multiples of the generator would have its double inside (otherwise three disjoint cosets hold 3n points, but x and the parity of y determine a point, so there are at most 2p + 1), and then subtracting half of that double would give a point of order two, of which there are none; verification rewritten with the secret's multiple of the generator, the nonce being the multiple that verification computes |
| C117 | nothing new | `S_SigTheory.v` states that at most one x coordinate is r modulo n. From the two facts that a signature verifies exactly if some nonce gives it (C116) and that two nonces with the same abscissa are equal or opposite (C115), acceptance is a linear congruence up to sign; the two values, the two keys and the key made for two given values are its solutions, with inverses modulo the prime order by Bezout. The values are the numbers that `verify` gets; that two messages hash to given values is not claimed. |
| C118 | nothing new | `S_Origin.v` defines which strings are made from others: `made src` is the smallest set with `src`, all strings of at most four bytes and the four hash functions applied to members. An invariant of `step` for any predicate that is closed that way, with the bound of the stack (C56) for the results of DEPTH and SIZE and the bound of decoded numbers for arithmetic; the locks follow by running their first three instructions. HASH160 is absent because the library's HASH160 raises for every stack (C58). |
| C119 | nothing new | `S_Bind.v` defines collisions of named strings, references between transactions and ancestry through inputs. A disjunction with "some collision exists" would be true of every hash function with short images, so each theorem names the strings that collide. From the injectivity of the serialisations (C38, C42, C113), of texts (C16) and of public keys (C75), and for the replay of a signature from C117. |
| C120 | nothing new | `S_Count.v`: a list without repetitions that holds exactly the things in question. Bijections with ranges of numbers from the round trips (C13–C19, C75); for signatures, the nonce is (val + d r)/s, so different nonces give different pairs, and the nonces that give none have one of four abscissas (r or s zero modulo n); for hashes, the pigeonhole principle with the number of strings of 20 or 32 bytes. |
| C121 | nothing new | `S_Formula.v`: formulas, their value (with the operand limit as a parameter) and their translation to instructions. Compiler correctness by induction over the formula on the reference semantics of C95, for every dialect with the right push rule and limit, with a separate induction for branches that are passed over; carried to the interpreter by `evaluate_ref` and `verify_ref`. Excluded: ABS (wrong in the interpreter, C52) and the MINIMALDATA flag for the interpreter, which refuses ordinary pushes (C59). |
| C122 | nothing new | `S_Policy.v`: policies, when a list of items satisfies them (one item per leaf and per or), when someone's knowledge opens them (no order, no stack), and their scripts. The run of the script is computed by induction over the policy on the reference semantics, as for C121; that a satisfying list opens the policy, and that knowledge gives such a list, are inductions that do not mention scripts. Excluded: as for C121. |
| C123 | nothing new | `S_Order.v`: the rational an int or float stands for. Each conversion is a composition of roundings, products and quotients with positive numbers and truncation, all monotone over the reals (Flocq's rounding), and odd; exceptions depend on magnitudes only |
| C124 | nothing new | `S_Depth.v`: the table of needs and changes, the inductive relation `sized` (counting through a script, with equal branches of conditionals) and `required`. Proved opcode by opcode for the interpreter's dispatch, then by induction on `sized`, once for executed and once for skipped parts; no condition on the items, so it also covers the states in which the interpreter departs from Bitcoin |
| C125 | nothing new | `S_Turn.v`: the two cube roots, the three and six secrets, the six multipliers. `P_Turn.v`: the map (x, y) -> (beta x, y) is a homomorphism of the curve (ring identities with beta^3 = 1), and takes the generator to lambda times it (checked with a chain of 256 doublings and additions whose slopes are given, as for the order in `P_SecpOrder.v`); the converse factors x'^3 - x^3 and uses that a point has one secret (C116). The equation for two signatures extends C102 |
| C126 | nothing new | `S_Perm.v`: `select` (the meaning) and `arrange` (the script). Proved in the reference language of C95 for both dialects, as C121; the number of operations counted so far does not matter while there is room (`run_shift`), which gives the statement about a script in front of another. The converse is parametricity of stack words (C114) |
| C127 | nothing new | `S_Table.v`: `lookup` (the meaning) and `tabulate` (the script). Proved in the reference language of C95 for both dialects by induction on the rows: a row that does not match leaves the stack as it was, the rows after one that matches are skipped without effect, but count operations. The theorem about `evaluate` is an equivalence, so it says too that there is no result without a row |
| C128 | nothing new | `S_Among.v`: `level` (balanced, and nothing that fails when passed over), `among` (the joined script), `chosen` (the meaning). Proved in the reference language of C95 for both dialects: a balanced part does not see the conditions under its own (`run_under`) and is passed over under a false one (`run_over`); `run_shift` of C126 removes the operations counted before it |
| C129 | nothing new (`derive_path` in `S_Path.v` repeats `hdpub_derive`) | `descends` is CKDpub of BIP 32 along a path, as a relation between public data with the sum of the numbers that are added. By induction on the path from C64 and C115; that secrets and points correspond one to one (C116) gives the direction from the child to the parent |
| C130 | nothing new | `S_Both.v`: `both` (two scripts), `all_of` (any number), `leaves_one` (the condition on the earlier ones). Proved in the reference language of C95 for both dialects: a script without TOALTSTACK and FROMALTSTACK does not see the alternate stack (`run_alt`, with at most three more items after each instruction for Bitcoin's limit at every step); `run_shift` of C126 removes the operations counted before |
| C131 | nothing new | `S_ErrCode.v`: `time_operand`, `has_own_opcode`, two flag bits. Error constructors that no other theorem named were collected from the model and pinned: the constructor of Address and `from_hex` by equivalences for every error, the interpreter by one theorem for each code. `IE_StackSize` is an equivalence, since no instruction reports it (`step_no_size`). `E_MemoryError` is pinned by C40_huge_inputs and C40_huge_outputs (`Properties_Huge.v`, closed). `IE_CheckSigVerify` and `IE_CheckMultisigVerify`, which the modelled code never raises, are left out. |

Properties whose natural statement is false in the code are stated as the exact
behaviour, proved, and beside them a theorem named `…_refuted` proves with a
witness that the documented or natural behaviour does not hold.

Nothing in the list is inexpressible.  What stays outside each statement:
cryptographic strength (unforgeability, collision resistance), which no total
function model can express without complexity theory.

## 5. Mutation testing

Scratch copies in /root/work/mut; each attempt edits one model definition, rebuilds,
and records in `seeded/LOG.jsonl` which property theorems fail.  A mutant that survives
leads to a tighter theorem (field `tightened`).  "killed" means that the proof chain of some property
theorem no longer goes through for the edited definition.  It does not show that the theorem is
false for it, and a run stops at the first file whose property theorems fail.  In some runs
on a loaded machine a proof that ran into the time limit was counted as failed; 17 entries
where this looked likely were collected and rerun with a longer limit (a proof that is only slow is no
longer counted).  Two of them turned out to change no behaviour (`note`).

## 6. Status and assumptions as checked

Statuses are kept in `MANIFEST.json`.  `Print Assumptions` results as checked:

* `Properties_Codec.v`, `Properties_Keys.v`, `Properties_Script.v`, `Properties_Tx.v`, `Properties_Interp.v`,
  `Properties_EC.v`, `Properties_PubKey.v`, `Properties_HD.v`, `Properties_HDText.v`, `Properties_RFC6979.v`, `Properties_Utils.v`, `Properties_Sign.v`, `Properties_Ref.v`, `Properties_Obj.v`, `Properties_Mall.v`, `Properties_Rand.v`, `Properties_Wide.v`, `Properties_Flow.v`, `Properties_Point.v`, `Properties_Form.v`, `Properties_Local.v`, `Properties_Size.v`, `Properties_Twin.v`, `Properties_All.v`, `Properties_Dead.v`, `Properties_Stream.v`, `Properties_Peep.v`, `Properties_KeyArith.v`, `Properties_SigTheory.v`, `Properties_Origin.v`, `Properties_Bind.v`, `Properties_Count.v`, `Properties_SigErr.v`, `Properties_Formula.v`, `Properties_Policy.v`, `Properties_Leaf.v`, `Properties_Among.v`, `Properties_Both.v`, `Properties_Depth.v`, `Properties_Der.v`, `Properties_ErrCode.v`, `Properties_Huge.v`, `Properties_Path.v`, `Properties_Perm.v`, `Properties_Table.v`, `Properties_TextErr.v`, `Properties_Turn.v`: every theorem is "Closed under the global context".
* `Properties_Unit.v`: five theorems are closed under the global context; the others depend on
  `ClassicalDedekindReals.sig_forall_dec`, `ClassicalDedekindReals.sig_not_dec`,
  `FunctionalExtensionality.functional_extensionality_dep` and `Classical_Prop.classic` (standard library),
  and on nothing else.
* `Properties_URI.v`: 11 theorems are closed under the global context, the other 18 depend on some of the same four axioms.
* `Properties_Order.v`: C123_strict_refuted is closed under the global context, the other 7 depend on the same four axioms.
* `Properties_Show.v`: every theorem is closed under the global context except C99_except_uri, which depends on the same four axioms.

Reflective checks: the primality certificates and the order chain are evaluated with `vm_compute`; `coqchk`
re-evaluates them without the VM (about five minutes).
