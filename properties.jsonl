{"id": "C01", "title": "Fixed-width integer encoding is exact modular truncation", "statement": "encode_int(n, length=k) always returns exactly k bytes; for n >= 0 they are the k low-order base-256 digits of n in the requested byte order, so decode_int of the same byte order gives n mod 256^k (hence n itself when n < 256^k, and a silently truncated value otherwise); for n < 0 it returns k zero bytes.", "quantifier": "every integer n (any sign, any size), every length k >= 0, both byte orders", "why_tests_cant": "The domain is infinite; a test only samples it.", "anchors": ["bitforge/encoding.py:encode_int", "bitforge/encoding.py:decode_int"]}
{"id": "C02", "title": "Variable-width integer encoding round-trips and is minimal", "statement": "decode_int(encode_int(n)) == n for every n >= 0, in both byte orders; encode_int(n) has no superfluous leading (most significant) zero byte except that 0 is one zero byte; distinct n give distinct encodings.", "quantifier": "every integer n >= 0", "why_tests_cant": "The domain is infinite; a test only samples it.", "anchors": ["bitforge/encoding.py:encode_int", "bitforge/encoding.py:decode_int"]}
{"id": "C03", "title": "Varint round-trip with framing", "statement": "Buffer(encode_varint(n) + rest).read_varint() returns n and leaves exactly rest, for 0 <= n < 2^64; the encoding is the Bitcoin CompactSize encoding (1/3/5/9 bytes, shortest form); for n >= 2^64 the value read back is n mod 2^64.", "quantifier": "every n >= 0 and every suffix", "why_tests_cant": "The domain is infinite; a test only samples it.", "anchors": ["bitforge/encoding.py:encode_varint", "bitforge/tools.py:Buffer.read_varint"]}
{"id": "C04", "title": "Buffer is a FIFO byte queue with atomic failing reads", "statement": "For any history of write/read operations on a Buffer, the bytes returned by successful reads, concatenated, followed by the current content, equal the initial content followed by everything written; a read of n bytes returns exactly the n oldest bytes, and a read of more bytes than available raises InsufficientData(remaining, requested) and changes nothing.", "quantifier": "every initial content and every finite sequence of reads and writes", "why_tests_cant": "It is a claim about all operation histories.", "anchors": ["bitforge/tools.py:Buffer.read", "bitforge/tools.py:Buffer.write"]}
{"id": "C05", "title": "Hex codec is a bijection up to case", "statement": "decode_hex(encode_hex(b)) == b; decode_hex(s) succeeds exactly when s has even length and only hex digits, and then encode_hex(decode_hex(s)) is s in lower case; every other s raises InvalidHex.", "quantifier": "every byte string b and every byte-character string s", "why_tests_cant": "The domain is infinite; a test only samples it.", "anchors": ["bitforge/encoding.py:encode_hex", "bitforge/encoding.py:decode_hex"]}
{"id": "C06", "title": "Base58 round-trip from bytes", "statement": "a2b_base58(b2a_base58(b)) == b, including any number of leading zero bytes; the text uses only the 58-character alphabet and has one leading '1' per leading zero byte.", "quantifier": "every byte string b", "why_tests_cant": "The domain is infinite; a test only samples it.", "anchors": ["bitforge/utils/encoding.py:b2a_base58", "bitforge/utils/encoding.py:a2b_base58", "bitforge/utils/encoding.py:to_long", "bitforge/utils/encoding.py:from_long"]}
{"id": "C07", "title": "Base58 decoding is injective and exactly defined on the alphabet", "statement": "a2b_base58(s) succeeds exactly when every character is in the alphabet; when it does, b2a_base58(a2b_base58(s)) == s, so no two strings decode to the same bytes.", "quantifier": "every string s", "why_tests_cant": "The domain is infinite; a test only samples it.", "anchors": ["bitforge/utils/encoding.py:a2b_base58", "bitforge/utils/encoding.py:b2a_base58"]}
{"id": "C08", "title": "Base58check accepts exactly its own encodings", "statement": "decode_base58h(encode_base58h(b)) == b for every payload b; decode_base58h(s) == b only if s == encode_base58h(b) (unique text form, checksum equal to the first four bytes of double SHA-256); every other ASCII string raises InvalidBase58h and nothing else (a rejected string with a non-ASCII byte raises UnicodeDecodeError instead: containment for all strings is refuted).", "quantifier": "every payload and every string", "why_tests_cant": "The domain is infinite; a test only samples it.", "anchors": ["bitforge/encoding.py:encode_base58h", "bitforge/encoding.py:decode_base58h", "bitforge/utils/encoding.py:b2a_hashed_base58", "bitforge/utils/encoding.py:a2b_hashed_base58"]}
{"id": "C09", "title": "Script-number codec: exact round-trip range", "statement": "encode_script_number(n) is the shortest sign-magnitude little-endian form of n, and decode_script_number(encode_script_number(n), size=k) == n when that form has fewer than k bytes and raises InvalidScriptNumber otherwise. With the default size=4 the round-trip holds exactly for |n| < 2^23 (Bitcoin's range is |n| < 2^31: refuted).", "quantifier": "every integer n and every size k", "why_tests_cant": "The domain is infinite; a test only samples it.", "anchors": ["bitforge/encoding.py:encode_script_number", "bitforge/encoding.py:decode_script_number"]}
{"id": "C10", "title": "Minimal script numbers are unique", "statement": "With f_require_minimal=True decode_script_number(b) == n only if b == encode_script_number(n); every non-canonical byte string of accepted length raises InvalidMinimalScriptNumber; without the flag the value returned is the sign-magnitude value of b.", "quantifier": "every byte string b, every size", "why_tests_cant": "The domain is infinite; a test only samples it.", "anchors": ["bitforge/encoding.py:decode_script_number"]}
{"id": "C11", "title": "Network lookup is exact and version bytes are unambiguous", "statement": "networks.find(value, attr) returns the (unique) network whose attribute has that value and raises UnknownNetwork when there is none (returns nothing when raises=False); the address/WIF/HD version numbers of the two networks and of the two address types never collide.", "quantifier": "every attribute name and every integer value", "why_tests_cant": "The domain is infinite; a test only samples it.", "anchors": ["bitforge/networks.py:find"]}
{"id": "C12", "title": "Private keys are always in range", "statement": "Every PrivateKey obtained through the constructor, from_bytes, from_hex or from_wif has 0 < secret < order of secp256k1; out of range secrets raise InvalidSecret; 32-byte inputs are accepted exactly when their big-endian value is in range.", "quantifier": "every integer secret, byte string, hex string, WIF string", "why_tests_cant": "The domain is infinite; a test only samples it.", "anchors": ["bitforge/privkey.py:PrivateKey"]}
{"id": "C13", "title": "Private key bytes/hex round-trip", "statement": "For every valid key k: to_bytes() is 32 bytes, PrivateKey.from_bytes(k.to_bytes(), k.network, k.compressed) == k and the same through hex; conversely from_bytes(b).to_bytes() == b whenever b is accepted.", "quantifier": "every valid key, every accepted byte string", "why_tests_cant": "The domain is infinite; a test only samples it.", "anchors": ["bitforge/privkey.py:PrivateKey.from_bytes", "bitforge/privkey.py:PrivateKey.to_bytes", "bitforge/privkey.py:PrivateKey.from_hex", "bitforge/privkey.py:PrivateKey.to_hex"]}
{"id": "C14", "title": "WIF round-trip", "statement": "PrivateKey.from_wif(k.to_wif()) == k, preserving secret, network and compression flag, for every key on either network.", "quantifier": "every secret in range, both networks, both compression flags", "why_tests_cant": "The domain is infinite; a test only samples it.", "anchors": ["bitforge/privkey.py:PrivateKey.from_wif", "bitforge/privkey.py:PrivateKey.to_wif"]}
{"id": "C15", "title": "WIF parsing is canonical and its failures are contained", "statement": "If from_wif(s) succeeds then its to_wif() is s itself; if it fails on an ASCII string, the exception is one of PrivateKey's own (InvalidBase58h, InvalidCompressionByte, InvalidWifLength, UnknownNetwork, InvalidSecret), and which one is determined by the payload; on other strings UnicodeDecodeError escapes (containment for all strings is refuted).", "quantifier": "every string s", "why_tests_cant": "The domain is infinite; a test only samples it.", "anchors": ["bitforge/privkey.py:PrivateKey.from_wif"]}
{"id": "C16", "title": "Address text/bytes/hex round-trip", "statement": "Address.from_string(a.to_string()) == a, Address.from_bytes(a.to_bytes()) == a and Address.from_hex(a.to_hex()) == a, preserving hash, network and type, for every 20-byte hash on either network and of either type; hence distinct addresses have distinct strings.", "quantifier": "every address", "why_tests_cant": "The domain is infinite; a test only samples it.", "anchors": ["bitforge/address.py:Address"]}
{"id": "C17", "title": "Address parsing is canonical and its failures are contained", "statement": "If Address.from_string(s) succeeds its to_string() is s; otherwise, for an ASCII string, the exception is Address.InvalidBase58h, InvalidBinaryLength or InvalidVersion (UnicodeDecodeError escapes for other strings: containment for all strings is refuted); from_bytes(b) succeeds exactly for 21-byte strings with version byte 0, 5, 111 or 196.", "quantifier": "every string and byte string", "why_tests_cant": "The domain is infinite; a test only samples it.", "anchors": ["bitforge/address.py:Address.from_string", "bitforge/address.py:Address.from_bytes", "bitforge/address.py:Address.classify_bytes"]}
{"id": "C18", "title": "Uncompressed public keys round-trip", "statement": "For every point (x, y) of the curve with coordinates in [0, 2^256): PublicKey.from_bytes(pk.to_bytes()) == pk when compressed is False; to_bytes is 65 bytes starting with 4.", "quantifier": "every curve point, both networks", "why_tests_cant": "The domain is infinite; a test only samples it.", "anchors": ["bitforge/pubkey.py:PublicKey.from_bytes", "bitforge/pubkey.py:PublicKey.to_bytes", "bitforge/utils/encoding.py:public_pair_to_sec", "bitforge/utils/encoding.py:sec_to_public_pair"]}
{"id": "C19", "title": "Compressed public keys round-trip", "statement": "For every point (x, y) of secp256k1 with coordinates in [0, p): PublicKey.from_bytes(pk.to_bytes()) == pk when compressed is True; the decompressed y is the root with the parity named by the prefix byte.", "quantifier": "every curve point", "why_tests_cant": "The domain is infinite; a test only samples it.", "anchors": ["bitforge/pubkey.py:PublicKey.from_bytes", "bitforge/utils/ecdsa.py:public_pair_for_x", "bitforge/utils/numbertheory.py:modular_sqrt"]}
{"id": "C20", "title": "Public key construction never yields an off-curve point", "statement": "PublicKey(pair), PublicKey.from_bytes and from_hex either return a key whose pair satisfies y^2 = x^3 + 7 (mod p) or raise one of PublicKey's own errors (InvalidPair, InvalidBinary, InvalidHex, UnknownNetwork).", "quantifier": "every pair of integers, every byte string, every hex string", "why_tests_cant": "The domain is infinite; a test only samples it.", "anchors": ["bitforge/pubkey.py:PublicKey"]}
{"id": "C21", "title": "Public key parsing acceptance set", "statement": "PublicKey.from_bytes(b) succeeds on a str b exactly when b starts with 4 and bytes 1..64 are a curve point, or starts with 2/3 and bytes 1..32 are the x of a curve point; bytes beyond that prefix are ignored and x >= p is accepted (strict SEC parsing refuted); a bytearray argument is always rejected with InvalidBinary on Python 2.", "quantifier": "every byte string, both Python string kinds", "why_tests_cant": "The domain is infinite; a test only samples it.", "anchors": ["bitforge/pubkey.py:PublicKey.from_bytes", "bitforge/utils/encoding.py:sec_to_public_pair", "bitforge/utils/encoding.py:from_bytes_32"]}
{"id": "C22", "title": "Modular inverse is correct and fails exactly when it must", "statement": "inverse_mod(a, m) returns r with 0 < r < m and a*r = 1 (mod m) when gcd(a, m) = 1, and raises AssertionError otherwise.", "quantifier": "every integer a and every modulus m > 1", "why_tests_cant": "The domain is infinite; a test only samples it.", "anchors": ["bitforge/utils/numbertheory.py:inverse_mod"]}
{"id": "C23", "title": "Modular square root is sound and complete for p = 3 mod 4", "statement": "For p = 3 (mod 4): a non-zero result r of modular_sqrt(a, p) satisfies r^2 = a (mod p); for prime p the result is non-zero exactly when a is a non-zero square mod p.", "quantifier": "every a in [0, p), every odd modulus = 3 mod 4", "why_tests_cant": "The domain is infinite; a test only samples it.", "anchors": ["bitforge/utils/numbertheory.py:modular_sqrt", "bitforge/utils/numbertheory.py:legendre_symbol"]}
{"id": "C24", "title": "Curve arithmetic stays on the curve", "statement": "Adding, doubling and multiplying points of the curve yields points of the curve (or INFINITY), with coordinates reduced mod p, never raising for points of a curve without 2-torsion.", "quantifier": "every pair of points, every scalar, every prime field", "why_tests_cant": "The domain is infinite; a test only samples it.", "anchors": ["bitforge/utils/ellipticcurve.py:Point.__add__", "bitforge/utils/ellipticcurve.py:Point.double", "bitforge/utils/ellipticcurve.py:Point.__mul__"]}
{"id": "C25", "title": "Scalar multiplication is repeated addition", "statement": "Point * e is the e-fold sum of the point (e reduced modulo the declared order) in the elliptic-curve group.", "quantifier": "every point and every scalar e >= 0", "why_tests_cant": "The domain is infinite; a test only samples it.", "anchors": ["bitforge/utils/ellipticcurve.py:Point.__mul__"]}
{"id": "C26", "title": "ECDSA self-consistency", "statement": "utils.ecdsa.verify accepts the signature utils.ecdsa.sign produces for the matching public pair.", "quantifier": "every secret in [1, n), every hash value", "why_tests_cant": "The domain is infinite; a test only samples it.", "anchors": ["bitforge/utils/ecdsa.py:sign", "bitforge/utils/ecdsa.py:verify"]}
{"id": "C27", "title": "Strict DER check accepts exactly BIP66 signatures", "statement": "validate_signature(s) is True exactly when s is 0x30 len 0x02 lenR R 0x02 lenS S hashtype with len covering everything but the hashtype, total length 9..73, and R, S minimal non-negative big-endian integers; it never raises, for every byte string.", "quantifier": "every byte string", "why_tests_cant": "The domain is infinite; a test only samples it.", "anchors": ["bitforge/signature.py:validate_signature"]}
{"id": "C28", "title": "Opcode tables are consistent", "statement": "Opcode.from_name(op.name) == op for every named non-push-constant opcode; for_number/number_value are mutually inverse on [0,16] and fail outside; opcode ordering is numeric ordering; exactly the numbers 0..255 construct.", "quantifier": "all 256 opcodes and every integer", "why_tests_cant": "The domain is infinite; a test only samples it.", "anchors": ["bitforge/script/opcode.py:Opcode"]}
{"id": "C29", "title": "Push opcode selection is minimal", "statement": "Opcode.push_for(n) returns the const push n for 1 <= n <= 75, PUSHDATA1 for n <= 255, PUSHDATA2 for n <= 65535, PUSHDATA4 for n < 2^32, and raises InvalidConstPushLength for n <= 0 and InvalidPushLength for n >= 2^32. const_push_for and var_push_for, called directly, accept exactly 1..75 and 1..2^32-1 and raise these two errors otherwise.", "quantifier": "every integer n", "why_tests_cant": "The domain is infinite; a test only samples it.", "anchors": ["bitforge/script/opcode.py:Opcode.push_for"]}
{"id": "C30", "title": "Instructions are well-formed by construction", "statement": "Instruction(op, data) succeeds exactly when op pushes and data has the length op prescribes (exactly n for const push n, at most 2^8-1 / 2^16-1 / 2^32-1 for PUSHDATA1/2/4), or op does not push and data is absent.", "quantifier": "every opcode and every optional data string", "why_tests_cant": "The domain is infinite; a test only samples it.", "anchors": ["bitforge/script/instruction.py:Instruction.__new__"]}
{"id": "C31", "title": "Script bytes round-trip exactly for scripts without PUSHDATA", "statement": "For every script whose instructions are all non-PUSHDATA and whose structure is classifiable, Script.from_bytes(s.to_bytes()) has the same instructions; for every script containing a PUSHDATA1/2/4 instruction to_bytes raises TypeError (full round-trip refuted).", "quantifier": "every instruction sequence", "why_tests_cant": "The domain is infinite; a test only samples it.", "anchors": ["bitforge/script/script.py:Script.from_bytes", "bitforge/script/script.py:Script.to_bytes", "bitforge/script/instruction.py:Instruction.to_bytes"]}
{"id": "C32", "title": "Script parsing follows the Bitcoin script grammar", "statement": "Script.from_bytes(b) reads exactly the Bitcoin script grammar: it succeeds iff b splits into complete instructions (then re-concatenating their wire forms gives b) and the classification step does not fail; a truncated push raises InsufficientData.", "quantifier": "every byte string", "why_tests_cant": "The domain is infinite; a test only samples it.", "anchors": ["bitforge/script/script.py:Script.from_buffer"]}
{"id": "C33", "title": "Script classification matches the templates", "statement": "classify returns the first matching template, and for each class the match condition is exactly the documented shape; a script produced by a template's create is classified as that template; templates are mutually exclusive.", "quantifier": "every instruction sequence", "why_tests_cant": "The domain is infinite; a test only samples it.", "anchors": ["bitforge/script/script.py:Script.classify", "bitforge/script/script.py:SCRIPT_SUBCLASSES"]}
{"id": "C34", "title": "Script classification failure set", "statement": "Script.classify / Script.create / Script.from_bytes raise AttributeError exactly on scripts with at least 4 instructions that match no earlier template and whose first instruction is a push, or whose first is a small number and whose last-but-one is a push (totality refuted).", "quantifier": "every instruction sequence", "why_tests_cant": "The domain is infinite; a test only samples it.", "anchors": ["bitforge/script/script.py:RedeemMultisig.is_valid"]}
{"id": "C35", "title": "Script text round-trip", "statement": "Script.from_string(s.to_string()) has the same instructions as s for every non-empty script of named opcodes with classifiable structure (including PUSHDATA pushes); the empty script's text is rejected and unnamed opcodes have no text (refuted in general). A text is refused with the error of its first instruction that cannot be read (unknown name, number that is no length of a push, missing words, size that is no number, data without 0x or not in hex, data of another length), or, when all can be read, with that of the classification; every text is read or refused in exactly one way.", "quantifier": "every instruction sequence", "why_tests_cant": "The domain is infinite; a test only samples it.", "anchors": ["bitforge/script/script.py:Script.from_string", "bitforge/script/script.py:Script.to_string", "bitforge/script/instruction.py:Instruction.to_string"]}
{"id": "C36", "title": "Template getters return what create was given", "statement": "get_signature/get_public_key of PayToPubkeyIn, get_address_hash, get_script_hash, get_data, get_signatures/get_script, get_min_signatures/get_public_keys return the arguments of the corresponding create.", "quantifier": "every valid argument list", "why_tests_cant": "The domain is infinite; a test only samples it.", "anchors": ["bitforge/script/script.py:PayToPubkeyIn", "bitforge/script/script.py:PayToScriptIn", "bitforge/script/script.py:RedeemMultisig", "bitforge/script/script.py:OpReturnOut"]}
{"id": "C37", "title": "Transaction construction validates its arguments", "statement": "Transaction(inputs, outputs, lock_time, version) succeeds exactly when both lists are non-empty, contain only Inputs / Outputs respectively, and 0 <= lock_time < 2^32; otherwise it raises NoInputs, NotAnInput, NoOutputs, NotAnOutput or InvalidLockTime in that order of priority.", "quantifier": "all argument lists", "why_tests_cant": "The domain is infinite; a test only samples it.", "anchors": ["bitforge/transaction/transaction.py:Transaction.__new__"]}
{"id": "C38", "title": "Transaction serialization is the Bitcoin wire format", "statement": "When fields are in range and scripts have no PUSHDATA, Transaction.to_bytes() is version(4, LE), CompactSize count, inputs (reversed id, index(4), script with CompactSize length, sequence(4)), CompactSize count, outputs (amount(8), script), lock_time(4).", "quantifier": "every transaction with fields in range", "why_tests_cant": "The domain is infinite; a test only samples it.", "anchors": ["bitforge/transaction/transaction.py:Transaction.to_bytes", "bitforge/transaction/input.py:Input.to_bytes", "bitforge/transaction/output.py:Output.to_bytes"]}
{"id": "C39", "title": "Transaction round-trip", "statement": "Transaction.from_bytes(tx.to_bytes()) == tx for every transaction with fields in range and serializable, classifiable scripts; the same through hex.", "quantifier": "every such transaction, any number of inputs and outputs", "why_tests_cant": "The domain is infinite; a test only samples it.", "anchors": ["bitforge/transaction/transaction.py:Transaction.from_bytes", "bitforge/transaction/input.py:Input.from_buffer", "bitforge/transaction/output.py:Output.from_buffer"]}
{"id": "C40", "title": "Transaction parsing yields only in-range fields; trailing bytes are ignored", "statement": "Every transaction returned by from_bytes has in-range fields and at least one input and output; from_bytes(b) == from_bytes(b + junk) whenever from_bytes(b) succeeds (so parsing is not injective: canonical parsing refuted); a truncated serialization raises InsufficientData; an announced number of inputs, or of outputs after readable inputs, from 2^60 on raises MemoryError, and from 2^63 on OverflowError, whatever follows.", "quantifier": "every byte string", "why_tests_cant": "The domain is infinite; a test only samples it.", "anchors": ["bitforge/transaction/transaction.py:Transaction.from_bytes"]}
{"id": "C41", "title": "Signing changes only the signed input's script", "statement": "tx.sign(keys, i) returns a transaction with the same version, lock_time, outputs, number of inputs, every other input identical, and input i identical except for its script.", "quantifier": "every transaction, key list, index and sigtype", "why_tests_cant": "The domain is infinite; a test only samples it.", "anchors": ["bitforge/transaction/transaction.py:Transaction.sign", "bitforge/transaction/input.py:Input.replace_script"]}
{"id": "C42", "title": "What a signature commits to", "statement": "The message signed for input i is independent of every other input's script, and two transactions with the same pre-image for index i agree on version, lock_time, outputs, all outpoints and sequence numbers and input i's placeholder script; signing different inputs commutes.", "quantifier": "all pairs of in-range transactions, all indices", "why_tests_cant": "The domain is infinite; a test only samples it.", "anchors": ["bitforge/transaction/transaction.py:Transaction.sign"]}
{"id": "C43", "title": "Signature hash types are not honoured", "statement": "For every sigtype in [0,255] the signed pre-image is the SIGHASH_ALL serialization followed by sigtype; in particular with SIGHASH_NONE / SINGLE / ANYONECANPAY the message still depends on all outputs and inputs (BIP behaviour refuted).", "quantifier": "every transaction, every sigtype", "why_tests_cant": "The domain is infinite; a test only samples it.", "anchors": ["bitforge/transaction/transaction.py:Transaction.sign", "bitforge/signature.py:SIGHASH_ALL"]}
{"id": "C44", "title": "Index handling when signing", "statement": "sign with an index >= number of inputs raises IndexError; a negative index in range returns an unsigned copy (equal transaction) after computing a discarded signature; signing an already signed input raises UnknownSignatureMethod. At a non-negative index in range of a serialisable transaction, sign raises exactly what the input's own sign raises on the double SHA-256 of the signing message.", "quantifier": "every transaction and every integer index", "why_tests_cant": "The domain is infinite; a test only samples it.", "anchors": ["bitforge/transaction/transaction.py:Transaction.sign"]}
{"id": "C45", "title": "Address inputs: sign and can_sign", "statement": "AddressInput.sign requires exactly one key (InvalidSignatureCount otherwise) and produces <sig||hashtype> <pubkey>; can_sign(keys) is True exactly for a single key whose public key hashes to the placeholder's hash. With one valid key the only error is ValueError, raised exactly when sigtype is outside 0..255.", "quantifier": "every key list", "why_tests_cant": "The domain is infinite; a test only samples it.", "anchors": ["bitforge/transaction/input.py:AddressInput"]}
{"id": "C46", "title": "Multisig inputs: can_sign", "statement": "MultisigInput.can_sign(keys) for an input created from livenet public keys is True exactly when len(keys) == min_signatures and every key's public key is one of them; for keys of another network it is always False.", "quantifier": "every list of public keys (0..16), every key list", "why_tests_cant": "The domain is infinite; a test only samples it.", "anchors": ["bitforge/transaction/input.py:MultisigInput.can_sign"]}
{"id": "C47", "title": "Transaction id byte order", "statement": "get_id() is the hex of double SHA-256 of the serialization in natural order, so an Input built with tx_id = tx.get_id() serializes the byte-reversed hash as its outpoint (Bitcoin's id convention refuted).", "quantifier": "every transaction", "why_tests_cant": "The domain is infinite; a test only samples it.", "anchors": ["bitforge/transaction/transaction.py:Transaction.get_id", "bitforge/transaction/input.py:Input.to_bytes"]}
{"id": "C48", "title": "Output classes and multisig outputs", "statement": "Output.create / Output.from_bytes select AddressOutput, ScriptOutput, DataOutput or Output exactly by script template; MultisigOutput.create puts the bare redeem script in the output, never its P2SH form (documented behaviour refuted).", "quantifier": "every script, every key list", "why_tests_cant": "The domain is infinite; a test only samples it.", "anchors": ["bitforge/transaction/output.py:Output.create", "bitforge/transaction/output.py:MultisigOutput.create"]}
{"id": "C49", "title": "Data outputs: size limit", "statement": "DataOutput.create(data) raises TooMuchData exactly above 80 bytes and succeeds for 1..80 bytes with amount 0 and the data recoverable; it fails on empty data; outputs with 76..80 bytes cannot be serialized (refuted).", "quantifier": "every byte string", "why_tests_cant": "The domain is infinite; a test only samples it.", "anchors": ["bitforge/transaction/output.py:DataOutput.create"]}
{"id": "C50", "title": "Input.create classification", "statement": "Input.create returns an AddressInput for PayToPubkeyIn scripts, a ScriptInput for PayToScriptIn scripts, and fails with NameError (or the classification's AttributeError) for every other script.", "quantifier": "every script", "why_tests_cant": "The domain is infinite; a test only samples it.", "anchors": ["bitforge/transaction/input.py:Input.create"]}
{"id": "C51", "title": "Stack operations obey the Script specification", "statement": "For every stack, each executed stack-manipulation opcode (2DROP 2DUP 3DUP 2OVER 2ROT 2SWAP IFDUP DEPTH DUP NIP OVER PICK ROLL ROT SWAP TUCK SIZE TOALTSTACK FROMALTSTACK EQUAL EQUALVERIFY VERIFY) has exactly the documented effect and fails exactly on underflow; OP_DROP removes two items when there are two (refuted).", "quantifier": "every stack and altstack", "why_tests_cant": "The domain is infinite; a test only samples it.", "anchors": ["bitforge/script/interpreter.py:Interpreter.step"]}
{"id": "C52", "title": "Arithmetic operations obey the Script specification", "statement": "For operands of at most 3 bytes held as bytearrays, 1ADD 1SUB NEGATE NOT 0NOTEQUAL ADD SUB BOOLAND BOOLOR NUMEQUAL(VERIFY) NUMNOTEQUAL LESSTHAN GREATERTHAN LESSTHANOREQUAL GREATERTHANOREQUAL MIN MAX WITHIN push exactly the integer function's encoding; longer operands or str operands fail the script; OP_ABS always yields 1 (refuted).", "quantifier": "every stack, every operand", "why_tests_cant": "The domain is infinite; a test only samples it.", "anchors": ["bitforge/script/interpreter.py:Interpreter.step"]}
{"id": "C53", "title": "Truth value of a stack element", "statement": "cast_to_bool(b) is True exactly when b is non-empty, its first byte is non-zero and b is not the single byte 0x80; it agrees with Bitcoin's rule (some non-zero byte other than a final 0x80) exactly characterised, and disagrees e.g. on 0x0001 (refuted).", "quantifier": "every byte string", "why_tests_cant": "The domain is infinite; a test only samples it.", "anchors": ["bitforge/script/interpreter.py:Interpreter.cast_to_bool"]}
{"id": "C54", "title": "Conditionals must balance", "statement": "evaluate() returns True only for scripts whose IF/NOTIF/ELSE/ENDIF brackets are balanced.", "quantifier": "every script, every initial stack", "why_tests_cant": "The domain is infinite; a test only samples it.", "anchors": ["bitforge/script/interpreter.py:Interpreter.step", "bitforge/script/interpreter.py:Interpreter.evaluate"]}
{"id": "C55", "title": "Unexecuted branches have no effect on the stacks", "statement": "While some enclosing condition is false, executing any instruction other than IF/NOTIF/ELSE/ENDIF leaves stack and altstack unchanged and can fail only because of push size, op count, disabled or reserved-conditional opcodes.", "quantifier": "every state with a false enclosing condition, every instruction", "why_tests_cant": "The domain is infinite; a test only samples it.", "anchors": ["bitforge/script/interpreter.py:Interpreter.step"]}
{"id": "C56", "title": "Resource limits", "statement": "In every execution from a within-limits state every stack element stays at most 520 bytes, at most 201 counted operations execute, a script over 10000 bytes fails, and a successful evaluation ends with at most 1000 stack+altstack items; the 1000-item limit is not enforced mid-script (refuted): from 1000 items there can be 11402, and never more.", "quantifier": "every script, every initial stack", "why_tests_cant": "The domain is infinite; a test only samples it.", "anchors": ["bitforge/script/interpreter.py:Interpreter.evaluate", "bitforge/script/interpreter.py:Interpreter.step"]}
{"id": "C57", "title": "Disabled opcodes fail everywhere", "statement": "Any script containing an opcode among CAT SUBSTR LEFT RIGHT INVERT AND OR XOR 2MUL 2DIV MUL DIV MOD LSHIFT RSHIFT never evaluates to True, even if the opcode is in an unexecuted branch.", "quantifier": "every script, every initial stack, every flag set", "why_tests_cant": "The domain is infinite; a test only samples it.", "anchors": ["bitforge/script/interpreter.py:Interpreter.step"]}
{"id": "C58", "title": "Signature-checking scripts can never verify", "statement": "No execution in which CHECKSIG, CHECKSIGVERIFY, HASH160 or CHECKLOCKTIMEVERIFY is reached while executing, nor CHECKMULTISIG(VERIFY) with at least one signature, succeeds; hence no pay-to-pubkey-hash script ever verifies (documented purpose refuted).", "quantifier": "every script, transaction, stack and flag set", "why_tests_cant": "The domain is infinite; a test only samples it.", "anchors": ["bitforge/script/interpreter.py:Interpreter.step", "bitforge/script/interpreter.py:Interpreter.check_signature_encoding", "bitforge/encoding.py:hash160"]}
{"id": "C59", "title": "Verification flags", "statement": "verify(...) with SCRIPT_VERIFY_P2SH never returns True (it returns False or raises); with SIGPUSHONLY it returns False for a non-push-only script_sig; with MINIMALDATA any executed non-empty data push of at most 75 bytes makes it fail; verify raises TypeError on any reached script containing PUSHDATA.", "quantifier": "every script pair, every flag set", "why_tests_cant": "The domain is infinite; a test only samples it.", "anchors": ["bitforge/script/interpreter.py:Interpreter.verify", "bitforge/script/instruction.py:Instruction.is_minimal_push"]}
{"id": "C60", "title": "Verification is independent of interpreter history", "statement": "The outcome of verify on an Interpreter object does not depend on the state left by earlier calls.", "quantifier": "every prior object state, every argument", "why_tests_cant": "It is a claim about all histories of the object.", "anchors": ["bitforge/script/interpreter.py:Interpreter.verify", "bitforge/script/interpreter.py:Interpreter.initialize"]}
{"id": "C61", "title": "verify succeeds only on a true top element", "statement": "verify returns True only if both scripts evaluate successfully in sequence on one stack and the final top element is true under cast_to_bool.", "quantifier": "every script pair, every flag set", "why_tests_cant": "The domain is infinite; a test only samples it.", "anchors": ["bitforge/script/interpreter.py:Interpreter.verify"]}
{"id": "C62", "title": "HD key parsing extracts the BIP32 fields", "statement": "HDPrivateKey.from_string / HDPublicKey.from_string on the base58check text of a BIP32 78-byte structure return the key, chain code, depth, index, parent fingerprint and network encoded there; an unknown version raises UnknownNetwork.", "quantifier": "every 78-byte payload", "why_tests_cant": "The domain is infinite; a test only samples it.", "anchors": ["bitforge/hdprivkey.py:HDPrivateKey.from_string", "bitforge/hdpubkey.py:HDPublicKey.from_string"]}
{"id": "C63", "title": "HD serialization and private derivation always fail", "statement": "HDPrivateKey.to_string, HDPublicKey.to_string and HDPrivateKey.derive raise for every key on both networks (round-trip and BIP32 derivation refuted). With a network whose version number has ASCII bytes only, the texts are the base58check texts of BIP32's fields, each number reduced to its bytes, exactly when all these bytes and the check bytes are ASCII; otherwise UnicodeDecodeError is raised.", "quantifier": "every HD key, every index", "why_tests_cant": "The domain is infinite; a test only samples it.", "anchors": ["bitforge/hdprivkey.py:HDPrivateKey.to_string", "bitforge/hdprivkey.py:HDPrivateKey.derive", "bitforge/hdpubkey.py:HDPublicKey.to_string"]}
{"id": "C64", "title": "HD public derivation ignores the requested index", "statement": "HDPublicKey.derive(i) uses the parent's own index in the HMAC, so all non-hardened children of a key share one public key and chain code; it records index i, depth+1 and the parent's fingerprint; hardened derivation raises ValueError (BIP32 distinctness refuted).", "quantifier": "every HD public key, all pairs of indices", "why_tests_cant": "The domain is infinite; a test only samples it.", "anchors": ["bitforge/hdpubkey.py:HDPublicKey.derive"]}
{"id": "C65", "title": "Unit conversion error bound", "statement": "For an integer amount s of satoshis with |s| <= 21e14, Unit(btc = Unit(satoshis=s).btc).satoshis is s or one unit nearer to zero; it is not always s (exact round-trip refuted at s = 3).", "quantifier": "every integer amount in range", "why_tests_cant": "The domain is infinite; a test only samples it.", "anchors": ["bitforge/unit.py:Unit"]}
{"id": "C66", "title": "URI validation is not total and does not check the scheme", "statement": "For a text, URI.is_valid returns True exactly when the constructor succeeds and raises (OverflowError) exactly when the last amount is a number whose float times 1e8 is not finite; for scheme:path[?query] with a usable amount the answer is True exactly when path is a valid address; the scheme is not checked (refuted), and totality is refuted for texts (amount=1e301) and for dicts (no address: AttributeError).", "quantifier": "every parsed URI", "why_tests_cant": "The domain is infinite; a test only samples it.", "anchors": ["bitforge/uri.py:URI.is_valid", "bitforge/uri.py:URI.__init__"]}
{"id": "C67", "title": "Script mutators never succeed", "statement": "Script.push_data and Script.remove_opcode_by_data raise for every script and every data argument; no script is ever changed by them.", "quantifier": "every script, every byte string", "why_tests_cant": "The domain is infinite; a test only samples it.", "anchors": ["bitforge/script/script.py:Script.push_data", "bitforge/script/script.py:Script.remove_opcode_by_data"]}
{"id": "C68", "title": "is_push_only is exact", "statement": "Script.is_push_only() is True exactly when every opcode number in the script is at most OP_16 (96).", "quantifier": "every script", "why_tests_cant": "The domain is infinite; a test only samples it.", "anchors": ["bitforge/script/script.py:Script.is_push_only"]}
{"id": "C69", "title": "is_minimal_push raises on ordinary pushes", "statement": "For parsed scripts, Instruction.is_minimal_push raises AttributeError on every push of 1 to 75 bytes; for scripts built from str it raises on those too except one-byte small numbers, for which it answers False (CheckMinimalPush equivalence refuted).", "quantifier": "every well-formed push instruction", "why_tests_cant": "The domain is infinite; a test only samples it.", "anchors": ["bitforge/script/instruction.py:Instruction.is_minimal_push"]}
{"id": "C70", "title": "Script inputs collect one signature per key, in order, around the serialized script", "statement": "ScriptInput.sign (inherited by MultisigInput) with a non-empty key list yields a plain Input whose PayToScriptIn script returns, through get_signatures, exactly one signature per key in the given order, each followed by the byte sigtype (0..255), and through get_script the parse of the serialization of the original script. On well-formed instructions the errors are exactly: ValueError for a sigtype outside 0..255 with at least one key, otherwise TypeError for a script containing PUSHDATA, and InvalidConstPushLength for an empty script.", "quantifier": "every script input, every key list, every payload, every sigtype, every signature function", "why_tests_cant": "The domain is infinite; a test only samples it.", "anchors": ["bitforge/transaction/input.py:ScriptInput.sign", "bitforge/script/script.py:PayToScriptIn"]}
{"id": "C71", "title": "Script addresses commit to the serialized script", "statement": "Address.from_script(s, network) is the Script address whose hash is RIPEMD160(SHA256(s.to_bytes())); it has a base58check text that parses back to it, and PayToScriptOut.create(s) carries the same hash.", "quantifier": "every serializable script, both networks", "why_tests_cant": "The domain is infinite; a test only samples it.", "anchors": ["bitforge/address.py:Address.from_script", "bitforge/script/script.py:PayToScriptOut"]}
{"id": "C72", "title": "Hash-lock scripts verify exactly for preimages", "statement": "For OP in SHA1, SHA256, HASH256, RIPEMD160 (without P2SH and MINIMALDATA flags), verify of script_sig = push x against script_pubkey = OP push h EQUAL returns True exactly when the hash of x equals h, and False (EVAL_FALSE_IN_STACK) otherwise.", "quantifier": "every preimage and digest of 1..75 bytes, every other flag", "why_tests_cant": "The domain is infinite; a test only samples it.", "anchors": ["bitforge/script/interpreter.py:Interpreter.verify", "bitforge/script/interpreter.py:Interpreter.step"]}
{"id": "C73", "title": "Point addition is a commutative group operation", "statement": "On a nonsingular curve over an odd prime field, Point.__add__ of valid reduced points never raises, is commutative and associative, has INFINITY as neutral element and (x, -y) as inverse of (x, y); P*e + P*f stands for the same point as P*(e+f).", "quantifier": "every curve, every three points, every pair of scalars", "why_tests_cant": "The domain is infinite; a test only samples it. Associativity over a 256-bit field cannot be enumerated.", "anchors": ["bitforge/utils/ellipticcurve.py:Point.__add__", "bitforge/utils/ellipticcurve.py:Point.__mul__", "bitforge/utils/ellipticcurve.py:Point.double"]}
{"id": "C74", "title": "The secp256k1 parameters are sound", "statement": "The field size p and the order n in secp256k1.py are prime, the generator is on the curve and has order exactly n, and no point of the curve has x = 0 or y = 0; hence the curve arithmetic never raises on points of the generated group and sign never meets r == 0.", "quantifier": "every multiple of the generator, every curve point", "why_tests_cant": "Primality and the order of the generator are number-theoretic facts the library only states as constants.", "anchors": ["bitforge/utils/secp256k1.py:generator_secp256k1"]}
{"id": "C75", "title": "Public key and address derivation is total and injective", "statement": "For every valid private key, to_public_key returns secret*G with reduced coordinates and the key's network and compression flag; different secrets give different points; to_address returns the PublicKey address with RIPEMD160(SHA256(SEC bytes)).", "quantifier": "every valid private key", "why_tests_cant": "The domain is infinite; a test only samples it.", "anchors": ["bitforge/pubkey.py:PublicKey.from_private_key", "bitforge/privkey.py:PrivateKey.to_address", "bitforge/address.py:Address.from_public_key"]}
{"id": "C76", "title": "Public key recovery finds the signer", "statement": "possible_public_pairs_for_signature(val, sign(secret, val)) contains the public pair of secret whenever r < n and 2*val + secret*r is not 0 mod n (in that exceptional case it raises TypeError); every pair it returns verifies; it raises NoSuchPointError when r is no abscissa.", "quantifier": "every group of prime order, every secret, every hash value", "why_tests_cant": "The domain is infinite; a test only samples it.", "anchors": ["bitforge/utils/ecdsa.py:possible_public_pairs_for_signature"]}
{"id": "C77", "title": "ECDSA verification is the standard equation", "statement": "For a public pair on the curve, utils.ecdsa.verify returns True exactly when 1 <= r, s < n and the abscissa of (val/s)G + (r/s)Q is r mod n; r or s out of range give False; the only exception is TypeError, raised exactly when r and s are in range and the sum is INFINITY (boolean totality refuted); pairs off the curve raise NoSuchPointError.", "quantifier": "every group of prime order, every public pair, hash value and signature", "why_tests_cant": "The domain is infinite; a test only samples it.", "anchors": ["bitforge/utils/ecdsa.py:verify"]}
{"id": "C78", "title": "Master keys follow BIP32 for seeds of 32 bytes or more", "statement": "HDPrivateKey.from_seed(seed) returns, for a seed of at least 32 bytes, the livenet key whose secret and chain code are the halves of HMAC-SHA512('Bitcoin seed', seed), at depth 0, index 0, parent 0, with the fingerprint of its compressed public key; it raises InvalidSecret exactly when the left half is 0 or >= n, and ValueError for every shorter seed (BIP32 allows 16 bytes: refuted).", "quantifier": "every seed", "why_tests_cant": "The domain is infinite; a test only samples it.", "anchors": ["bitforge/hdprivkey.py:HDPrivateKey.from_seed"]}
{"id": "C79", "title": "The public half of an HD private key", "statement": "to_hd_public_key never raises for a valid key and returns the public key secret*G with the same chain code, depth, index, parent, network and fingerprint.", "quantifier": "every HD private key with a valid secret", "why_tests_cant": "The domain is infinite; a test only samples it.", "anchors": ["bitforge/hdprivkey.py:HDPrivateKey.to_hd_public_key", "bitforge/hdpubkey.py:HDPublicKey.from_hd_private_key"]}
{"id": "C80", "title": "Deterministic nonces follow RFC 6979", "statement": "deterministic_generate_k(n, secret, val) with SHA-256 returns exactly the nonce of RFC 6979 section 3.2 for the private key secret and the hash whose 32 bytes encode val, except when the truncated hash equals n, where RFC 6979 hashes 0 and the code hashes n (refuted there); the nonce is unique and in 1..n-1, and utils.ecdsa.sign on secp256k1 returns (r, s) with r the abscissa of k*G and s*k = val + secret*r mod n for that k.", "quantifier": "every group order, every secret below it, every 32-byte hash", "why_tests_cant": "The domain is infinite; a test only samples it.", "anchors": ["bitforge/utils/ecdsa.py:deterministic_generate_k", "bitforge/utils/ecdsa.py:sign"]}
{"id": "C81", "title": "Fiat conversion there and back is within one satoshi", "statement": "For |s| <= 21e14 and a finite float rate of magnitude between 2^-64 and 2^64, from_fiat(Unit(satoshis=s).at_rate(rate), rate) succeeds with s satoshis or one nearer to zero; it is not always s (refuted at s = 3, rate 350); a zero rate raises ZeroDivisionError.", "quantifier": "every amount in range, every rate in range", "why_tests_cant": "The domain is infinite; a test only samples it.", "anchors": ["bitforge/unit.py:Unit.from_fiat", "bitforge/unit.py:Unit.at_rate"]}
{"id": "C82", "title": "URI parsing reads the documented grammar", "statement": "For a text scheme:address[?query] or scheme://address[?query], with keys and values percent encoded and separated by & or ;, the object holds the address, and for each key the last non-empty value given: message, label and r as members and exactly the other keys in extras; an address key in the query is ignored.", "quantifier": "every text of the grammar", "why_tests_cant": "The domain is infinite; a test only samples it.", "anchors": ["bitforge/uri.py:URI.parse", "bitforge/uri.py:URI.__init__", "bitforge/uri.py:URI._build_from_dict"]}
{"id": "C83", "title": "URI writing and reading back", "statement": "For an object with a valid address, ASCII texts and extras that are not member names, to_uri returns bitcoin:address followed by one field per extra, amount and non-empty member, in increasing order of key; reading it back gives the same address, members and extras up to empty values, which are lost (refuted); an amount of 0 <= s < 10^12 satoshis comes back as s or s-1, larger ones do not (refuted at 1234567890123). to_uri raises exactly when a text is not ASCII.", "quantifier": "every such object", "why_tests_cant": "The domain is infinite; a test only samples it.", "anchors": ["bitforge/uri.py:URI.to_uri", "bitforge/uri.py:URI.__init__"]}
{"id": "C84", "title": "Decimal texts and floats", "statement": "float() accepts exactly the decimal numerals, inf, infinity and nan with blanks around; a numeral is read as the binary64 number nearest to it, or an infinity when out of range; str() of a finite float is a numeral within half a unit of the 12th significant digit.", "quantifier": "every text, every finite float", "why_tests_cant": "The domain is infinite; a test only samples it.", "anchors": ["bitforge/uri.py:URI.__init__", "bitforge/uri.py:URI.to_uri"]}
{"id": "C85", "title": "Amounts written as text", "statement": "A numeral for s satoshis with |s| < 2^52 given as bitcoins is read as s satoshis or one nearer to zero, not always s (refuted at 0.00000003); for 0 <= s < 10^12, to_uri writes a numeral for exactly s/10^8.", "quantifier": "every numeral, every amount in range", "why_tests_cant": "The domain is infinite; a test only samples it.", "anchors": ["bitforge/uri.py:URI.__init__", "bitforge/uri.py:URI.to_uri", "bitforge/unit.py:Unit"]}
{"id": "C86", "title": "WIF helpers of utils.encoding", "statement": "secret_exponent_to_wif writes the base58check text of prefix, 32-byte secret and 01 for compressed keys, raises ValueError exactly from 2^256 on, and treats negative numbers as 0 (injectivity refuted); wif_to_tuple_of_prefix_secret_exponent_compressed reads it back, and any other bytes after the secret (uniqueness refuted); is_valid_wif is decided exactly, and raises ValueError on short texts and UnicodeDecodeError on non-ASCII ones (totality refuted), and accepts secrets that are no key (refuted); on valid keys writing agrees with PrivateKey.to_wif, and PrivateKey.from_wif accepts exactly the canonical texts of secrets in range.", "quantifier": "every text, every integer, every list of prefixes", "why_tests_cant": "The domain is infinite; a test only samples it.", "anchors": ["bitforge/utils/encoding.py:is_hashed_base58_valid", "bitforge/utils/encoding.py:wif_to_tuple_of_prefix_secret_exponent_compressed", "bitforge/utils/encoding.py:wif_to_tuple_of_secret_exponent_compressed", "bitforge/utils/encoding.py:wif_to_secret_exponent", "bitforge/utils/encoding.py:is_valid_wif", "bitforge/utils/encoding.py:secret_exponent_to_wif"]}
{"id": "C87", "title": "Address helpers of utils.encoding", "statement": "bitcoin_address_to_hash160_sec_with_prefix reads exactly the base58check texts of 21 bytes starting with 00 or 6f and inverts hash160_sec_to_bitcoin_address; is_valid_bitcoin_address is decided exactly and raises UnicodeDecodeError for every 21-byte text whose version is 128 or more, so for every testnet script address (totality refuted); with both prefixes it returns True exactly on the texts Address.from_string reads as a PublicKey address; the texts agree with Address.to_string and with the address of a PublicKey.", "quantifier": "every text, every hash, every usable public key", "why_tests_cant": "The domain is infinite; a test only samples it.", "anchors": ["bitforge/utils/encoding.py:public_pair_to_hash160_sec", "bitforge/utils/encoding.py:hash160_sec_to_bitcoin_address", "bitforge/utils/encoding.py:bitcoin_address_to_hash160_sec_with_prefix", "bitforge/utils/encoding.py:bitcoin_address_to_hash160_sec", "bitforge/utils/encoding.py:public_pair_to_bitcoin_address", "bitforge/utils/encoding.py:is_valid_bitcoin_address"]}
{"id": "C88", "title": "Integers as bytes (utils.intbytes)", "statement": "to_bytes(v, length, order) has the given length and denotes v mod 256^length; from_bytes is its inverse; signed=True always raises (refuted as usable); int_to_bytes(v) is the only byte string without leading zero that denotes v >= 0, and the shortest, and empty for v <= 0; int_from_bytes inverts it and int_to_bytes after int_from_bytes strips exactly the leading zero bytes.", "quantifier": "every integer, length, byte string and byte order", "why_tests_cant": "The domain is infinite; a test only samples it.", "anchors": ["bitforge/utils/intbytes.py:to_bytes", "bitforge/utils/intbytes.py:from_bytes", "bitforge/utils/intbytes.py:int_to_bytes", "bitforge/utils/intbytes.py:int_from_bytes"]}
{"id": "C89", "title": "What PrivateKey.sign returns", "statement": "For a key whose public point has both coordinates below n, a message of 1 to 32 bytes and a random number k, sign returns the strict DER (BIP66) encoding of (r, s) with r the abscissa of k*G and 1 <= s <= (n-1)/2, s*k = +-(z + secret*r) mod n, a signature the key's point accepts for the number z of the message when r < n; it raises RuntimeError exactly when z + secret*r = 0 mod n; messages over 32 bytes raise BadDigestError, the empty one ValueError, a point with a coordinate >= n RuntimeError.", "quantifier": "every key, message and random number", "why_tests_cant": "The domain is infinite; a test only samples it.", "anchors": ["bitforge/privkey.py:PrivateKey.sign"]}
{"id": "C90", "title": "DER encoding of signatures", "statement": "For 0 <= r, s < 2^256 the encoder used by sign writes the unique DER text of (r, s), of 8 to 72 bytes, which with any hash type is strict in the sense of BIP66; the decoder used by verify inverts it, and accepts exactly the texts with BER lengths, padded integers and early ends, so accepting is not limited to DER (refuted); any other text gives the error determined by the first item that is missing, cut, negative or superfluous, and verify raises it.", "quantifier": "every pair of numbers, every byte string", "why_tests_cant": "The domain is infinite; a test only samples it.", "anchors": ["bitforge/privkey.py:PrivateKey.sign", "bitforge/privkey.py:PrivateKey.verify"]}
{"id": "C91", "title": "What PrivateKey.verify accepts", "statement": "verify(signature, message) returns True exactly when the signature decodes to (r, s) satisfying the ECDSA equation for the SHA-1 digest of the message; it never returns False: it raises BadSignatureError, or TypeError exactly when the sum is infinite; (r, s) and (r, n-s) are accepted alike.", "quantifier": "every key, byte string and message", "why_tests_cant": "The domain is infinite; a test only samples it.", "anchors": ["bitforge/privkey.py:PrivateKey.verify"]}
{"id": "C92", "title": "Signing then verifying", "statement": "verify(sign(m), m) is not True in general (refuted: sign takes m as a digest, verify hashes m with SHA-1 first); for the abscissa r of the random number in p-n..n-1, verify(sign(m), m') is True exactly when SHA-1(m') = m mod n or SHA-1(m') + m + 2*secret*r = 0 mod n; verify(sign(SHA-1(m)), m) is True whenever r < n.", "quantifier": "every key, message and random number", "why_tests_cant": "The domain is infinite; a test only samples it.", "anchors": ["bitforge/privkey.py:PrivateKey.sign", "bitforge/privkey.py:PrivateKey.verify"]}
{"id": "C93", "title": "A signed address input redeems its output", "statement": "When an AddressInput's can_sign accepts the key, the input signed by Transaction.sign consists of two pushes, a low-s strict DER signature with the hash type and a SEC key, where the key hashes to the address and the curve point of the key accepts the signature for the double SHA-256 of the standard signature message of that input; signing succeeds whenever z + secret*r is not 0 mod n.", "quantifier": "every transaction, address, key, index, hash type and random number", "why_tests_cant": "The domain is infinite; a test only samples it.", "anchors": ["bitforge/privkey.py:PrivateKey.sign", "bitforge/transaction/input.py:AddressInput.sign", "bitforge/transaction/transaction.py:Transaction.sign"]}
{"id": "C94", "title": "Multisig inputs: the order of the keys", "statement": "When the private keys are given in the order of the public keys, the signatures written by sign pass the rule of OP_CHECKMULTISIG (each signature matches a later key than the one before) for the signature message of the input; can_sign also accepts other orders, and there the signatures fail that rule (refuted in general; for two swapped keys they pass only if 2z + r(d1+d2) = 0 mod n).", "quantifier": "every transaction, list of keys, hash type and random numbers", "why_tests_cant": "The domain is infinite; a test only samples it.", "anchors": ["bitforge/transaction/input.py:ScriptInput.sign", "bitforge/transaction/input.py:MultisigInput.can_sign"]}
{"id": "C95", "title": "The interpreter runs one well-defined language", "statement": "For every word of flags, on scripts read from bytes (or with string pushes of at least 4 bytes) whose instructions can be written back (no PUSHDATA), every step of the interpreter is the step of a reference semantics of Bitcoin script in which exactly nine points are changed: truth looks at the first byte only, numeric operands have at most 3 bytes, DROP takes two items if there are two, ABS gives 1, HASH160 and NOP2 fail, the limit of 1000 items is checked at the end only, WITHIN ignores MINIMALDATA, and MINIMALDATA forbids every push of 1 to 75 bytes. verify accepts exactly the pairs of scripts of at most 10000 bytes that this language accepts, with a push-only first script if SIGPUSHONLY is set, and nothing if P2SH is set.", "quantifier": "every pair of scripts, every word of flags, every state, every instruction", "why_tests_cant": "The domain is infinite; a test only samples it.", "anchors": ["bitforge/script/interpreter.py:Interpreter.verify", "bitforge/script/interpreter.py:Interpreter.evaluate", "bitforge/script/interpreter.py:Interpreter.step"]}
{"id": "C96", "title": "The interpreter against Bitcoin", "statement": "For scripts without signature checks and every word of flags: an accepted pair with at most 333 instructions, without DROP and ABS, in which IF, NOTIF and IFDUP never test a true item starting with a zero byte, is valid in Bitcoin under the same flags; a pair valid in Bitcoin, of at most 10000 bytes each, without DROP, ABS, HASH160, CHECKMULTISIG(VERIFY) and NOP2, in which no tested or final item is a true one starting with a zero byte and no numeric operand has over 3 bytes, is accepted unless P2SH is set or MINIMALDATA is set and a push of data is executed. Both fail in general (refuted): each of IF, NOTIF, IFDUP, DROP, ABS alone allows accepted pairs that are invalid, so does passing 1000 items on the way, and each of DROP, ABS, HASH160, NOP2, a final item 0001, an operand of 4 bytes, the flag P2SH, and the flag MINIMALDATA with a push of two bytes allows valid pairs that are not accepted.", "quantifier": "every pair of scripts and every word of flags", "why_tests_cant": "The domain is infinite; a test only samples it.", "anchors": ["bitforge/script/interpreter.py:Interpreter.verify", "bitforge/script/interpreter.py:Interpreter.step", "bitforge/script/interpreter.py:Interpreter.cast_to_bool"]}
{"id": "C97", "title": "Equality of the library's objects", "statement": "Python 2's == on Network, PrivateKey, PublicKey, Address, HDPrivateKey, HDPublicKey, Instruction, Script, Input, Output and Transaction values is True exactly when all fields are the same, a byte string being the same as a bytearray or ASCII text of the same characters, and whatever the classes of scripts, inputs and outputs; it is reflexive, and symmetric where both sides answer (refuted: Opcode == Instruction is False, Instruction == Opcode raises AttributeError), not transitive over texts, strs and bytearrays (refuted). An Opcode equals exactly the Opcodes of its number, and is ordered by number among Opcodes and above everything else; != is the negation of == except on Opcodes, where it compares identity (refuted). Instruction == raises AttributeError against anything that is no Instruction.", "quantifier": "every pair of values", "why_tests_cant": "The domain is infinite; a test only samples it.", "anchors": ["bitforge/script/opcode.py:Opcode.__eq__", "bitforge/script/opcode.py:Opcode.__lt__", "bitforge/script/instruction.py:Instruction.__eq__", "bitforge/script/script.py:Script", "bitforge/transaction/transaction.py:Transaction", "bitforge/networks.py:Network"]}
{"id": "C98", "title": "Which objects can be hashed", "statement": "hash(v) succeeds exactly when no list and no bytearray is reachable in v, and raises TypeError otherwise; equal hashable values have equal hashes. No Network, key or Address can be hashed, Network holding a list of seeds (refuted); a Script read from bytes exactly when it has no data, one read from a text always, a Transaction exactly when all data of its scripts are strs; a hashable script can equal an unhashable one (refuted).", "quantifier": "every value, every hash function agreeing on ASCII", "why_tests_cant": "The domain is infinite; a test only samples it.", "anchors": ["bitforge/script/opcode.py:Opcode.__hash__", "bitforge/script/instruction.py:Instruction.__hash__", "bitforge/networks.py:Network", "bitforge/script/script.py:Script.from_bytes", "bitforge/script/script.py:Script.from_string"]}
{"id": "C99", "title": "The messages of exceptions", "statement": "Every exception class with a docstring builds exactly its documented message from arguments of its kind: strings as Python literals that read back to the string, with their length where documented, numbers as numerals, opcodes by number and name; each takes a fixed number of arguments and raises TypeError otherwise; classes without docstring cannot be raised; messages about strings and about numbers determine their argument; str() of an exception works whenever its arguments are ASCII, and always for strings. This fails for Opcodes without a name (KeyError in place of the exception, refuted), for UnknownNetwork with a non-ASCII str (UnicodeDecodeError, refuted) and, as str() of it, a non-ASCII text (refuted); UnknownNetwork does not determine its value (refuted). issubclass is reachability through the class statements: everything is a BitforgeError, exactly the classes nested in a class are its Errors, and each except clause of the constructors catches exactly what the model says; the exceptions modelled elsewhere as replaced by KeyError are exactly those whose message cannot be built.", "quantifier": "every class, every argument", "why_tests_cant": "The domain is infinite; a test only samples it.", "anchors": ["bitforge/errors.py:BitforgeError.__init__", "bitforge/errors.py:ObjectError", "bitforge/errors.py:StringError", "bitforge/errors.py:NumberError", "bitforge/errors.py:KeyValueError", "bitforge/encoding.py:InvalidHex", "bitforge/networks.py:UnknownNetwork", "bitforge/script/opcode.py:Opcode.WrongOpcodeType", "bitforge/script/instruction.py:Instruction.InvalidDataLength"]}
{"id": "C100", "title": "The texts of objects", "statement": "repr of an Opcode, Instruction, Script, Input, Output or Transaction shows numbers, names, hexadecimal data and fields in a fixed form and determines opcodes, instructions and scripts; it raises KeyError exactly when an opcode has no name (refuted as total). repr of a PrivateKey is its secret in hexadecimal and its network, of an HDPrivateKey contains the secret (hiding it is refuted), and does not tell compression (refuted); repr of a PublicKey or Address on a known network determines it; str and repr of a Unit determine the satoshis. Strings are written with Python's choice of quotes and escapes, printable, and read back.", "quantifier": "every well-formed object", "why_tests_cant": "The domain is infinite; a test only samples it.", "anchors": ["bitforge/script/opcode.py:Opcode.__repr__", "bitforge/script/instruction.py:Instruction.__repr__", "bitforge/script/script.py:Script.__repr__", "bitforge/privkey.py:PrivateKey.__repr__", "bitforge/pubkey.py:PublicKey.__repr__", "bitforge/address.py:Address.__repr__", "bitforge/unit.py:Unit.__repr__", "bitforge/uri.py:URI.__repr__"]}
{"id": "C101", "title": "Changes of a signature that verify does not see", "statement": "Under the public key of a secret, utils.ecdsa.verify has the same outcome for (r, s) and (r, n-s), and no third s is accepted with the same r when r + n >= p; under any key it depends on the value modulo n only; under the key with the opposite ordinate the same signatures are accepted for the opposite value; and for any key Q and numbers a and b (b invertible) with aG + bQ of abscissa X, the signature (X mod n, X/b mod n) is accepted for the value Xa/b, without the secret. sign produces every s (some value for each secret, nonce and s), so its s is not always the lower one (refuted by a published hash).", "quantifier": "every curve with a generator of prime order, every key, value and signature; secp256k1 for sign", "why_tests_cant": "The domain is infinite; a test only samples it.", "anchors": ["bitforge/utils/ecdsa.py:verify", "bitforge/utils/ecdsa.py:sign"]}
{"id": "C102", "title": "Nonces that reveal the secret key", "statement": "A signature and its nonce determine the secret by an explicit formula, and so do two signatures of different values (modulo n) with the same nonce. The nonce of sign depends on the value only through its low 256 bits once it exceeds the order, so for every value above the order of secp256k1 the signatures of val and val + 2^256 have the same r and give away the secret; a value between n and 2n is signed exactly as that value minus n.", "quantifier": "every secret, value, nonce; every order of 256 bits", "why_tests_cant": "The domain is infinite; a test only samples it.", "anchors": ["bitforge/utils/ecdsa.py:sign", "bitforge/utils/ecdsa.py:deterministic_generate_k"]}
{"id": "C103", "title": "Random keys are in range and uniform", "statement": "PrivateKey(None) draws its secret by rejection from the operating system's bytes: the secret is one more than the first draw below n-1, hence in the range [1, n-1]; for every number t of draws every secret in the range is given by the same number of sequences of t blocks of random bytes, so uniform bytes give a uniform secret; nothing else than the network can make it fail. A secret that is given is used as it is. HDPrivateKey.from_seed(None) is the master key of BIP32 for the 32 bytes drawn, or the error of from_seed; a seed that is given is used as it is.", "quantifier": "every sequence of random bytes, every number of bits drawn that can hold n-1", "why_tests_cant": "The domain is infinite; a test only samples it.", "anchors": ["bitforge/privkey.py:PrivateKey.__new__", "bitforge/privkey.py:random_secret", "bitforge/hdprivkey.py:HDPrivateKey.from_seed"]}
{"id": "C104", "title": "Transactions whose fields do not fit", "statement": "to_bytes writes every transaction as the one whose numbers are cut to their fields: a negative number as zero, any other modulo the field's size; a transaction is unchanged by that exactly when all its numbers fit, what is read back is the cut transaction, and the signature message is that of the cut one. to_bytes fails exactly with TypeError for a PUSHDATA or a data opcode without data, and with InvalidHex for an id that is not hexadecimal, the first in the order of the fields. So different amounts can have the same bytes (refuted), and an id of another length than 32 bytes gives the bytes of a transaction spending other outputs (refuted).", "quantifier": "every transaction, with numbers of any size and ids of any length", "why_tests_cant": "The domain is infinite; a test only samples it.", "anchors": ["bitforge/transaction/transaction.py:Transaction.to_bytes", "bitforge/transaction/input.py:Input.to_bytes", "bitforge/transaction/output.py:Output.to_bytes", "bitforge/encoding.py:encode_int"]}
{"id": "C105", "title": "What the example programs do", "statement": "example_pubkey.py and example_serial.py, as functions of the key, the id and index of the output spent, the amounts and the network: opening the wallet succeeds exactly for 64 hexadecimal digits of a number in [1, n-1], giving the key, the public key and the address of its compressed form, and fails with one of three errors otherwise; the serialised transaction has one input and one output with explicit bytes, reading its hexadecimal form and writing it again gives the same text, and the transaction read equals the one written exactly when the id was given in lower case; the signed transaction has at most 193 bytes, spends to the key's own address the amount less the fee, and carries a signature that the key accepts for the double SHA-256 of the explicit message. This holds for every nonce point with abscissa below n and key point with coordinates below n, unless z + secret*r = 0 mod n.", "quantifier": "every key text, id, index, amount, fee, network and nonce", "why_tests_cant": "The domain is infinite; a test only samples it.", "anchors": ["examples/example_pubkey.py", "examples/example_serial.py", "bitforge/transaction/transaction.py:Transaction.sign", "bitforge/transaction/transaction.py:Transaction.from_hex"]}
{"id": "C106", "title": "Curves and points as objects", "statement": "Point(curve, x, y, order) is accepted exactly when the curve is None or the numbers satisfy its equation, whatever the order (the order check never fails, and a wrong order changes the multiples: refuted), and raises TypeError or NoSuchPointError otherwise. == compares the identity of the curves and the coordinates, not the order, and is an equivalence; != and hash use identity (refuted as negation of == and as compatible with it); points whose coordinates differ by multiples of the modulus are not equal (refuted) and adding two such abscissas raises AssertionError, as does adding points of two curve objects, even with the same parameters (refuted). On one curve object over an odd prime field, +, double and * compute the chord-and-tangent sums and multiples, and are the functions used for keys and signatures; everything equal to INFINITY is neutral; a point without a curve that is not INFINITY can be built (refuted) and raises AttributeError when doubled. repr determines the parameters, coordinates and order, str the coordinates only (refuted), and the message of NoSuchPointError all numbers in it.", "quantifier": "every curve object, every coordinates, order and scalar", "why_tests_cant": "The domain is infinite; a test only samples it.", "anchors": ["bitforge/utils/ellipticcurve.py:Point.__init__", "bitforge/utils/ellipticcurve.py:Point.__eq__", "bitforge/utils/ellipticcurve.py:Point.__add__", "bitforge/utils/ellipticcurve.py:Point.__mul__", "bitforge/utils/ellipticcurve.py:Point.__rmul__", "bitforge/utils/ellipticcurve.py:Point.double", "bitforge/utils/ellipticcurve.py:Point.__repr__", "bitforge/utils/ellipticcurve.py:Point.__str__", "bitforge/utils/ellipticcurve.py:CurveFp"]}
{"id": "C107", "title": "What keys and addresses look like as text", "statement": "Address texts of livenet start with 1 (key hash, 26 to 34 characters) or 3 (script hash, 34 characters), those of testnet with m or n (34) or 2 (35); wallet import texts are 51 characters starting with 5 or 9, or 52 starting with K, L or c for compressed keys; hierarchical keys of 78 bytes are 111 characters starting with xpub, xprv, tpub or tprv. The first character of an accepted address or wallet import text alone determines network and type, or network and compression. A hierarchical text that is accepted need not start like that (refuted: bytes after the 78 are ignored). No text is accepted by two of Address.from_string, Address.from_hex, PrivateKey.from_wif, PrivateKey.from_hex, PublicKey.from_hex, HDPublicKey.from_string and HDPrivateKey.from_string.", "quantifier": "every text, key and address", "why_tests_cant": "The domain is infinite; a test only samples it.", "anchors": ["bitforge/address.py:Address.to_string", "bitforge/address.py:Address.from_string", "bitforge/privkey.py:PrivateKey.to_wif", "bitforge/privkey.py:PrivateKey.from_wif", "bitforge/hdprivkey.py:HDPrivateKey.from_string", "bitforge/hdpubkey.py:HDPublicKey.from_string", "bitforge/networks.py"]}
{"id": "C108", "title": "What a script can see", "statement": "An instruction other than DEPTH and DROP that succeeds does the same with any further items at the bottom of the stack, leaves them there, and one that fails for another reason than missing items still fails in the same way; a run without DEPTH keeps a lower part of them (DROP takes away a second item and so can reach them: refuted for DROP). So putting pushes in front of a spending script that is accepted never makes it rejected within the limits and without MINIMALDATA, when neither script contains DEPTH (refuted with DEPTH). A spending script of pushes only is accepted with a locking script exactly when the two written one after the other are accepted as a single script; with other instructions neither direction holds (refuted by the alternative stack and by the limit on operations). A pair of scripts that is accepted is accepted under any smaller set of flags.", "quantifier": "every state, item, script and flag word", "why_tests_cant": "The domain is infinite; a test only samples it.", "anchors": ["bitforge/script/interpreter.py:Interpreter.step", "bitforge/script/interpreter.py:Interpreter.evaluate", "bitforge/script/interpreter.py:Interpreter.verify"]}
{"id": "C109", "title": "How many bytes scripts and transactions take", "statement": "The length of every serialised script, input, output and transaction is given by a formula over its fields: an opcode takes one byte and its data as many as there are, a length or count takes 1, 3, 5 or 9 bytes, an input takes its script and 40 bytes besides, an output its script and 8. An output to an address takes 34 bytes, to a script hash 32, a data output 11 more than its data when that is at most 75 bytes and cannot be serialised at all from 76 to 80; a signed address input takes 44 bytes besides signature and key, so a transaction of n signed inputs with compressed keys to m addresses takes at most 8 + 149 n + 34 m bytes besides the two counts. A signed script input can be serialised exactly when its redeem script takes at most 75 bytes; so a multisig input with three or more keys never can (refuted). In the other direction, parsing builds no more than it reads: 41 bytes are read for each input and 9 for each output, besides one for each instruction and the data, and writing a parsed transaction never takes more bytes than it was read from.", "quantifier": "every script, input, output, transaction and byte string", "why_tests_cant": "The domain is infinite; a test only samples it.", "anchors": ["bitforge/transaction/transaction.py:Transaction.to_bytes", "bitforge/transaction/input.py:Input.to_bytes", "bitforge/transaction/output.py:Output.to_bytes", "bitforge/transaction/transaction.py:Transaction.from_bytes", "bitforge/script/script.py:Script.to_bytes", "bitforge/transaction/input.py:ScriptInput.sign"]}
{"id": "C110", "title": "A signed transaction can be changed by others", "statement": "In every transaction whose fields fit, a push of a DER signature (r, s) and a hash type inside an input's script of any class can be replaced, without any key, by the push of (r, n-s): the transaction stays serialisable, its bytes and so its id differ, and the messages of all other inputs' signatures stay the same. For an address input that PrivateKey.sign signed, the replaced signature is still valid for the same message and key, so the changed transaction still redeems the output; the signature that sign makes is the one with s in the lower half, and with that rule added, r and the key determine the two pushes (for r at least p-n). Different signatures at the same place always give different bytes, so signing the same input twice with nonces of different abscissas gives two transactions with different bytes.", "quantifier": "every transaction, input, key, nonce and signature", "why_tests_cant": "The domain is infinite; a test only samples it.", "anchors": ["bitforge/transaction/transaction.py:Transaction.sign", "bitforge/transaction/input.py:AddressInput.sign", "bitforge/privkey.py:PrivateKey.sign", "bitforge/utils/ecdsa.py:verify", "bitforge/transaction/transaction.py:Transaction.to_bytes"]}
{"id": "C111", "title": "Signing every input of a transaction", "statement": "Calling Transaction.sign for several inputs, one after the other: all the calls succeed exactly when each of them alone succeeds on the unsigned transaction; the result does not depend on their order; inputs that are not signed, outputs, lock time and version stay; and each signed input is what its own call alone makes of it. What each call signs is the message that the network hashes when it checks that input of the finished transaction, written out byte by byte: every input with an empty script, except that input with the script of the output it spends, and the hash type. For an address input that is the 25-byte script of its address, and the finished input's signature and key redeem an output to that address; for script and multisig inputs it is the redeem script, and the signatures match the keys in the order of OP_CHECKMULTISIG.", "quantifier": "every transaction, every number of inputs of all classes, all keys, nonces and hash types, every order of the calls", "why_tests_cant": "The domain is infinite; a test only samples it.", "anchors": ["bitforge/transaction/transaction.py:Transaction.sign", "bitforge/transaction/input.py:AddressInput.sign", "bitforge/transaction/input.py:ScriptInput.sign", "bitforge/transaction/input.py:Input.remove_script", "bitforge/transaction/transaction.py:Transaction.to_bytes"]}
{"id": "C112", "title": "Which scripts can never be spent", "statement": "The opcodes that no executing state passes are exactly RESERVED, VER, VERIF, VERNOTIF, RETURN, RESERVED1 and 2, the fifteen disabled ones, HASH160, CHECKSIG, CHECKSIGVERIFY, CHECKLOCKTIMEVERIFY and those past NOP10; the ones that no state at all passes are exactly VERIF, VERNOTIF and the disabled ones. A balanced part of a script leaves the conditions as they were. So a locking script that meets such an opcode at the top level, or in both branches of a conditional (nested to any depth), is never accepted, whatever the spending script and the flags (in one branch only: refuted). The same holds for a script with an opcode of the second kind or a push of more than 520 bytes anywhere, with more than 201 operations, with unbalanced conditionals, or of more than 10000 bytes. No script made for an address, a script hash or data is ever accepted by the library's own interpreter, and a script made by RedeemMultisig.create can be spent exactly when it asks for 0 signatures.", "quantifier": "every opcode, state, script, spending script and flag word", "why_tests_cant": "The domain is infinite; a test only samples it.", "anchors": ["bitforge/script/interpreter.py:Interpreter.step", "bitforge/script/interpreter.py:Interpreter.evaluate", "bitforge/script/interpreter.py:Interpreter.verify", "bitforge/script/script.py:PayToPubkeyOut.create", "bitforge/script/script.py:PayToScriptOut.create", "bitforge/script/script.py:OpReturnOut.create", "bitforge/script/script.py:RedeemMultisig.create"]}
{"id": "C113", "title": "Where serialised things end, and what is never confused", "statement": "The formats of lengths, scripts with their length, inputs, outputs, transactions, public keys and DER signatures are self-delimiting: two readings of the beginning of the same bytes take the same bytes and give the same thing, so none is a proper prefix of another (a script without its length is not self-delimiting: refuted). So a concatenation of transactions determines how many there are and which, a concatenation that continues another starts with the same transactions, and reading inputs, outputs or transactions repeatedly from one buffer returns exactly those it starts with and leaves the rest; what was written one after the other is read back so. The message that is hashed for a signature never equals the serialisation of a transaction, and if it starts with one, what follows is the hash type in four bytes; this needs ids of 32 bytes: with an id of another length, which Input accepts, a transaction can be made whose bytes, and so whose id, are the message signed for another (refuted without).", "quantifier": "every length, script, input, output, transaction, key, signature, list of them, and bytes after them", "why_tests_cant": "The domain is infinite; a test only samples it.", "anchors": ["bitforge/transaction/transaction.py:Transaction.to_bytes", "bitforge/transaction/transaction.py:Transaction.from_bytes", "bitforge/transaction/transaction.py:Transaction.sign", "bitforge/transaction/input.py:Input.from_buffer", "bitforge/transaction/output.py:Output.from_buffer", "bitforge/encoding.py:encode_varint", "bitforge/tools.py:Buffer"]}
{"id": "C114", "title": "Replacing a part of a script by another that does the same", "statement": "If part b succeeds wherever part a does, with the same stacks and conditions and without counting more operations, b can replace a anywhere in a script: whatever the whole script did it still does, and a pair of scripts that verify accepts is still accepted, under all flags, if the new one can be written in 10000 bytes and obeys SIGPUSHONLY. This holds both ways, while there is room for operations, for NOP and nothing; EQUAL VERIFY, NUMEQUAL VERIFY and CHECKMULTISIG VERIFY and the single opcodes; SWAP before a symmetric operation; comparisons and their converses and negations; NOT NOT and 0NOTEQUAL; NEGATE before ADD, SUB, ABS, NOT and 0NOTEQUAL; 1 ADD, 1 SUB; 0 PICK and DUP, 1 PICK and OVER, 1 ROLL and SWAP, 2 ROLL and ROT; and it holds one way only (the other refuted) for TOALTSTACK FROMALTSTACK, SWAP SWAP, 0 ROLL and nothing, and SWAP SUB NEGATE and SUB. NEGATE NEGATE cannot be left out (refuted). Two sequences of stack words do the same on all stacks exactly when they do on the numbered stacks of at most six times their length; so OVER OVER is 2DUP and SWAP OVER is TUCK. DUP 2DROP and DUP EQUALVERIFY each take one item away and do nothing else; with DROP instead, SWAP DROP is not NIP, DROP DROP is not 2DROP and DUP DROP is not nothing (refuted).", "quantifier": "every script around the part, every state, stack, flag word, and sequence of stack words", "why_tests_cant": "The domain is infinite; a test only samples it.", "anchors": ["bitforge/script/interpreter.py:Interpreter.step", "bitforge/script/interpreter.py:Interpreter.evaluate", "bitforge/script/interpreter.py:Interpreter.verify"]}
{"id": "C115", "title": "Arithmetic of keys", "statement": "On every curve that the signature theorems cover, with the library's own point operations: the public pair of a + b is the sum of the pairs of a and b (no pair exactly for multiples of the order), the pair of n - a has the same x and the y mirrored, two pairs have the same x only for a secret and its negative, the pair of a times e is e times the pair, and a times the pair of b is b times the pair of a (a shared secret, never infinite). For PrivateKey and PublicKey objects: adding secrets modulo the order adds the public points (the point at infinity exactly when they sum to the order), the compressed bytes of the keys d and n - d differ in the first byte only, and keys with equal x have secrets d and d or n - d. Public derivation of HD keys agrees with the private derivation of BIP 32: the child that HDPublicKey.derive returns is the public point of parse256(IL) + secret modulo the order, for the index that it uses (that of the parent, see C64), although the library's private derivation fails.", "quantifier": "every curve and generator of prime order without points of order two, every secrets; every key; every HD key and index", "why_tests_cant": "The domain is infinite; a test only samples it.", "anchors": ["bitforge/utils/ecdsa.py:public_pair_for_secret_exponent", "bitforge/utils/ellipticcurve.py:Point.__add__", "bitforge/utils/ellipticcurve.py:Point.__mul__", "bitforge/pubkey.py:PublicKey.from_private_key", "bitforge/hdpubkey.py:HDPublicKey.derive"]}
{"id": "C116", "title": "Every point of the curve is a public key", "statement": "secp256k1 has exactly n points, with the point at infinity, and each is a multiple of the generator by exactly one number below n (proved for every curve without points of order two whose generator has prime order n with 2p + 1 < 3n, by counting cosets). So every pair that PublicKey or PublicKey.from_bytes accepts, with coordinates below p, is the public key of exactly one private key (without that bound: refuted); exactly (n-1)/2 numbers are x coordinates; n times any point is infinity, so no check of the order could reject a point on the curve. A signature verifies for a public pair exactly when signing the same number with the pair's secret and some nonce gives it (r taken modulo n), and possible_public_pairs_for_signature, where it returns, lists every key for which the signature verifies, unless r + n is also an x coordinate.", "quantifier": "every point, public key, byte string, number signed and signature; every such curve", "why_tests_cant": "The domain is infinite; a test only samples it.", "anchors": ["bitforge/utils/secp256k1.py", "bitforge/utils/ellipticcurve.py:Point.__mul__", "bitforge/pubkey.py:PublicKey.__new__", "bitforge/pubkey.py:PublicKey.from_bytes", "bitforge/pubkey.py:PublicKey.from_private_key", "bitforge/utils/ecdsa.py:verify", "bitforge/utils/ecdsa.py:sign", "bitforge/utils/ecdsa.py:possible_public_pairs_for_signature"]}
{"id": "C117", "title": "What a signature determines", "statement": "For utils.ecdsa.verify, on every curve that the signature theorems cover: with the nonce point of abscissa r and nonce k, a signature (r, s) verifies for a key and a value exactly when s k is val + d r or its negative modulo n. So, when no two x coordinates are r modulo n (for secp256k1: always for r >= p - n; refuted without the condition), one key accepts one signature for exactly two values modulo n, val and -val - 2 d r, and one value and signature are accepted under the keys d and d' with r (d + d') = -2 val only, the second key existing unless 2 val + d r = 0. Conversely every pair (r, s) with r an x coordinate is a valid signature of any value under some key, and for any two values that are neither equal nor opposite modulo n there are a PrivateKey and one signature that verifies for both under its public key: a signature does not determine the message or the key.", "quantifier": "every curve and generator of prime order without points of order two, every secret, value, nonce and signature; every two values and network for PrivateKey", "why_tests_cant": "The domain is infinite; a test only samples it.", "anchors": ["bitforge/utils/ecdsa.py:verify", "bitforge/utils/ecdsa.py:sign", "bitforge/utils/ecdsa.py:public_pair_for_secret_exponent", "bitforge/pubkey.py:PublicKey.from_private_key"]}
{"id": "C118", "title": "Where the items on the stacks come from", "statement": "In every state that Interpreter reaches, every item on the two stacks is made from the items at the start and the data of the instructions executed so far: it is one of these, or has at most four bytes, or is obtained by applying RIPEMD160, SHA1, SHA256 and double SHA256 to such. A script with pushes only leaves data of its own instructions and strings of at most four bytes. So a locking script that starts with a hash operation, the push of a digest and EQUALVERIFY (or ends with EQUAL there) is spent only by scripts that push a preimage of the digest, unless the preimage is itself a digest or at most four bytes long; with the flag SIGPUSHONLY only the latter exception remains; and a literal compared at the start is found in the spending script in the same way. The lock of a hash operation, a push and EQUAL accepts exactly the spending scripts that run without failure and leave a preimage uppermost, without the flags P2SH and MINIMALDATA, and pushing only under SIGPUSHONLY.", "quantifier": "every state, script, spending and locking script, digest, hash operation and flag word", "why_tests_cant": "The domain is infinite; a test only samples it.", "anchors": ["bitforge/script/interpreter.py:Interpreter.step", "bitforge/script/interpreter.py:Interpreter.evaluate", "bitforge/script/interpreter.py:Interpreter.verify"]}
{"id": "C119", "title": "What ids, addresses and signatures bind", "statement": "No hash function is injective, so each statement ends in: or two strings that are named collide. Two transactions whose fields fit and whose get_id is the same agree in everything but the classes and the case of hex, or their serialisations collide under SHA256 or their SHA256 images do. Going back from two such transactions through inputs with the same numbers, as far as one likes, one finds the same transactions, or at some step two whose serialisations collide; this holds for ids as the network writes them and for what get_id returns. Two inputs whose signed digests are equal spend the same way (version, lock time, outputs, ids, sequence numbers, hash type, and the script of the input), or the messages collide; then their histories agree too. A signature that is valid for the messages of two inputs under one key either signs the same spending, or the messages collide, or the digests as numbers differ by exactly the order of the group, or their sum is -2 d r modulo it. Two private keys whose addresses have the same text are the same key with the same network and form, or their serialised public keys collide under SHA256 or RIPEMD160 after it; two scripts with the same address text are the same and on the same network, or their bytes collide; no key and script have the same address text.", "quantifier": "every two transactions, numbers of inputs, ancestors at any distance, keys, scripts, networks and signatures", "why_tests_cant": "The domain is infinite; a test only samples it.", "anchors": ["bitforge/transaction/transaction.py:Transaction.get_id", "bitforge/transaction/transaction.py:Transaction.to_bytes", "bitforge/transaction/transaction.py:Transaction.sign", "bitforge/address.py:Address.from_public_key", "bitforge/address.py:Address.from_script", "bitforge/privkey.py:PrivateKey.to_address"]}
{"id": "C120", "title": "How many keys, addresses and signatures there are", "statement": "With n the order of secp256k1: exactly n-1 byte strings are accepted by PrivateKey.from_bytes, 4(n-1) texts by PrivateKey.from_wif, 4*2^160 texts by Address.from_string; the private keys have 4(n-1) different public keys, which are written as 2(n-1) byte strings. For every point of the curve and every number, between n-9 and n-1 pairs (r, s) are valid signatures: every nonce gives a different one, and at most eight nonces give none (for utils.ecdsa.verify on every curve that the theorems of C116 cover). Since there are more keys than hashes, on each network and in each form some address is that of at least 2^96 secrets, some script address that of at least 2^440 scripts that push 75 bytes, and for every transaction some id is that of at least 2^64 transactions which differ from it only in the lock time and in what the first input spends. So an address does not determine the key, nor an id the transaction (refuted).", "quantifier": "every byte string and text; every public key and number; every network and form of key; every transaction whose fields fit", "why_tests_cant": "The domain is infinite; a test only samples it.", "anchors": ["bitforge/privkey.py:PrivateKey.from_bytes", "bitforge/privkey.py:PrivateKey.from_wif", "bitforge/address.py:Address.from_string", "bitforge/pubkey.py:PublicKey.to_bytes", "bitforge/utils/ecdsa.py:verify", "bitforge/privkey.py:PrivateKey.to_address", "bitforge/address.py:Address.from_script", "bitforge/transaction/transaction.py:Transaction.get_id"]}
{"id": "C121", "title": "Formulas as scripts", "statement": "Arithmetic formulas over the stack items (constants, items, +1, -1, negation, not, nonzero, addition, subtraction, and, or, six comparisons, min, max, within, choice) are translated to scripts with PICK, arithmetic opcodes and IF/ELSE/ENDIF. Running the translation leaves the stack with exactly one more item, the script number of the formula's value, and fails exactly when the value is undefined: an item is missing or an operand has more than 3 bytes. The script that demands a formula to be nonzero is unlocked by pushed items exactly when the value is defined, has at most 3 bytes and is not 0. In Bitcoin the same holds with 4 bytes, so what the interpreter accepts Bitcoin accepts, but not conversely. Any set of up to 40 numbers can be demanded of an item in this way.", "quantifier": "every formula with at most 200 operations, constants below 2^31 and a stack that stays within 1000 items; every stack; all flags but P2SH and MINIMALDATA", "why_tests_cant": "The domain is infinite; a test only samples it.", "anchors": ["bitforge/script/interpreter.py:Interpreter.step", "bitforge/script/interpreter.py:Interpreter.evaluate", "bitforge/script/interpreter.py:Interpreter.verify"]}
{"id": "C122", "title": "Spending policies as scripts", "statement": "Policies made with and and or from leaves that ask of one item that its RIPEMD160, SHA1, SHA256 or double SHA256 is given, or that a formula of it (C121) is not zero, are translated to scripts with VERIFY between the parts of an and, and IF/ELSE/ENDIF with a deciding item for an or. Interpreter.verify accepts pushed items for the translation exactly when they satisfy the policy in order. So whatever is accepted contains, for enough leaves to make the policy true, an item that satisfies each (every preimage on the path taken is revealed); and whoever knows such items can make an accepted script from them and the items 00 and 01, which Bitcoin accepts too. What one can spend is therefore exactly the policy read as a boolean formula over what one knows. Whatever the interpreter accepts, Bitcoin accepts from the same items and 00 and 01, but not always as given, since the two read the deciding item differently (refuted).", "quantifier": "every policy with at most 201 operations, digests of 2 to 75 bytes and items of 1 to 75 bytes; every such list of items; every set of known items; all flags but P2SH and MINIMALDATA", "why_tests_cant": "The domain is infinite; a test only samples it.", "anchors": ["bitforge/script/interpreter.py:Interpreter.step", "bitforge/script/interpreter.py:Interpreter.evaluate", "bitforge/script/interpreter.py:Interpreter.verify"]}
{"id": "C123", "title": "Amounts keep their order and sign", "statement": "For amounts given as int or float, in satoshis, bits, mBTC or BTC: of two accepted amounts the larger one never has fewer satoshis; the opposite amount is accepted too and has the opposite number of satoshis; an int and a float of the same value (and 0.0 and -0.0) give the same Unit. The same order holds for amounts written as decimal texts. More satoshis at a higher rate are never worth less (at_rate), and more money at a lower rate never buys fewer satoshis (from_fiat). Strictly the order is not kept: 0.00000002 and 0.00000003 BTC both become 2 satoshis (refuted with witness).", "quantifier": "every two accepted amounts, rates and decimal texts, in every denomination", "why_tests_cant": "The domain is infinite; a test only samples it.", "anchors": ["bitforge/unit.py:Unit.__init__", "bitforge/unit.py:Unit._set_values", "bitforge/unit.py:Unit.from_fiat", "bitforge/unit.py:Unit.at_rate"]}
{"id": "C124", "title": "How many items a script needs and leaves", "statement": "A table gives for every opcode, except IFDUP, DROP, CHECKMULTISIG, CHECKMULTISIGVERIFY, the four of conditionals and those that no script passes, how many items it needs on each stack and by how many it changes each. An executed step that succeeds had what the table says it needs and changes the depths exactly as the table says; with what it needs, a step (other than PICK and ROLL) never fails for want of items. Scripts whose depths can be counted, with conditionals whose two branches leave the same depths, leave exactly the counted depths whatever the items are, change nothing when skipped, and started with the counted depths never fail for want of items, an unbalanced conditional or a missing result; so does verify for a spending and a locking script that fit together. A sequence of table opcodes has a least number of items: no script that begins with it succeeds with fewer, with as many it can be counted, and a spending script of pushes that is accepted for a locking script that begins with it has at least so many instructions. IFDUP and DROP change the depth by no fixed number (refuted; DROP takes two items when there are two).", "quantifier": "every script, stack, item and flag word", "why_tests_cant": "The domain is infinite; a test only samples it.", "anchors": ["bitforge/script/interpreter.py:Interpreter.step", "bitforge/script/interpreter.py:Interpreter.evaluate", "bitforge/script/interpreter.py:Interpreter.verify"]}
{"id": "C125", "title": "Keys with the same ordinate", "statement": "With lambda and beta two fixed cube roots of 1, modulo the order n of secp256k1 and modulo its field size p: the public pair of lambda d is (beta x mod p, y) when that of d is (x, y). So of two private keys of the library the public keys have the same y exactly when the secrets are d and one of d, lambda d, lambda^2 d modulo n, and abscissas with the same cube exactly when they are one of these or its opposite; the six are different. The three secrets add up to 0 modulo n, and the sum of two of the points is the third with the opposite y. Two signatures by one secret whose abscissas have the same cube modulo p come from nonces k and c k with c one of the six multipliers, and satisfy a linear equation that determines the secret whenever its coefficient is invertible: reusing a nonce up to sign and lambda reveals the key as reusing it does.", "quantifier": "every private key and network; every two keys; every secret, two values, two nonces and their signatures", "why_tests_cant": "The domain is infinite; a test only samples it.", "anchors": ["bitforge/utils/secp256k1.py", "bitforge/pubkey.py:PublicKey.from_private_key", "bitforge/utils/ellipticcurve.py:Point.__mul__", "bitforge/utils/ecdsa.py:sign"]}
{"id": "C126", "title": "Every rearrangement of the stack is a script", "statement": "For every list of numbers below n there is a script of numbers, PICK, ROLL, DUP and 2DROP that replaces the n uppermost items by the items with these numbers, in this order, with repetitions and omissions as listed, and leaves those below as they are; with m numbers it counts m + 3n operations and takes at most six times as many bytes, and Bitcoin runs it with the same result under all flags. So a locking script can be changed to take its items in any order: with the rearranging script in front it accepts exactly the supplied items whose rearrangement it accepted before. Conversely a sequence of the twelve stack words either fails on all stacks of a given depth, or does one rearrangement, the same for all stacks of this depth.", "quantifier": "every list of numbers and stack within the limits of 201 operations and 1000 items; every locking script without CHECKMULTISIG; every sequence of stack words; all flags but MINIMALDATA", "why_tests_cant": "The domain is infinite; a test only samples it.", "anchors": ["bitforge/script/interpreter.py:Interpreter.step", "bitforge/script/interpreter.py:Interpreter.evaluate", "bitforge/script/interpreter.py:Interpreter.verify"]}
{"id": "C127", "title": "Every finite table is a script", "statement": "For every table whose rows give results for n arguments there is a script (PICK, EQUAL, BOOLAND, IF/ELSE/ENDIF and RETURN) that replaces the n uppermost items by the results of the first row with these arguments, leaves those below as they are, and fails exactly when there is no such row; it counts (5n + 3) operations for each row and one more, its length is bounded by the number of operations and results, and Bitcoin runs it with the same result. So for every finite list of spendings of n items there is a locking script, within the limits, for which verify accepts n pushed items exactly when they are in the list, and Bitcoin accepts the same.", "quantifier": "every table with items of 1 to 75 bytes within the limits of 201 operations, 10000 bytes and 1000 items; every stack; every list of spendings; all flags but P2SH (for the locks) and MINIMALDATA", "why_tests_cant": "The domain is infinite; a test only samples it.", "anchors": ["bitforge/script/interpreter.py:Interpreter.step", "bitforge/script/interpreter.py:Interpreter.evaluate", "bitforge/script/interpreter.py:Interpreter.verify"]}
{"id": "C128", "title": "Locking scripts can be joined, leaving the choice to the spender", "statement": "Any list of locking scripts with balanced conditionals can be joined by IF, ELSE and ENDIF to one. Pushed items are accepted by verify for the joined script exactly when the uppermost ones, read as truth values, choose one of the scripts and those under them are accepted for that one: ys, then 01, then i times 00 is accepted exactly when there is a script number i and ys is accepted for it. So the joined script accepts what some part accepts, and nothing else; it counts three operations for each part and one more. Bitcoin runs the joined script in the same way, with its own reading of truth values, and so agrees on items 00 and 01. The joined script can be joined again. A balanced part behaves under true conditions as alone, whatever it does to the stacks, and is passed over with no effect but on the count of operations under a false one.", "quantifier": "every list of scripts without CHECKMULTISIG, disabled opcodes, VERIF and VERNOTIF and with at most 201 operations together; every list of pushed items of 1 to 75 bytes; all flags but MINIMALDATA", "why_tests_cant": "The domain is infinite; a test only samples it.", "anchors": ["bitforge/script/interpreter.py:Interpreter.step", "bitforge/script/interpreter.py:Interpreter.evaluate", "bitforge/script/interpreter.py:Interpreter.verify"]}
{"id": "C129", "title": "Repeated derivation of HD public keys", "statement": "HDPublicKey.derive, called for one index after the other: the key and chain code reached by the indices p and then i are exactly those that BIP 32 derives from the first key along the path that begins with the index recorded in it and goes on with p; it succeeds exactly when no point on this path is infinite. So the library is one index behind: the last index has no influence but on the index recorded, and two calls that differ in it only give the same key, chain code and fingerprint. The depth grows by the number of calls, the network stays. The secret of the key reached is the secret of the first plus a number modulo the order, and this number is determined by public data: whoever knows the extended public key and the secret of any key derived from it can compute the secret of the first; and the owner of an HD private key has the secrets of all keys derived from its public half, as keys of the library. What from_string accepts is on the curve if its x is below p.", "quantifier": "every HD public key whose point is on the curve; every list of indices; every secret; every HD private key", "why_tests_cant": "The domain is infinite; a test only samples it.", "anchors": ["bitforge/hdpubkey.py:HDPublicKey.derive"]}
{"id": "C130", "title": "Locking scripts can be joined to one that demands all of them", "statement": "Any list of locking scripts can be joined to one, in which the items for the scripts that come later wait on the alternate stack and VERIFY tests each result. If each of the scripts leaves a single item on the items it is given, Interpreter.verify accepts the pushed items, one group after the other, for the joined script exactly when it accepts each group for its script; for two scripts no condition is put on what the second leaves, and it may use the alternate stack. Bitcoin runs the joined scripts in the same way. In general the second script is run on its own items over those which the first leaves under its result; without the condition the statement is false: the first script can leave an item that satisfies the second (refuted). The joined script can be joined again, as an alternative or in the second place; joining two with m items for the second costs 2m + 1 operations.", "quantifier": "every list of scripts with balanced conditionals and without CHECKMULTISIG and (but for the second of two) the alternate stack, within the limits of 201 operations, 10000 bytes and 1000 items; every list of pushed items of 1 to 75 bytes; all flags but MINIMALDATA", "why_tests_cant": "The domain is infinite; a test only samples it.", "anchors": ["bitforge/script/interpreter.py:Interpreter.step", "bitforge/script/interpreter.py:Interpreter.evaluate", "bitforge/script/interpreter.py:Interpreter.verify"]}
{"id": "C131", "title": "Which error is reported", "statement": "The Address constructor fails exactly for an unknown network, then for a type that is no address type, then for a hash that has not 20 bytes, and says so in this order; from_hex reports InvalidHex exactly for text that is no hex, and otherwise what from_bytes reports. The interpreter: CHECKLOCKTIMEVERIFY reports a negative lock time exactly when the operand of at most four bytes is negative and an unsatisfied one otherwise, or discouraged no-operations if both flags are set; CHECKMULTISIG reports PUBKEY_COUNT for a key count outside 0 to 20, then OP_COUNT if the keys exceed the 201 operations, SIG_COUNT for a signature count outside 0 to the key count, and NULLDUMMY for an item that is not empty under no signatures when the flag is set; under MINIMALDATA a push of 1 to 75 bytes reports MINIMALDATA exactly when the data is a str of one byte that has its own opcode, and raises AttributeError otherwise; evaluate reports STACK_SIZE exactly when the script runs through and leaves more than 1000 items.", "quantifier": "every argument of the constructor and of from_hex; every state in which instructions are executed, every stack and all flags", "why_tests_cant": "The domain is infinite; a test only samples it.", "anchors": ["bitforge/address.py:Address.__new__", "bitforge/address.py:Address.from_hex", "bitforge/script/interpreter.py:Interpreter.step", "bitforge/script/interpreter.py:Interpreter.evaluate"]}
