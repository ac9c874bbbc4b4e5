(** Tests (not proofs) of the transcribed hash functions against published vectors. *)
From Verif Require Import Base M_Hash.

Definition abc : bytes := [x61; x62; x63].

(** FIPS 180-4: SHA-256("abc") = ba7816bf...f20015ad *)
Example sha256_abc : be_word (sha256 abc)
  = 0xba7816bf8f01cfea414140de5dae2223b00361a396177a9cb410ff61f20015ad.
Proof. vm_compute. reflexivity. Qed.
(** two blocks: "abcdbcdecdefdefgefghfghighijhijkijkljklmklmnlmnomnopnopq" *)
Example sha256_two_blocks :
  be_word (sha256 (flat_map (fun i => map (fun j => Zb (97 + i + j)) [0;1;2;3]) (map Z.of_nat (seq 0 14))))
  = 0x248d6a61d20638b8e5c026930c3e6039a33ce45964ff2167f6ecedd419db06c1.
Proof. vm_compute. reflexivity. Qed.
Example sha1_abc : be_word (sha1 abc) = 0xa9993e364706816aba3e25717850c26c9cd0d89d.
Proof. vm_compute. reflexivity. Qed.
Example ripemd160_abc : be_word (ripemd160 abc) = 0x8eb208f7e05d987a9b044a8e98c6b087f15a0bfc.
Proof. vm_compute. reflexivity. Qed.
Example sha512_abc : be_word (sha512 abc) =
  0xddaf35a193617abacc417349ae20413112e6fa4e89a97ea20a9eeee64b55d39a2192992a274fc1a836ba3c23a3feebbd454d4423643ce80e2a9ac94fa54ca49f.
Proof. vm_compute. reflexivity. Qed.
(** RFC 4231 test case 2: key "Jefe", data "what do ya want for nothing?" *)
Definition jefe : bytes := [x4a; x65; x66; x65].
Definition what : bytes :=
  [x77;x68;x61;x74;x20;x64;x6f;x20;x79;x61;x20;x77;x61;x6e;x74;x20;x66;x6f;x72;x20;
   x6e;x6f;x74;x68;x69;x6e;x67;x3f].
Example hmac_sha256_rfc4231 : be_word (hmac_sha256 jefe what)
  = 0x5bdcc146bf60754e6a042426089575c75a003f089d2739839dec58b964ec3843.
Proof. vm_compute. reflexivity. Qed.
Example hmac_sha512_rfc4231 : be_word (hmac_sha512 jefe what) =
  0x164b7a7bfcf819e2e395fbe73b56e0a387bd64222e831fd610270cd7ea2505549758bf75c05a994a6d034f65f8f0e6fdcaeab1a34d4a6b4b636e070a38bce737.
Proof. vm_compute. reflexivity. Qed.
