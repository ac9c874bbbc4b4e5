(** Tests (not proofs) of the model against the test suite of /repo: every assertion of
    tests/*.py and tests/script/*.py, with the data of tests/data/valid_wifs.json and
    invalid_wifs.json, read as text.  Where a test draws random keys, fixed keys are used.
    Each test is a boolean that is computed when this file is compiled and must be [true]. *)
From Coq Require Import String SpecFloat.
From Verif Require Import Base M_Hash M_Codec M_Keys M_EC M_Script M_Interp M_Tx M_Unit M_URI M_Show.
Open Scope Z_scope.

Definition ok_is {A} (f : A -> bool) (r : res A) : bool := match r with Ok a => f a | Err _ => false end.
Definition text_is (t : bytes) (r : res bytes) : bool := ok_is (bytes_eqb t) r.
Definition net_is (a b : network) : bool := bytes_eqb (n_name a) (n_name b).
Definition addr_type_is (a b : addr_type) : bool := match a, b with T_PublicKey, T_PublicKey | T_Script, T_Script => true | _, _ => false end.
(** exceptions without arguments *)
Definition exn_is (a b : exn) : bool :=
  match a, b with
  | E_ValueError, E_ValueError | E_Priv_InvalidSecret, E_Priv_InvalidSecret | E_Priv_UnknownNetwork, E_Priv_UnknownNetwork
  | E_Priv_InvalidWifLength, E_Priv_InvalidWifLength | E_Priv_InvalidCompressionByte, E_Priv_InvalidCompressionByte
  | E_Priv_InvalidBase58h, E_Priv_InvalidBase58h | E_Priv_InvalidHex, E_Priv_InvalidHex | E_Priv_InvalidBinaryLength, E_Priv_InvalidBinaryLength
  | E_Pub_InvalidPair, E_Pub_InvalidPair | E_Pub_UnknownNetwork, E_Pub_UnknownNetwork | E_Pub_InvalidBinary, E_Pub_InvalidBinary | E_Pub_InvalidHex, E_Pub_InvalidHex
  | E_Addr_UnknownNetwork, E_Addr_UnknownNetwork | E_Addr_InvalidVersion, E_Addr_InvalidVersion | E_Addr_InvalidBase58h, E_Addr_InvalidBase58h
  | E_Addr_InvalidHex, E_Addr_InvalidHex | E_Addr_InvalidHashLength, E_Addr_InvalidHashLength | E_Addr_InvalidBinaryLength, E_Addr_InvalidBinaryLength
  | E_Addr_InvalidType, E_Addr_InvalidType | E_Op_UnknownOpcodeNumber, E_Op_UnknownOpcodeNumber | E_Op_UnknownOpcodeName, E_Op_UnknownOpcodeName
  | E_Op_InvalidConstPushLength, E_Op_InvalidConstPushLength | E_Op_InvalidPushLength, E_Op_InvalidPushLength | E_Op_WrongOpcodeType, E_Op_WrongOpcodeType
  | E_InsufficientData _ _, E_InsufficientData _ _ | E_Scr_MissingPushArguments, E_Scr_MissingPushArguments | E_Scr_InvalidPushData, E_Scr_InvalidPushData
  | E_Scr_InvalidPushDataLength, E_Scr_InvalidPushDataLength | E_Scr_UnknownOpcodeName, E_Scr_UnknownOpcodeName
  | E_Tx_NoInputs, E_Tx_NoInputs | E_Tx_NoOutputs, E_Tx_NoOutputs | E_Tx_InvalidLockTime, E_Tx_InvalidLockTime | E_Out_TooMuchData, E_Out_TooMuchData => true
  | _, _ => false
  end.
(** PrivateKey.Error *)
Definition priv_error (e : exn) : bool :=
  match e with
  | E_Priv_InvalidSecret | E_Priv_UnknownNetwork | E_Priv_InvalidWifLength | E_Priv_InvalidCompressionByte | E_Priv_InvalidBase58h | E_Priv_InvalidHex | E_Priv_InvalidBinaryLength => true
  | _ => false
  end.
Definition raises_where {A} (f : exn -> bool) (r : res A) : bool := match r with Ok _ => false | Err e => f e end.
Definition raises {A} (e : exn) (r : res A) : bool := raises_where (exn_is e) r.
Definition a_times (n : nat) : bytes := repeat x61 n.
Definition hex (s : string) : bytes := match decode_hex (txt s) with Ok b => b | Err _ => [] end.

(** ** tests/test_privkey.py *)
Definition wifs : list (bytes * Z * network * bool) := [(txt "5Kd3NBUAdUnhyzenEwVLy9pBKxSwXvE9FMPyR4UKZvpe6E3AgLr", 0xeddbdc1168f1daeadbd3e44c1e3f8f5a284c2029f78ad26af98583a499de5b19, livenet, false);
  (txt "Kz6UJmQACJmLtaQj5A3JAge4kVTNQ8gbvXuwbmCj7bsaabudb3RD", 0x55c9bccb9ed68446d1b75273bbce89d7fe013a8acd1625514420fb2aca1a21c4, livenet, true);
  (txt "9213qJab2HNEpMpYNBa7wHGFKKbkDn24jpANDs2huN3yi4J11ko", 0x36cb93b9ab1bdabf7fb9f2c04f1b9cc879933530ae7842398eef5a63a56800c2, testnet, false);
  (txt "cTpB4YiyKiBcPxnefsDpbnDxFDffjqJob8wGCEDXxgQ7zQoMXJdH", 0xb9f4892c9e8282028fea1d2667c4dc5213564d41fc5783896a0d843fc15089f3, testnet, true);
  (txt "5K494XZwps2bGyeL71pWid4noiSNA2cfCibrvRWqcHSptoFn7rc", 0xa326b95ebae30164217d7a7f57d72ab2b54e3be64928a19da0210b9568d4015e, livenet, false);
  (txt "L1RrrnXkcKut5DEMwtDthjwRcTTwED36thyL1DebVrKuwvohjMNi", 0x7d998b45c219a1e38e99e7cbd312ef67f77a455a9b50c730c27f02c6f730dfb4, livenet, true);
  (txt "93DVKyFYwSN6wEo3E2fCrFPUp17FtrtNi2Lf7n4G3garFb16CRj", 0xd6bca256b5abc5602ec2e1c121a08b0da2556587430bcf7e1898af2224885203, testnet, false);
  (txt "cTDVKtMGVYWTHCb1AFjmVbEbWjvKpKqKgMaR3QJxToMSQAhmCeTN", 0xa81ca4e8f90181ec4b61b6a7eb998af17b2cb04de8a03b504b9e34c4c61db7d9, testnet, true);
  (txt "5KaBW9vNtWNhc3ZEDyNCiXLPdVPHCikRxSBWwV9NrpLLa4LsXi9", 0xe75d936d56377f432f404aabb406601f892fd49da90eb6ac558a733c93b47252, livenet, false);
  (txt "L1axzbSyynNYA8mCAhzxkipKkfHtAXYF4YQnhSKcLV8YXA874fgT", 0x8248bd0375f2f75d7e274ae544fb920f51784480866b102384190b1addfbaa5c, livenet, true);
  (txt "927CnUkUbasYtDwYwVn2j8GdTuACNnKkjZ1rpZd2yBB1CLcnXpo", 0x44c4f6a096eac5238291a94cc24c01e3b19b8d8cef72874a079e00a242237a52, testnet, false);
  (txt "cUcfCMRjiQf85YMzzQEk9d1s5A4K7xL5SmBCLrezqXFuTVefyhY7", 0xd1de707020a9059d6d3abaf85e17967c6555151143db13dbb06db78df0f15c69, testnet, true);
  (txt "5HtH6GdcwCJA4ggWEL1B3jzBBUB8HPiBi9SBc5h9i4Wk4PSeApR", 0x091035445ef105fa1bb125eccfb1882f3fe69592265956ade751fd095033d8d0, livenet, false);
  (txt "L2xSYmMeVo3Zek3ZTsv9xUrXVAmrWxJ8Ua4cw8pkfbQhcEFhkXT8", 0xab2b4bcdfc91d34dee0ae2a8c6b6668dadaeb3a88b9859743156f462325187af, livenet, true);
  (txt "92xFEve1Z9N8Z641KQQS7ByCSb8kGjsDzw6fAmjHN1LZGKQXyMq", 0xb4204389cef18bbe2b353623cbf93e8678fbc92a475b664ae98ed594e6cf0856, testnet, false);
  (txt "cVM65tdYu1YK37tNoAyGoJTR13VBYFva1vg9FLuPAsJijGvG6NEA", 0xe7b230133f1b5489843260236b06edca25f66adb1be455fbd38d4010d48faeef, testnet, true);
  (txt "5KQmDryMNDcisTzRp3zEq9e4awRmJrEVU1j5vFRTKpRNYPqYrMg", 0xd1fab7ab7385ad26872237f1eb9789aa25cc986bacc695e07ac571d6cdac8bc0, livenet, false);
  (txt "L39Fy7AC2Hhj95gh3Yb2AU5YHh1mQSAHgpNixvm27poizcJyLtUi", 0xb0bbede33ef254e8376aceb1510253fc3550efd0fcf84dcd0c9998b288f166b3, livenet, true);
  (txt "91cTVUcgydqyZLgaANpf1fvL55FH53QMm4BsnCADVNYuWuqdVys", 0x037f4192c630f399d9271e26c575269b1d15be553ea1a7217f0cb8513cef41cb, testnet, false);
  (txt "cQspfSzsgLeiJGB2u8vrAiWpCU4MxUT6JseWo2SjXy4Qbzn2fwDw", 0x6251e205e8ad508bab5596bee086ef16cd4b239e0cc0c5d7c4e6035441e7d5de, testnet, true);
  (txt "5KL6zEaMtPRXZKo1bbMq7JDjjo1bJuQcsgL33je3oY8uSJCR5b4", 0xc7666842503db6dc6ea061f092cfb9c388448629a6fe868d068c42a488b478ae, livenet, false);
  (txt "KwV9KAfwbwt51veZWNscRTeZs9CKpojyu1MsPnaKTF5kz69H1UN2", 0x07f0803fc5399e773555ab1e8939907e9badacc17ca129e67a2f5f2ff84351dd, livenet, true);
  (txt "93N87D6uxSBzwXvpokpzg8FFmfQPmvX4xHoWQe3pLdYpbiwT5YV", 0xea577acfb5d1d14d3b7b195c321566f12f87d2b77ea3a53f68df7ebf8604a801, testnet, false);
  (txt "cMxXusSihaX58wpJ3tNuuUcZEQGt6DKJ1wEpxys88FFaQCYjku9h", 0x0b3b34f0958d8a268193a9814da92c3e8b58b4a4378a542863e34ac289cd830c, testnet, true)].
Definition not_wifs : list bytes := [txt "";
  txt "x";
  txt "37qgekLpCCHrQuSjvX3fs496FWTGsHFHizjJAs6NPcR47aefnnCWECAhHV6E3g4YN7u7Yuwod5Y";
  txt "dzb7VV1Ui55BARxv7ATxAtCUeJsANKovDGWFVgpTbhq9gvPqP3yv";
  txt "MuNu7ZAEDFiHthiunm7dPjwKqrVNCM3mAz6rP9zFveQu14YA8CxExSJTHcVP9DErn6u84E6Ej7S";
  txt "rPpQpYknyNQ5AEHuY6H8ijJJrYc2nDKKk9jjmKEXsWzyAQcFGpDLU2Zvsmoi8JLR7hAwoy3RQWf";
  txt "4Uc3FmN6NQ6zLBK5QQBXRBUREaaHwCZYsGCueHauuDmJpZKn6jkEskMB2Zi2CNgtb5r6epWEFfUJq";
  txt "7aQgR5DFQ25vyXmqZAWmnVCjL3PkBcdVkBUpjrjMTcghHx3E8wb";
  txt "17QpPprjeg69fW1DV8DcYYCKvWjYhXvWkov6MJ1iTTvMFj6weAqW7wybZeH57WTNxXVCRH4veVs";
  txt "KxuACDviz8Xvpn1xAh9MfopySZNuyajYMZWz16Dv2mHHryznWUp3";
  txt "7nK3GSmqdXJQtdohvGfJ7KsSmn3TmGqExug49583bDAL91pVSGq5xS9SHoAYL3Wv3ijKTit65th";
  txt "cTivdBmq7bay3RFGEBBuNfMh2P1pDCgRYN2Wbxmgwr4ki3jNUL2va";
  txt "gjMV4vjNjyMrna4fsAr8bWxAbwtmMUBXJS3zL4NJt5qjozpbQLmAfK1uA3CquSqsZQMpoD1g2nk";
  txt "emXm1naBMoVzPjbk7xpeTVMFy4oDEe25UmoyGgKEB1gGWsK8kRGs";
  txt "7VThQnNRj1o3Zyvc7XHPRrjDf8j2oivPTeDXnRPYWeYGE4pXeRJDZgf28ppti5hsHWXS2GSobdqyo";
  txt "1G9u6oCVCPh2o8m3t55ACiYvG1y5BHewUkDSdiQarDcYXXhFHYdzMdYfUAhfxn5vNZBwpgUNpso";
  txt "31QQ7ZMLkScDiB4VyZjuptr7AEc9j1SjstF7pRoLhHTGkW4Q2y9XELobQmhhWxeRvqcukGd1XCq";
  txt "DHqKSnpxa8ZdQyH8keAhvLTrfkyBMQxqngcQA5N8LQ9KVt25kmGN";
  txt "2LUHcJPbwLCy9GLH1qXmfmAwvadWw4bp4PCpDfduLqV17s6iDcy1imUwhQJhAoNoN1XNmweiJP4i";
  txt "7USRzBXAnmck8fX9HmW7RAb4qt92VFX6soCnts9s74wxm4gguVhtG5of8fZGbNPJA83irHVY6bCos";
  txt "1DGezo7BfVebZxAbNT3XGujdeHyNNBF3vnficYoTSp4PfK2QaML9bHzAMxke3wdKdHYWmsMTJVu";
  txt "2D12DqDZKwCxxkzs1ZATJWvgJGhQ4cFi3WrizQ5zLAyhN5HxuAJ1yMYaJp8GuYsTLLxTAz6otCfb";
  txt "8AFJzuTujXjw1Z6M3fWhQ1ujDW7zsV4ePeVjVo7D1egERqSW9nZ";
  txt "163Q17qLbTCue8YY3AvjpUhotuaodLm2uqMhpYirsKjVqnxJRWTEoywMVY3NbBAHuhAJ2cF9GAZ";
  txt "2MnmgiRH4eGLyLc9eAqStzk7dFgBjFtUCtu";
  txt "461QQ2sYWxU7H2PV4oBwJGNch8XVTYYbZxU";
  txt "2UCtv53VttmQYkVU4VMtXB31REvQg4ABzs41AEKZ8UcB7DAfVzdkV9JDErwGwyj5AUHLkmgZeobs";
  txt "cSNjAsnhgtiFMi6MtfvgscMB2Cbhn2v1FUYfviJ1CdjfidvmeW6mn";
  txt "gmsow2Y6EWAFDFE1CE4Hd3Tpu2BvfmBfG1SXsuRARbnt1WjkZnFh1qGTiptWWbjsq2Q6qvpgJVj";
  txt "nksUKSkzS76v8EsSgozXGMoQFiCoCHzCVajFKAXqzK5on9ZJYVHMD5CKwgmX3S3c7M1U3xabUny";
  txt "L3favK1UzFGgdzYBF2oBT5tbayCo4vtVBLJhg2iYuMeePxWG8SQc";
  txt "7VxLxGGtYT6N99GdEfi6xz56xdQ8nP2dG1CavuXx7Rf2PrvNMTBNevjkfgs9JmkcGm6EXpj8ipyPZ";
  txt "2mbZwFXF6cxShaCo2czTRB62WTx9LxhTtpP";
  txt "dB7cwYdcPSgiyAwKWL3JwCVwSk6epU2txw";
  txt "HPhFUhUAh8ZQQisH8QQWafAxtQYju3SFTX";
  txt "4ctAH6AkHzq5ioiM1m9T3E2hiYEev5mTsB";
  txt "Hn1uFi4dNexWrqARpjMqgT6cX1UsNPuV3cHdGg9ExyXw8HTKadbktRDtdeVmY3M1BxJStiL4vjJ";
  txt "Sq3fDbvutABmnAHHExJDgPLQn44KnNC7UsXuT7KZecpaYDMU9Txs";
  txt "6TqWyrqdgUEYDQU1aChMuFMMEimHX44qHFzCUgGfqxGgZNMUVWJ";
  txt "giqJo7oWqFxNKWyrgcBxAVHXnjJ1t6cGoEffce5Y1y7u649Noj5wJ4mmiUAKEVVrYAGg2KPB3Y4";
  txt "cNzHY5e8vcmM3QVJUcjCyiKMYfeYvyueq5qCMV3kqcySoLyGLYUK";
  txt "37uTe568EYc9WLoHEd9jXEvUiWbq5LFLscNyqvAzLU5vBArUJA6eydkLmnMwJDjkL5kXc2VK7ig";
  txt "EsYbG4tWWWY45G31nox838qNdzksbPySWc";
  txt "nbuzhfwMoNzA3PaFnyLcRxE9bTJPDkjZ6Rf6Y6o2ckXZfzZzXBT";
  txt "cQN9PoxZeCWK1x56xnz6QYAsvR11XAce3Ehp3gMUdfSQ53Y2mPzx";
  txt "1Gm3N3rkef6iMbx4voBzaxtXcmmiMTqZPhcuAepRzYUJQW4qRpEnHvMojzof42hjFRf8PE2jPde";
  txt "2TAq2tuN6x6m233bpT7yqdYQPELdTDJn1eU";
  txt "ntEtnnGhqPii4joABvBtSEJG6BxjT2tUZqE8PcVYgk3RHpgxgHDCQxNbLJf7ardf1dDk2oCQ7Cf";
  txt "Ky1YjoZNgQ196HJV3HpdkecfhRBmRZdMJk89Hi5KGfpfPwS2bUbfd";
  txt "2A1q1YsMZowabbvta7kTy2Fd6qN4r5ZCeG3qLpvZBMzCixMUdkN2Y4dHB1wPsZAeVXUGD83MfRED"].
Definition wif_is (s : bytes) (d : option Z) (n : network) (c : bool) : bool :=
  ok_is (fun k => match d with Some d => k_secret k =? d | None => true end && net_is n (k_network k) && Bool.eqb c (k_compressed k) && text_is s (priv_to_wif k)) (priv_from_wif s).
Definition key_hex : bytes := txt "f04da984a7d553a0ac51b50bf92d2257d46f65286f2d5da5b83f8ccc114393a7".
Definition wif_lc : bytes := txt "L5Gq3mntBKNR9inFjbzesJt2ziboDqjc2iK7Aj2qiy85goAXcjPV".
Definition wif_lu : bytes := txt "5Ke7or7mg3MFzFuPpiTf2tBCnFQk6dR9qsbTmoE74AYWcQ8FmJv".
Definition wif_tc : bytes := txt "cVdpWgnjcP4gKAFX81onEdP6cwuCtHqJ6kTaH9VME5n5wYCzH5xU".
Definition wif_tu : bytes := txt "93QkPawKGGRPxKQgT4MZuUjARumTFnxMBpTQrRacPuHZPQdgS1D".
Definition b58h (b : bytes) : bytes := match encode_base58h (Str b) with Ok t => t | Err _ => [] end.
Definition unb58h (s : bytes) : bytes := match decode_base58h s with Ok t => t | Err _ => [] end.

(** tests/test_privkey.py:47-49 *)
Definition t_priv_invalid_secret : bool := Eval vm_compute in
  raises E_Priv_InvalidSecret (new_privkey (-1) (VNet livenet) true)
  && raises E_Priv_InvalidSecret (new_privkey (10 ^ 100) (VNet livenet) true).
Example test_priv_invalid_secret : t_priv_invalid_secret = true.
Proof. reflexivity. Qed.
(** tests/test_privkey.py:52-54 *)
Definition t_priv_invalid_network : bool := Eval vm_compute in
  raises E_Priv_UnknownNetwork (new_privkey 1 (VInt (-1)) true).
Example test_priv_invalid_network : t_priv_invalid_network = true.
Proof. reflexivity. Qed.
(** tests/test_privkey.py:57-64 *)
Definition t_priv_from_hex : bool := Eval vm_compute in
  ok_is (fun k => bytes_eqb key_hex (priv_to_hex k) && (k_secret k =? 0xf04da984a7d553a0ac51b50bf92d2257d46f65286f2d5da5b83f8ccc114393a7) && (be_word (priv_to_bytes k) =? 0xf04da984a7d553a0ac51b50bf92d2257d46f65286f2d5da5b83f8ccc114393a7) && k_compressed k && net_is livenet (k_network k)) (priv_from_hex key_hex (VNet livenet) true).
Example test_priv_from_hex : t_priv_from_hex = true.
Proof. reflexivity. Qed.
(** tests/test_privkey.py:67-69 *)
Definition t_priv_from_invalid_hex : bool := Eval vm_compute in
  raises E_Priv_InvalidHex (priv_from_hex (txt "a") (VNet livenet) true)
  && raises E_Priv_InvalidHex (priv_from_hex (txt "a@") (VNet livenet) true).
Example test_priv_from_invalid_hex : t_priv_from_invalid_hex = true.
Proof. reflexivity. Qed.
(** tests/test_privkey.py:72-79 *)
Definition t_priv_from_bytes : bool := Eval vm_compute in
  ok_is (fun k => bytes_eqb key_hex (priv_to_hex k)) (priv_from_bytes (encode_int 0xf04da984a7d553a0ac51b50bf92d2257d46f65286f2d5da5b83f8ccc114393a7 true (Some 32%nat)) (VNet livenet) true).
Example test_priv_from_bytes : t_priv_from_bytes = true.
Proof. reflexivity. Qed.
(** tests/test_privkey.py:82-87 *)
Definition t_priv_from_invalid_bytes : bool := Eval vm_compute in
  raises E_Priv_InvalidBinaryLength (priv_from_bytes (a_times 1) (VNet livenet) true)
  && raises E_Priv_InvalidBinaryLength (priv_from_bytes (a_times 33) (VNet livenet) true).
Example test_priv_from_invalid_bytes : t_priv_from_invalid_bytes = true.
Proof. reflexivity. Qed.
(** tests/test_privkey.py:90-119 *)
Definition t_priv_from_wif : bool := Eval vm_compute in
  wif_is wif_lc None livenet true
  && wif_is wif_tc None testnet true
  && wif_is wif_lu None livenet false
  && wif_is wif_tu None testnet false.
Example test_priv_from_wif : t_priv_from_wif = true.
Proof. reflexivity. Qed.
(** tests/test_privkey.py:122-135 *)
Definition t_priv_from_invalid_wif : bool := Eval vm_compute in
  raises E_Priv_InvalidWifLength (priv_from_wif (b58h (a_times 1)))
  && raises E_Priv_InvalidWifLength (priv_from_wif (b58h (a_times 30)))
  && raises E_Priv_InvalidCompressionByte (priv_from_wif (b58h (drop_last 1 (unb58h wif_lc) ++ [x61])))
  && raises E_Priv_UnknownNetwork (priv_from_wif (b58h (x61 :: skipn 1 (unb58h wif_lc)))).
Example test_priv_from_invalid_wif : t_priv_from_invalid_wif = true.
Proof. reflexivity. Qed.
(** tests/test_privkey.py:138-148 *)
Definition t_priv_valid_wifs : bool := Eval vm_compute in
  forallb (fun e : bytes * Z * network * bool => let '(s, d, n, c) := e in wif_is s (Some d) n c) wifs.
Example test_priv_valid_wifs : t_priv_valid_wifs = true.
Proof. reflexivity. Qed.
(** tests/test_privkey.py:151-154 *)
Definition t_priv_invalid_wifs : bool := Eval vm_compute in
  forallb (fun s => raises_where priv_error (priv_from_wif s)) not_wifs.
Example test_priv_invalid_wifs : t_priv_invalid_wifs = true.
Proof. reflexivity. Qed.
(** Multiplication on the curve takes more than a minute here, so each product is computed once. *)
Definition pair_of_key (d : Z) : Z * Z := match pk_from_private_key (PrivateKey d livenet true) with Ok k => pk_pair k | Err _ => (0, 0) end.
Definition pub_pair : Z * Z := Eval vm_compute in pair_of_key 0xf04da984a7d553a0ac51b50bf92d2257d46f65286f2d5da5b83f8ccc114393a7.
Definition pub_of (n : network) (c : bool) : res pubkey := new_pubkey pub_pair (VNet n) c.
Definition address_text (n : network) (c : bool) : res bytes := let! k := pub_of n c in let! a := addr_from_public_key k in addr_to_string a.

(** tests/test_privkey.py:157-164 *)
Definition t_priv_to_pubkey : bool := Eval vm_compute in
  text_is (txt "02e9af68f090bdb18997b676103794e7ed43f9148e882f300d9173c7aac5d497d2") (let! k := pub_of livenet true in pk_to_hex k)
  && text_is (txt "04e9af68f090bdb18997b676103794e7ed43f9148e882f300d9173c7aac5d497d26e4b866169626d83f6230cdc90e0c62a0ae7017579368cb870eb83dcaa1fec3a") (let! k := pub_of livenet false in pk_to_hex k).
Example test_priv_to_pubkey : t_priv_to_pubkey = true.
Proof. reflexivity. Qed.
(** tests/test_privkey.py:167-184 *)
Definition t_priv_to_address : bool := Eval vm_compute in
  text_is (txt "1LjsiHFYCbXjCw4NCTR6AxakMqM3sUZqEf") (address_text livenet true)
  && text_is (txt "18zBfQUkeg9VZFWf53ApjtNgnJDhzdpMfR") (address_text livenet false)
  && text_is (txt "n1Fq1LLX1cxyz3Xyv2PTzso5Dpwkk1s86J") (address_text testnet true)
  && text_is (txt "moW8xTZjThakLMzGnc9CZob1eHpQsTNQN6") (address_text testnet false).
Example test_priv_to_address : t_priv_to_address = true.
Proof. reflexivity. Qed.
(** ** tests/test_pubkey.py *)
Definition pair : Z * Z := (83234559159195082631296919245646869202106616233090297833190812666019583768233, 88596170374369955503701867101393570128177433697625675006047409032754219321755).
Definition pk_hex_c : bytes := txt "03b805174bd496b275e711d5a9f1bcbaa4bba1a77176dbdb5fdd8b769da62a36a9".
Definition pk_hex_u : bytes := txt "04b805174bd496b275e711d5a9f1bcbaa4bba1a77176dbdb5fdd8b769da62a36a9c3dfa7c8ccb509f9a66efd6d8d1db6b25aa7c100476154b6303d76c28eda099b".
Definition pair_is (p q : Z * Z) : bool := (fst p =? fst q) && (snd p =? snd q).
Definition pk_is (c : bool) (k : pubkey) : bool := pair_is pair (pk_pair k) && Bool.eqb c (pk_compressed k) && net_is livenet (pk_network k).
Definition pk_text (h : bytes) (n : network) : res bytes := let! k := pk_from_hex h (VNet n) in let! a := addr_from_public_key k in addr_to_string a.
(** tests/test_pubkey.py:33-35 *)
Definition t_pub_invalid_pair : bool := Eval vm_compute in
  raises E_Pub_InvalidPair (new_pubkey (0, 0) (VNet livenet) true).
Example test_pub_invalid_pair : t_pub_invalid_pair = true.
Proof. reflexivity. Qed.
(** tests/test_pubkey.py:38-40 *)
Definition t_pub_unknown_network : bool := Eval vm_compute in
  raises E_Pub_UnknownNetwork (new_pubkey pair (VText (txt "a")) true).
Example test_pub_unknown_network : t_pub_unknown_network = true.
Proof. reflexivity. Qed.
(** tests/test_pubkey.py:43-49 *)
Definition t_pub_from_private_key : bool := Eval vm_compute in
  ok_is (pk_is true) (pk_from_private_key (PrivateKey 0xd862dc70f3a40b52e9ed3567b073e32dc543f3b51c9eae8f3ac3e95a05af6b65 livenet true)).
Example test_pub_from_private_key : t_pub_from_private_key = true.
Proof. reflexivity. Qed.
(** tests/test_pubkey.py:52-82 *)
Definition t_pub_hex : bool := Eval vm_compute in
  ok_is (pk_is true) (pk_from_hex pk_hex_c (VNet livenet))
  && text_is pk_hex_c (let! k := pk_from_hex pk_hex_c (VNet livenet) in pk_to_hex k)
  && ok_is (pk_is false) (pk_from_hex pk_hex_u (VNet livenet))
  && text_is pk_hex_u (let! k := pk_from_hex pk_hex_u (VNet livenet) in pk_to_hex k)
  && raises E_Pub_InvalidHex (pk_from_hex (txt "a") (VNet livenet))
  && raises E_Pub_InvalidHex (pk_from_hex (txt "a@") (VNet livenet)).
Example test_pub_hex : t_pub_hex = true.
Proof. reflexivity. Qed.
(** tests/test_pubkey.py:85-102 *)
Definition t_pub_bytes : bool := Eval vm_compute in
  ok_is (pk_is true) (pk_from_bytes (Str (match decode_hex pk_hex_c with Ok b => b | Err _ => [] end)) (VNet livenet))
  && raises E_Pub_InvalidBinary (pk_from_bytes (Str (a_times 1)) (VNet livenet))
  && raises E_Pub_InvalidBinary (pk_from_bytes (Str (a_times 70)) (VNet livenet)).
Example test_pub_bytes : t_pub_bytes = true.
Proof. reflexivity. Qed.
(** tests/test_pubkey.py:105-118 *)
Definition t_pub_to_address : bool := Eval vm_compute in
  text_is (txt "1N8FRuC7P1ZtLfkjrvGrCTGkZXuLk4p8rE") (pk_text pk_hex_c livenet)
  && text_is (txt "1MGu43MAwpDnKb4d3xmNZvupLwk6iaaQay") (pk_text pk_hex_u livenet)
  && text_is (txt "n2eCixH6C3197nEMaVFE2NV5RXW3cazW4Q") (pk_text pk_hex_c testnet)
  && text_is (txt "n1nrM6S9kqf36hYEmXjkPr89CwLobCH2nR") (pk_text pk_hex_u testnet).
Example test_pub_to_address : t_pub_to_address = true.
Proof. reflexivity. Qed.
(** ** tests/test_address.py *)
Definition addresses : list (bytes * bytes * network * addr_type) := [(txt "1AGNa15ZQXAZUgFiqJ2i7Z2DPU2J6hW62i", txt "65a16059864a2fdbc7c99a4723a8395bc6f188eb", livenet, T_PublicKey);
  (txt "3CMNFxN1oHBc4R1EpboAL5yzHGgE611Xou", txt "74f209f6ea907e2ea48f74fae05782ae8a665257", livenet, T_Script);
  (txt "mo9ncXisMeAoXwqcV5EWuyncbmCcQN4rVs", txt "53c0307d6851aa0ce7825ba883c6bd9ad242b486", testnet, T_PublicKey);
  (txt "2N2JD6wb56AfK4tfmM6PwdVmoYk2dCKf4Br", txt "6349a418fc4578d10a372b54b45c280cc8c4382f", testnet, T_Script);
  (txt "1Ax4gZtb7gAit2TivwejZHYtNNLT18PUXJ", txt "6d23156cbbdcc82a5a47eee4c2c7c583c18b6bf4", livenet, T_PublicKey);
  (txt "3QjYXhTkvuj8qPaXHTTWb5wjXhdsLAAWVy", txt "fcc5460dd6e2487c7d75b1963625da0e8f4c5975", livenet, T_Script);
  (txt "n3ZddxzLvAY9o7184TB4c6FJasAybsw4HZ", txt "f1d470f9b02370fdec2e6b708b08ac431bf7a5f7", testnet, T_PublicKey);
  (txt "2NBFNJTktNa7GZusGbDbGKRZTxdK9VVez3n", txt "c579342c2c4c9220205e2cdc285617040c924a0a", testnet, T_Script);
  (txt "1C5bSj1iEGUgSTbziymG7Cn18ENQuT36vv", txt "7987ccaa53d02c8873487ef919677cd3db7a6912", livenet, T_PublicKey);
  (txt "3AnNxabYGoTxYiTEZwFEnerUoeFXK2Zoks", txt "63bcc565f9e68ee0189dd5cc67f1b0e5f02f45cb", livenet, T_Script);
  (txt "n3LnJXCqbPjghuVs8ph9CYsAe4Sh4j97wk", txt "ef66444b5b17f14e8fae6e7e19b045a78c54fd79", testnet, T_PublicKey);
  (txt "2NB72XtkjpnATMggui83aEtPawyyKvnbX2o", txt "c3e55fceceaa4391ed2a9677f4a4d34eacd021a0", testnet, T_Script);
  (txt "1Gqk4Tv79P91Cc1STQtU3s1W6277M2CVWu", txt "adc1cc2081a27206fae25792f28bbc55b831549d", livenet, T_PublicKey);
  (txt "33vt8ViH5jsr115AGkW6cEmEz9MpvJSwDk", txt "188f91a931947eddd7432d6e614387e32b244709", livenet, T_Script);
  (txt "mhaMcBxNh5cqXm4aTQ6EcVbKtfL6LGyK2H", txt "1694f5bc1a7295b600f40018a618a6ea48eeb498", testnet, T_PublicKey);
  (txt "2MxgPqX1iThW3oZVk9KoFcE5M4JpiETssVN", txt "3b9b3fd7a50d4f08d1a5b0f62f644fa7115ae2f3", testnet, T_Script);
  (txt "1JwMWBVLtiqtscbaRHai4pqHokhFCbtoB4", txt "c4c1b72491ede1eedaca00618407ee0b772cad0d", livenet, T_PublicKey);
  (txt "3QCzvfL4ZRvmJFiWWBVwxfdaNBT8EtxB5y", txt "f6fe69bcb548a829cce4c57bf6fff8af3a5981f9", livenet, T_Script);
  (txt "mizXiucXRCsEriQCHUkCqef9ph9qtPbZZ6", txt "261f83568a098a8638844bd7aeca039d5f2352c0", testnet, T_PublicKey);
  (txt "2NEWDzHWwY5ZZp8CQWbB7ouNMLqCia6YRda", txt "e930e1834a4d234702773951d627cce82fbb5d2e", testnet, T_Script);
  (txt "19dcawoKcZdQz365WpXWMhX6QCUpR9SY4r", txt "5eadaf9bb7121f0f192561a5a62f5e5f54210292", livenet, T_PublicKey);
  (txt "37Sp6Rv3y4kVd1nQ1JV5pfqXccHNyZm1x3", txt "3f210e7277c899c3a155cc1c90f4106cbddeec6e", livenet, T_Script);
  (txt "myoqcgYiehufrsnnkqdqbp69dddVDMopJu", txt "c8a3c2a09a298592c3e180f02487cd91ba3400b5", testnet, T_PublicKey);
  (txt "2N7FuwuUuoTBrDFdrAZ9KxBmtqMLxce9i1C", txt "99b31df7c9068d1481b596578ddbb4d3bd90baeb", testnet, T_Script);
  (txt "13p1ijLwsnrcuyqcTvJXkq2ASdXqcnEBLE", txt "1ed467017f043e91ed4c44b4e8dd674db211c4e6", livenet, T_PublicKey);
  (txt "3ALJH9Y951VCGcVZYAdpA3KchoP9McEj1G", txt "5ece0cadddc415b1980f001785947120acdb36fc", livenet, T_Script)].
Definition address_is (e : bytes * bytes * network * addr_type) : bool :=
  let '(s, h, n, ty) := e in
  ok_is (fun a => net_is n (a_network a) && addr_type_is ty (a_type a) && text_is s (addr_to_string a) && bytes_eqb h (encode_hex (pyb_bytes (a_phash a)))) (addr_from_string s).
Definition addr_text : bytes := txt "mz7Rb837TrRMBxSNV8ZqRysS1JCDPWFLCc".
Definition addr_hex : bytes := txt "6fcbf730e06e5f8e4fc44f071d436a4660ddde3e47".
Definition addr_phash : bytes := hex "cbf730e06e5f8e4fc44f071d436a4660ddde3e47".
Definition the_address (a : address) : bool :=
  net_is testnet (a_network a) && bytes_eqb addr_phash (pyb_bytes (a_phash a)) && addr_type_is T_PublicKey (a_type a) && text_is addr_text (addr_to_string a) && text_is addr_hex (addr_to_hex a).
(** tests/test_address.py:41-45 *)
Definition t_addr_create : bool := Eval vm_compute in
  forallb (fun n => forallb (fun ty => is_ok (new_address (Str (a_times 20)) (VNet n) (TA ty))) [T_PublicKey; T_Script]) [livenet; testnet].
Example test_addr_create : t_addr_create = true.
Proof. reflexivity. Qed.
(** tests/test_address.py:47-61 *)
Definition t_addr_invalid : bool := Eval vm_compute in
  raises E_Addr_InvalidHashLength (new_address (Str (a_times 1)) (VNet livenet) (TA T_PublicKey))
  && raises E_Addr_UnknownNetwork (new_address (Str (a_times 20)) (VInt (-1)) (TA T_PublicKey))
  && raises E_Addr_InvalidVersion (addr_from_bytes (Str (x0f :: a_times 20)))
  && raises E_Addr_InvalidType (new_address (Str (a_times 20)) (VNet livenet) TA_other).
Example test_addr_invalid : t_addr_invalid = true.
Proof. reflexivity. Qed.
(** tests/test_address.py:63-86 *)
Definition t_addr_texts : bool := Eval vm_compute in
  ok_is the_address (addr_from_hex addr_hex)
  && ok_is the_address (addr_from_string addr_text)
  && raises E_Addr_InvalidHex (addr_from_hex (txt "a"))
  && raises E_Addr_InvalidHex (addr_from_hex (txt "a@"))
  && raises E_Addr_InvalidBase58h (addr_from_string (txt "a"))
  && raises E_Addr_InvalidBase58h (addr_from_string (txt "a@"))
  && raises E_Addr_InvalidBinaryLength (addr_from_bytes (Str (a_times 1))).
Example test_addr_texts : t_addr_texts = true.
Proof. reflexivity. Qed.
(** tests/test_address.py:89-93 *)
Definition t_addr_from_pubkey : bool := Eval vm_compute in
  ok_is the_address (let! k := new_pubkey (2505267213527803793801554682227237457256110293342017361806815033635284562140, 62983861414933912325775225572939498310844638563302563929329670771752596415141) (VNet testnet) true in addr_from_public_key k).
Example test_addr_from_pubkey : t_addr_from_pubkey = true.
Proof. reflexivity. Qed.
(** tests/test_address.py:96-104 *)
Definition t_addr_bitcoind : bool := Eval vm_compute in
  forallb address_is addresses.
Example test_addr_bitcoind : t_addr_bitcoind = true.
Proof. reflexivity. Qed.
(** ** tests/test_transaction.py *)
Definition mock_in : obj := O_In (Input C_Input [] 0 (Script None []) 0xFFFFFFFF).
Definition mock_out : obj := O_Out (Output C_Output 1000 (Script None [])).
Definition foo : pyb := Str (txt "foo").
Definition bar : pyb := Str (txt "bar").
Definition key1 : privkey := PrivateKey 5 livenet true.
Definition key2 : privkey := PrivateKey 6 livenet true.
Definition key3 : privkey := PrivateKey 7 livenet true.
Definition pub1 : res pubkey := Eval vm_compute in priv_to_public_key key1.
Definition pub2 : res pubkey := Eval vm_compute in priv_to_public_key key2.
Definition adr1 : res address := Eval vm_compute in priv_to_address key1.
Definition in_class_is (a b : in_class) : bool := match a, b with C_Input, C_Input | C_AddressInput, C_AddressInput | C_ScriptInput, C_ScriptInput | C_MultisigInput, C_MultisigInput => true | _, _ => false end.
Definition out_class_is (a b : out_class) : bool :=
  match a, b with C_Output, C_Output | C_AddressOutput, C_AddressOutput | C_ScriptOutput, C_ScriptOutput | C_MultisigOutput, C_MultisigOutput | C_DataOutput, C_DataOutput => true | _, _ => false end.
Definition class_is (a b : sclass) : bool :=
  match a, b with
  | PayToPubkeyIn, PayToPubkeyIn | PayToPubkeyOut, PayToPubkeyOut | PayToScriptIn, PayToScriptIn | PayToScriptOut, PayToScriptOut | OpReturnOut, OpReturnOut | RedeemMultisig, RedeemMultisig => true
  | _, _ => false
  end.
(** [PayToPubkeyIn.create(address, signature)] with an address in place of the public key: only
    its [to_bytes] is used (script.py:180-181) *)
Definition p2pk_in_of_address (a : address) (sig : pyb) : res script :=
  let! b := addr_to_bytes a in sub_create PayToPubkeyIn [I_Bytes sig; I_Bytes b].
Definition ones : bytes := repeat x31 32.
(** tests/test_transaction.py:28-41 *)
Definition t_tx_create : bool := Eval vm_compute in
  is_ok (new_tx [mock_in] [mock_out] 0 1)
  && raises E_Tx_NoInputs (new_tx [] [] 0 1)
  && raises E_Tx_NoOutputs (new_tx [mock_in] [] 0 1)
  && raises E_Tx_InvalidLockTime (new_tx [mock_in] [mock_out] (-1) 1).
Example test_tx_create : t_tx_create = true.
Proof. reflexivity. Qed.
(** tests/test_transaction.py:48-60 *)
Definition t_in_classify : bool := Eval vm_compute in
  ok_is (fun i => in_class_is C_AddressInput (in_class_of i)) (let! a := adr1 in let! s := p2pk_in_of_address a foo in input_create ones 0 s 0xFFFFFFFF)
  && ok_is (fun i => in_class_is C_ScriptInput (in_class_of i)) (let! r := script_compile [I_Op OP_0] in let! s := p2sh_in_create r [foo] in input_create ones 0 s 0xFFFFFFFF).
Example test_in_classify : t_in_classify = true.
Proof. reflexivity. Qed.
(** tests/test_transaction.py:62-70 *)
Definition t_in_can_sign_address : bool := Eval vm_compute in
  ok_is (fun b => b) (let! a := adr1 in let! i := address_input_create (a_times 1) 0 a 0xFFFFFFFF in address_can_sign i [key1])
  && ok_is negb (let! a := adr1 in let! i := address_input_create (a_times 1) 0 a 0xFFFFFFFF in address_can_sign i [key2]).
Example test_in_can_sign_address : t_in_can_sign_address = true.
Proof. reflexivity. Qed.
Definition multi (keys : list privkey) : res bool := let! p := pub1 in let! q := pub2 in let! i := multisig_input_create (a_times 1) 0 [p; q] 1 0xFFFFFFFF in multisig_can_sign i keys.
(** tests/test_transaction.py:72-83 *)
Definition t_in_can_sign_multisig : bool := Eval vm_compute in
  ok_is (fun b => b) (multi [key1])
  && ok_is (fun b => b) (multi [key2])
  && ok_is negb (multi [key3])
  && ok_is negb (multi [key3; key3])
  && ok_is negb (multi [key3; key2]).
Example test_in_can_sign_multisig : t_in_can_sign_multisig = true.
Proof. reflexivity. Qed.
(** tests/test_transaction.py:87-104 *)
Definition t_out_classify : bool := Eval vm_compute in
  raises E_Out_TooMuchData (data_output_create (Str (repeat x30 81)))
  && ok_is (fun o => out_class_is C_AddressOutput (out_class_of o)) (let! s := (let! a := adr1 in p2pk_out_create a) in output_create 1 s)
  && ok_is (fun o => out_class_is C_ScriptOutput (out_class_of o)) (let! s := p2sh_out_create (Script None []) in output_create 1 s)
  && ok_is (fun o => out_class_is C_DataOutput (out_class_of o)) (let! s := op_return_create (Str (txt "data")) in output_create 1 s).
Example test_out_classify : t_out_classify = true.
Proof. reflexivity. Qed.
(** ** tests/test_unit.py *)
(** decimal literals: the nearest float *)
Definition lit (s : string) : float := match py_float (txt s) with Ok f => f | Err _ => S754_nan end.
Definition float_is (a b : float) : bool := SFeqb a b.
Definition unit_is (r : res unit_t) (btc mbtc bits : string) (satoshis : Z) : bool :=
  ok_is (fun u => float_is (u_btc u) (lit btc) && float_is (u_mbtc u) (lit mbtc) && float_is (u_bits u) (lit bits) && (u_satoshis u =? satoshis)) r.
Definition f (s : string) : option num := Some (NFloat (lit s)).
(** tests/test_unit.py:6-44 *)
Definition t_unit : bool := Eval vm_compute in
  unit_is (unit_init None None None (f "1.2")) "1.2" "1200" "1200000" 120000000
  && unit_is (unit_init None None None (f "1.3")) "1.3" "1300" "1300000" 130000000
  && unit_is (unit_init None None (f "1.3") None) "0.0013" "1.3" "1300" 130000
  && unit_is (unit_init None (f "1.3") None None) "0.0000013" "0.0013" "1.3" 130
  && unit_is (unit_init (Some (NInt 3)) None None None) "0.00000003" "0.00003" "0.03" 3
  && text_is (txt "<Unit: 130000000 satoshis>") (let! u := unit_init None None None (f "1.3") in Ok (repr_unit u)).
Example test_unit : t_unit = true.
Proof. reflexivity. Qed.
(** ** tests/test_uri.py *)
Definition uri (s : string) : res uri_t := uri_init (AText (txt s)).
Definition entry_is (k v : string) (d : dict bytes) : bool := match dget (txt k) d with Some x => bytes_eqb (txt v) x | None => false end.
Definition some_is (v : string) (x : option bytes) : bool := match x with Some x => bytes_eqb (txt v) x | None => false end.
Definition is_valid_uri (s : string) : bool := ok_is (fun b => b) (uri_is_valid (AText (txt s))).
Definition not_valid_uri (s : string) : bool := ok_is negb (uri_is_valid (AText (txt s))).
Definition there_and_back (s t : string) : bool := text_is (txt t) (let! u := uri s in to_uri u).
(** tests/test_uri.py:11-25 *)
Definition t_uri_parse : bool := Eval vm_compute in
  ok_is (entry_is "address" "1DP69gMMvSuYhbnxsi4EJEFufUAbDrEQfj") (uri_parse (txt "bitcoin:1DP69gMMvSuYhbnxsi4EJEFufUAbDrEQfj"))
  && ok_is (fun d => entry_is "address" "1DP69gMMvSuYhbnxsi4EJEFufUAbDrEQfj" d && entry_is "amount" "123.22" d) (uri_parse (txt "bitcoin:1DP69gMMvSuYhbnxsi4EJEFufUAbDrEQfj?amount=123.22"))
  && ok_is (fun d => entry_is "address" "1DP69gMMvSuYhbnxsi4EJEFufUAbDrEQfj" d && entry_is "amount" "123.22" d && entry_is "other-param" "something" d && entry_is "req-extra" "param" d) (uri_parse (txt "bitcoin:1DP69gMMvSuYhbnxsi4EJEFufUAbDrEQfj?amount=123.22&other-param=something&req-extra=param")).
Example test_uri_parse : t_uri_parse = true.
Proof. reflexivity. Qed.
(** tests/test_uri.py:27-38 *)
Definition t_uri_is_valid : bool := Eval vm_compute in
  is_valid_uri "bitcoin:1DP69gMMvSuYhbnxsi4EJEFufUAbDrEQfj"
  && is_valid_uri "bitcoin:mkYY5NRvikVBY1EPtaq9fAFgquesdjqECw"
  && is_valid_uri "bitcoin:1DP69gMMvSuYhbnxsi4EJEFufUAbDrEQfj?amount=1.2"
  && is_valid_uri "bitcoin:1DP69gMMvSuYhbnxsi4EJEFufUAbDrEQfj?amount=1.2&other=param"
  && is_valid_uri "bitcoin:mmrqEBJxUCf42vdb3oozZtyz5mKr3Vb2Em?amount=0.1&r=https%3A%2F%2Ftest.bitpay.com%2Fi%2F6DKgf8cnJC388irbXk5hHu"
  && not_valid_uri "bitcoin:"
  && not_valid_uri "bitcoin:badUri"
  && not_valid_uri "bitcoin:1DP69gMMvSuYhbnxsi4EJEFufUAbDrEQfk?amount=bad"
  && not_valid_uri "bitcoin:?r=https%3A%2F%2Ftest.bitpay.com%2Fi%2F6DKgf8cnJC388irbXk5hHu".
Example test_uri_is_valid : t_uri_is_valid = true.
Proof. reflexivity. Qed.
(** tests/test_uri.py:40-56 *)
Definition t_uri_fields : bool := Eval vm_compute in
  ok_is (fun u => net_is livenet (a_network (uri_address u))) (uri "bitcoin:1DP69gMMvSuYhbnxsi4EJEFufUAbDrEQfj")
  && ok_is (fun u => net_is testnet (a_network (uri_address u))) (uri "bitcoin:mkYY5NRvikVBY1EPtaq9fAFgquesdjqECw")
  && ok_is (fun u => match uri_amount u with Some a => u_satoshis a =? 12322000000 | None => false end) (uri "bitcoin:1DP69gMMvSuYhbnxsi4EJEFufUAbDrEQfj?amount=123.22")
  && ok_is (fun u => entry_is "other" "param" (uri_extras u)) (uri "bitcoin:1DP69gMMvSuYhbnxsi4EJEFufUAbDrEQfj?amount=1.2&other=param").
Example test_uri_fields : t_uri_fields = true.
Proof. reflexivity. Qed.
(** tests/test_uri.py:58-77 *)
Definition t_uri_create : bool := Eval vm_compute in
  ok_is (fun u => match uri_amount u with Some a => u_satoshis a =? 120000000 | None => false end && entry_is "other" "param" (uri_extras u)) (uri_init (ADict [(txt "address", txt "1DP69gMMvSuYhbnxsi4EJEFufUAbDrEQfj"); (txt "other", txt "param")] (Some (NInt 120000000))))
  && ok_is (fun u => entry_is "req-other" "param" (uri_extras u)) (uri_init (ADict [(txt "address", txt "1DP69gMMvSuYhbnxsi4EJEFufUAbDrEQfj"); (txt "req-other", txt "param")] None)).
Example test_uri_create : t_uri_create = true.
Proof. reflexivity. Qed.
(** tests/test_uri.py:79-116 *)
Definition t_uri_texts : bool := Eval vm_compute in
  text_is (txt "1DP69gMMvSuYhbnxsi4EJEFufUAbDrEQfj") (let! u := uri "bitcoin://1DP69gMMvSuYhbnxsi4EJEFufUAbDrEQfj" in addr_to_string (uri_address u))
  && there_and_back "bitcoin:1DP69gMMvSuYhbnxsi4EJEFufUAbDrEQfj?label=myLabel&message=Donation+for+project+xyz&other=xD" "bitcoin:1DP69gMMvSuYhbnxsi4EJEFufUAbDrEQfj?label=myLabel&message=Donation+for+project+xyz&other=xD"
  && ok_is (fun u => some_is "Donation for project xyz" (uri_message u) && some_is "myLabel" (uri_label u) && entry_is "other" "xD" (uri_extras u)) (uri "bitcoin:1DP69gMMvSuYhbnxsi4EJEFufUAbDrEQfj?message=Donation+for+project+xyz&other=xD&label=myLabel")
  && text_is (txt "bitcoin:1DP69gMMvSuYhbnxsi4EJEFufUAbDrEQfj") (let! u := uri_init (ADict [(txt "address", txt "1DP69gMMvSuYhbnxsi4EJEFufUAbDrEQfj")] None) in to_uri u)
  && text_is (txt "bitcoin:1DP69gMMvSuYhbnxsi4EJEFufUAbDrEQfj?amount=1.10001&message=Hello+World&something=else") (let! u := uri_init (ADict [(txt "address", txt "1DP69gMMvSuYhbnxsi4EJEFufUAbDrEQfj"); (txt "message", txt "Hello World"); (txt "something", txt "else")] (Some (NInt 110001000))) in to_uri u)
  && there_and_back "bItcOin:1DP69gMMvSuYhbnxsi4EJEFufUAbDrEQfj" "bitcoin:1DP69gMMvSuYhbnxsi4EJEFufUAbDrEQfj"
  && there_and_back "bitcoin:mmrqEBJxUCf42vdb3oozZtyz5mKr3Vb2Em?amount=0.1&r=https%3A%2F%2Ftest.bitpay.com%2Fi%2F6DKgf8cnJC388irbXk5hHu" "bitcoin:mmrqEBJxUCf42vdb3oozZtyz5mKr3Vb2Em?amount=0.1&r=https%3A%2F%2Ftest.bitpay.com%2Fi%2F6DKgf8cnJC388irbXk5hHu"
  && text_is (txt "<URI: bitcoin:1DP69gMMvSuYhbnxsi4EJEFufUAbDrEQfj>") (let! u := uri "bitcoin:1DP69gMMvSuYhbnxsi4EJEFufUAbDrEQfj" in repr_uri u).
Example test_uri_texts : t_uri_texts = true.
Proof. reflexivity. Qed.
(** ** tests/script/test_opcode.py *)
Definition op_is (o : opcode) (r : res opcode) : bool := ok_is (op_eqb o) r.
Definition OP_RESERVED : opcode := x50.
(** tests/script/test_opcode.py:10-41 *)
Definition t_opcode : bool := Eval vm_compute in
  op_is OP_RESERVED (new_opcode 80)
  && raises E_Op_UnknownOpcodeNumber (new_opcode 256)
  && text_is (txt "_PUSH_3_BYTES") (let! o := const_push_for 3 in op_name o)
  && text_is (txt "OP_0") (op_name OP_0)
  && text_is (txt "OP_RESERVED") (op_name OP_RESERVED)
  && is_number OP_0
  && is_number OP_16
  && negb (is_number OP_RESERVED)
  && raises E_Op_WrongOpcodeType (number_value OP_RESERVED)
  && ok_is (Z.eqb 0) (number_value OP_0)
  && ok_is (Z.eqb 16) (number_value OP_16)
  && ok_is is_push (const_push_for 10)
  && ok_is is_push (var_push_for 36)
  && negb (is_push OP_RESERVED).
Example test_opcode : t_opcode = true.
Proof. reflexivity. Qed.
(** tests/script/test_opcode.py:43-98 *)
Definition t_opcode_more : bool := Eval vm_compute in
  ok_is is_const_push (new_opcode 75)
  && negb (is_const_push OP_PUSHDATA1)
  && forallb is_var_push [OP_PUSHDATA1; OP_PUSHDATA2; OP_PUSHDATA4]
  && negb (is_var_push OP_RESERVED)
  && (bZ OP_0 <? bZ OP_1)
  && bytes_eqb [OP_1] [x51]
  && raises E_ValueError (for_number 17)
  && op_is (Zb 90) (for_number 10)
  && raises E_Op_UnknownOpcodeName (op_from_name (txt "OP_FOO"))
  && op_is OP_1 (op_from_name (txt "OP_1"))
  && raises E_Op_InvalidConstPushLength (const_push_for 0)
  && raises E_Op_InvalidConstPushLength (const_push_for 76)
  && op_is (Zb 10) (const_push_for 10)
  && raises E_Op_InvalidPushLength (var_push_for 0)
  && op_is OP_PUSHDATA1 (var_push_for 1)
  && op_is OP_PUSHDATA2 (var_push_for (2 ^ 15))
  && op_is OP_PUSHDATA4 (var_push_for (2 ^ 31))
  && raises E_Op_InvalidPushLength (var_push_for (2 ^ 64))
  && ok_is (fun o => data_length_max o =? 5) (const_push_for 5)
  && (data_length_max OP_RESERVED =? 0)
  && (data_length_max OP_PUSHDATA1 =? 255)
  && ok_is (Z.eqb 1) (data_length_nbytes OP_PUSHDATA1)
  && ok_is (Z.eqb 2) (data_length_nbytes OP_PUSHDATA2)
  && ok_is (Z.eqb 4) (data_length_nbytes OP_PUSHDATA4)
  && raises E_Op_WrongOpcodeType (data_length_nbytes OP_0).
Example test_opcode_more : t_opcode_more = true.
Proof. reflexivity. Qed.
(** ** tests/script/test_script.py *)
Fixpoint instrs_are (a b : list instr) : bool := match a, b with [], [] => true | x :: a, y :: b => instr_eqb x y && instrs_are a b | _, _ => false end.
Definition parsed_is (l : list instr) (b : bytes) : bool := ok_is (fun s => instrs_are l (s_ins s)) (script_from_bytes b).
Definition abc : bytes := txt "abc".
Definition data_short : exn := E_InsufficientData 0 0.
Definition all_nonpush : list opcode := filter (fun o => negb (is_push o)) (map (fun e => Zb (snd e)) op_table).
Definition text_test (s : string) : bool := ok_is (fun x => text_is (txt s) (script_to_string x) && (blen (s_ins x) =? 3)) (script_from_string (txt s)).
Definition valid_as (c : sclass) (r : res script) : bool := ok_is (fun b => b) (let! s := r in is_valid c (structure (s_ins s))).
Definition not_valid_as (c : sclass) (r : res script) : bool := ok_is negb (let! s := r in is_valid c (structure (s_ins s))).
Definition empty : res script := Ok (Script None []).
Definition p2pk_out1 : res script := let! a := adr1 in p2pk_out_create a.
Definition p2pk_in1 (sig : pyb) : res script := let! a := adr1 in p2pk_in_of_address a sig.
Definition p2sh_in1 (l : list item) (sigs : list pyb) : res script := let! e := script_compile l in p2sh_in_create e sigs.
Definition embedded_in (sigs : list pyb) : res script := let! e := p2pk_out1 in p2sh_in_create e sigs.
Definition opt_is (a b : option pyb) : bool := match a, b with Some x, Some y => pyb_eqb x y | None, None => true | _, _ => false end.
Fixpoint opts_are (a b : list (option pyb)) : bool := match a, b with [], [] => true | x :: a, y :: b => opt_is x y && opts_are a b | _, _ => false end.
Fixpoint keys_are (a b : list pubkey) : bool := match a, b with [], [] => true | x :: a, y :: b => pubkey_eqb x y && keys_are a b | _, _ => false end.
Definition embedded : res script := script_compile [I_Op OP_0; I_Bytes bar; I_Op OP_1].
Definition both_classes (c : sclass) (r : res script) : bool :=
  ok_is (fun s => match s_class s, classify (s_ins s), script_create (s_ins s) with
                  | Some c1, Ok (Some c2), Ok (Script (Some c3) _) => class_is c c1 && class_is c c2 && class_is c c3 | _, _, _ => false end) r.
(** tests/script/test_script.py:15-36 *)
Definition t_script_pushes : bool := Eval vm_compute in
  parsed_is [Instr OP_0 None] [x00]
  && forallb (fun n => parsed_is [Instr (Zb (Z.of_nat n)) (Some (Str (a_times n)))] (Zb (Z.of_nat n) :: a_times n)) (seq 1 75)
  && parsed_is [Instr OP_PUSHDATA1 (Some (Str abc))] (OP_PUSHDATA1 :: x03 :: abc)
  && parsed_is [Instr OP_PUSHDATA2 (Some (Str abc))] (OP_PUSHDATA2 :: x03 :: x00 :: abc)
  && parsed_is [Instr OP_PUSHDATA4 (Some (Str abc))] (OP_PUSHDATA4 :: x03 :: x00 :: x00 :: x00 :: abc)
  && raises data_short (script_from_bytes [OP_PUSHDATA1; x03; x61])
  && raises data_short (script_from_bytes [OP_PUSHDATA2; x03; x00; x61])
  && raises data_short (script_from_bytes [OP_PUSHDATA4; x03; x00; x00; x00; x61]).
Example test_script_pushes : t_script_pushes = true.
Proof. reflexivity. Qed.
(** tests/script/test_script.py:51-60 *)
Definition t_script_nonpush : bool := Eval vm_compute in
  parsed_is (map (fun o => Instr o None) all_nonpush) all_nonpush.
Example test_script_nonpush : t_script_nonpush = true.
Proof. reflexivity. Qed.
(** tests/script/test_script.py:62-90 *)
Definition t_script_from_string : bool := Eval vm_compute in
  text_test "OP_0 OP_PUSHDATA4 3 0x010203 OP_0"
  && text_test "OP_0 OP_PUSHDATA2 3 0x010203 OP_0"
  && text_test "OP_0 OP_PUSHDATA1 3 0x010203 OP_0"
  && text_test "OP_0 3 0x010203 OP_0"
  && raises E_Scr_UnknownOpcodeName (script_from_string (txt "OP_99"))
  && raises E_Scr_MissingPushArguments (script_from_string (txt "OP_PUSHDATA1"))
  && raises E_Scr_MissingPushArguments (script_from_string (txt "OP_PUSHDATA1 3"))
  && raises E_Scr_InvalidPushDataLength (script_from_string (txt "OP_PUSHDATA1 3 0x01020302"))
  && raises E_Scr_InvalidPushData (script_from_string (txt "OP_PUSHDATA1 3 010203"))
  && raises E_Scr_InvalidPushData (script_from_string (txt "3 010203")).
Example test_script_from_string : t_script_from_string = true.
Proof. reflexivity. Qed.
(** tests/script/test_script.py:92-100 *)
Definition t_script_push_only : bool := Eval vm_compute in
  ok_is (fun s =>  (is_push_only (s_ins s))) (script_from_string (txt "OP_1 OP_16"))
  && ok_is (fun s =>  (is_push_only (s_ins s))) (script_from_string (txt "OP_PUSHDATA1 1 0x01"))
  && ok_is (fun s => negb (is_push_only (s_ins s))) (script_from_string (txt "OP_1 OP_RETURN")).
Example test_script_push_only : t_script_push_only = true.
Proof. reflexivity. Qed.
(** tests/script/test_script.py:102-166 *)
Definition t_script_is_valid : bool := Eval vm_compute in
  valid_as PayToPubkeyIn (p2pk_in1 foo)
  && valid_as PayToPubkeyIn (p2pk_in1 bar)
  && not_valid_as PayToPubkeyIn empty
  && not_valid_as PayToPubkeyIn p2pk_out1
  && valid_as PayToPubkeyOut p2pk_out1
  && not_valid_as PayToPubkeyOut empty
  && not_valid_as PayToPubkeyOut (p2pk_in1 foo)
  && valid_as PayToScriptOut (let! e := p2pk_out1 in p2sh_out_create e)
  && not_valid_as PayToScriptOut empty
  && not_valid_as PayToScriptOut p2pk_out1
  && not_valid_as PayToScriptOut (embedded_in [foo])
  && valid_as PayToScriptIn (embedded_in [foo])
  && valid_as PayToScriptIn (p2sh_in1 [I_Bytes bar] [foo])
  && valid_as PayToScriptIn (p2sh_in1 [I_Bytes (Str (txt "baz"))] [Str (txt "one"); Str (txt "two")])
  && not_valid_as PayToScriptIn empty
  && not_valid_as PayToScriptIn (p2pk_in1 foo)
  && not_valid_as PayToScriptIn (p2sh_out_create (Script None [])).
Example test_script_is_valid : t_script_is_valid = true.
Proof. reflexivity. Qed.
(** tests/script/test_script.py:168-209 *)
Definition t_script_getters : bool := Eval vm_compute in
  ok_is (fun b => b) (let! p := pub1 in let! s := p2pk_in_create p foo in let! q := get_public_key s in let! g := get_signature s in Ok (pubkey_eqb p q && opt_is g (Some foo)))
  && ok_is (fun b => b) (let! a := adr1 in let! s := p2pk_out_create a in let! h := get_address_hash s in Ok (opt_is h (Some (a_phash a))))
  && ok_is (fun b => b) (let! e := embedded in let! s := p2sh_in_create e [foo; bar] in let! x := get_script s in Ok (instrs_are (s_ins x) (s_ins e) && opts_are (get_signatures s) [Some foo; Some bar]))
  && ok_is (fun b => b) (let! e := embedded in let! s := p2sh_out_create e in let! h := get_script_hash s in let! k := script_to_hash e in Ok (opt_is h (Some (Str k))))
  && ok_is (opt_is (Some (Str (txt "foo bar baz")))) (let! s := op_return_create (Str (txt "foo bar baz")) in get_data s)
  && ok_is (fun b => b) (let! p := pub1 in let! q := pub2 in let! s := multisig_create [p; q] 2 in let! m := get_min_signatures s in let! l := get_public_keys s in Ok ((m =? 2) && keys_are l [p; q])).
Example test_script_getters : t_script_getters = true.
Proof. reflexivity. Qed.
(** tests/script/test_script.py:211-229 *)
Definition t_script_classify : bool := Eval vm_compute in
  both_classes PayToPubkeyIn (let! p := pub1 in p2pk_in_create p foo)
  && both_classes PayToPubkeyOut p2pk_out1
  && both_classes PayToScriptIn (let! p := pub1 in let! s := multisig_create [p] 1 in p2sh_in_create s [foo])
  && both_classes PayToScriptOut (let! p := pub1 in let! s := multisig_create [p] 1 in p2sh_out_create s)
  && both_classes RedeemMultisig (let! p := pub1 in multisig_create [p] 1)
  && both_classes OpReturnOut (op_return_create (Str (txt "data"))).
Example test_script_classify : t_script_classify = true.
Proof. reflexivity. Qed.
(** ** tests/script/test_interpreter.py *)
Definition fresh : interp := Interp [] [] 0 0 0 [] IE_None 0 (Script None []).
Definition verified (a b : list opcode) : res bool := let! a := script_compile (map I_Op a) in let! b := script_compile (map I_Op b) in let! r := verify fresh a b 0 in Ok (fst r).
Definition yes (r : res bool) : bool := ok_is (fun b => b) r.
Definition no (r : res bool) : bool := ok_is negb r.
(** tests/script/test_interpreter.py:24-28 *)
Definition t_interp_cast : bool := Eval vm_compute in
  negb (cast_to_bool (M_Interp.num 0))
  && negb (cast_to_bool (Str (hex "008A")))
  && cast_to_bool (M_Interp.num 1)
  && cast_to_bool (M_Interp.num (-1)).
Example test_interp_cast : t_interp_cast = true.
Proof. reflexivity. Qed.
(** tests/script/test_interpreter.py:30-54 *)
Definition t_interp_verify : bool := Eval vm_compute in
  yes (verified [OP_1] [OP_1])
  && no (verified [OP_1] [OP_0])
  && yes (verified [OP_0] [OP_1])
  && yes (verified [OP_CODESEPARATOR] [OP_1])
  && yes (verified [] [OP_DEPTH; OP_0; OP_EQUAL])
  && yes (verified [OP_1] [OP_15; OP_ADD; OP_16; OP_EQUAL])
  && yes (verified [OP_0] [OP_IF; OP_VERIFY; OP_ELSE; OP_1; OP_ENDIF]).
Example test_interp_verify : t_interp_verify = true.
Proof. reflexivity. Qed.
