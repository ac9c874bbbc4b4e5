(** The generator of secp256k1 has order [key_max]: a chain of doublings and additions,
    each step checked by multiplications only. *)
From Coq Require Import ZArith Znumtheory Lia Bool List Field.
From Verif Require Import Base M_Keys M_EC S_EC P_Field P_NumTheory P_Group P_EC P_Prime P_SecpPrime.
Import ListNotations.
Open Scope Z_scope.

Definition PRp : prime (c_p secp256k1) := secp_p_prime.
Lemma ODp : c_p secp256k1 <> 2.
Proof. discriminate. Qed.
Notation pS := (c_p secp256k1).
Notation Fp := (fp pS).
Notation sa := (of (c_p secp256k1) (c_a secp256k1)).
Notation sb := (of (c_p secp256k1) (c_b secp256k1)).
Add Field Ffield4 : (fp_field PRp).

(** -7 is not a cube *)
Lemma cube_check : (zpow fold_p (-7) ((secp_p - 1) / 3) mod secp_p =? 1) = false.
Proof. vm_compute. reflexivity. Qed.
Lemma secp_no_two : no_two_torsion secp256k1.
Proof.
  intros x H. change (c_a secp256k1) with 0 in H. change (c_b secp256k1) with 7 in H. rewrite Z.mul_0_l, Z.add_0_r in H.
  pose proof (p_gt1 PRp) as P1.
  assert (C : of pS (x * x * x) = of pS (-7)).
  { apply of_eq. replace (x * x * x) with (x * x * x + 7 + -7) by ring. rewrite <- Zplus_mod_idemp_l, H. reflexivity. }
  assert (NZ : of pS x <> of pS 0).
  { intros E. rewrite !of_mul, E in C. rewrite <- !of_mul in C. apply of_eq in C. vm_compute in C. discriminate. }
  pose proof (fermat_of PRp x NZ) as FE.
  assert (K : of pS ((-7) ^ ((secp_p - 1) / 3)) = of pS 1).
  { rewrite <- (of_pow_ext PRp (x * x * x) (-7)); [|vm_compute; discriminate|exact C].
    rewrite <- FE. f_equal. replace (x * x * x) with (x ^ 3) by ring. rewrite <- Z.pow_mul_r by (lia || (vm_compute; discriminate)). f_equal. }
  pose proof cube_check as CC. apply Z.eqb_neq in CC. apply CC.
  rewrite (zpow_ok fold_p secp_p P1 fold_p_ok) by reflexivity. apply of_eq in K. etransitivity; [exact K|]. apply Zmod_1_l. exact P1.
Qed.
Lemma G_valid : valid secp256k1 secp_G.
Proof. split; [split; vm_compute; congruence|vm_compute; reflexivity]. Qed.

(** ** the chain *)
Inductive step := Dbl (l x y : Z) | Add (l x y : Z) | Sub (l x y : Z).
Definition zero_p (z : Z) : bool := fold_p z mod secp_p =? 0.
Definition line_ok (l x1 y1 x2 x3 y3 : Z) : bool := zero_p (l * l - x1 - x2 - x3) && zero_p (l * (x1 - x3) - y1 - y3).
Definition step_ok (x1 y1 : Z) (s : step) : bool :=
  match s with
  | Dbl l x3 y3 => zero_p (l * (2 * y1) - 3 * (x1 * x1)) && line_ok l x1 y1 x1 x3 y3
  | Add l x3 y3 => negb (zero_p (secp_gx - x1)) && zero_p (l * (secp_gx - x1) - (secp_gy - y1)) && line_ok l x1 y1 secp_gx x3 y3
  | Sub l x3 y3 => negb (zero_p (secp_gx - x1)) && zero_p (l * (secp_gx - x1) - (- secp_gy - y1)) && line_ok l x1 y1 secp_gx x3 y3
  end.
Fixpoint chain (x y k : Z) (l : list step) : option (Z * Z * Z) :=
  match l with
  | [] => Some (x, y, k)
  | s :: l =>
      if step_ok x y s then
        match s with Dbl _ x' y' => chain x' y' (2 * k) l | Add _ x' y' => chain x' y' (k + 1) l | Sub _ x' y' => if 1 <? k then chain x' y' (k - 1) l else None end
      else None
  end.

Lemma zero_p_iff z : zero_p z = true <-> of pS z = of pS 0.
Proof. unfold zero_p. rewrite Z.eqb_eq, fold_p_ok, of_eq, Zmod_0_l. reflexivity. Qed.
Lemma zero_p_sub u v : zero_p (u - v) = true -> of pS u = of pS v.
Proof. rewrite zero_p_iff, of_sub. apply (sub0 PRp). Qed.
Lemma line_third l x1 y1 x2 x3 y3 : line_ok l x1 y1 x2 x3 y3 = true ->
  GAff (of pS x3) (of pS y3) = third (of pS x1) (of pS y1) (of pS x2) (of pS l).
Proof.
  unfold line_ok, third. intros H. apply andb_true_iff in H. destruct H as (H1 & H2). apply zero_p_sub in H1, H2.
  rewrite <- H2, <- H1. rewrite !of_sub, !of_mul, !of_sub, <- H1, !of_sub, !of_mul. reflexivity.
Qed.
Lemma chord_eq (x1 y1 x2 y2 l : Fp) : x1 <> x2 -> fmul l (fsub x2 x1) = fsub y2 y1 ->
  gadd sa (GAff x1 y1) (GAff x2 y2) = third x1 y1 x2 l.
Proof.
  intros N E. cbn [gadd]. destruct (fp_eq_dec _ x1 x2) as [K|_]; [contradiction|]. f_equal.
  apply (P_Group.fcancel PRp (fsub x2 x1)); [apply (sub_neq PRp); congruence|].
  transitivity (fmul l (fsub x2 x1)); [rewrite E; field; apply (sub_neq PRp); congruence|ring].
Qed.
Notation Gg := (emb secp256k1 secp_G).
Lemma G_on : gon sa sb Gg.
Proof. apply (valid_on secp256k1), G_valid. Qed.
Notation mulG k := (gmul secp256k1 (Z.to_nat k) Gg).
Definition secp_nonsing : nonsingular secp256k1 := no_two_nonsing secp256k1 secp_no_two.
Lemma chain_ok l : forall x y k x' y' k', 0 < k -> GAff (of pS x) (of pS y) = mulG k ->
  chain x y k l = Some (x', y', k') -> 0 < k' /\ GAff (of pS x') (of pS y') = mulG k'.
Proof.
  induction l as [|s l IH]; intros x y k x' y' k' K E C; cbn [chain] in C.
  { injection C as <- <- <-. split; assumption. }
  destruct (step_ok x y s) eqn:S; [|discriminate].
  assert (ON : gon sa sb (GAff (of pS x) (of pS y))) by (rewrite E; apply (gmul_on secp256k1 PRp ODp), G_on).
  destruct s as [m x3 y3|m x3 y3|m x3 y3]; cbn [step_ok] in S.
  - apply (IH x3 y3 (2 * k) x' y' k'); [lia| |exact C].
    apply andb_true_iff in S. destruct S as (S1 & S2). apply line_third in S2. rewrite S2.
    replace (Z.to_nat (2 * k)) with (Z.to_nat k + Z.to_nat k)%nat by lia.
    rewrite (gmul_add secp256k1 PRp ODp secp_nonsing) by exact G_on. rewrite <- E.
    pose proof (y_neq0 secp256k1 secp_no_two _ _ ON) as Y.
    symmetry. apply (gadd_slope PRp sa sb ODp _ _ _ _ _ ON ON).
    + intros (_ & O). apply Y. apply (half0 PRp ODp), O.
    + apply zero_p_sub in S1. rewrite !of_mul in S1. change (of pS 2) with (of pS (1 + 1)) in S1. change (of pS 3) with (of pS (1 + 1 + 1)) in S1.
      rewrite !of_add in S1. split; [ring|]. change (c_a secp256k1) with 0. transitivity (fmul (of pS m) (fmul (fadd (of pS 1) (of pS 1)) (of pS y))); [ring|].
      rewrite S1. ring.
  - apply (IH x3 y3 (k + 1) x' y' k'); [lia| |exact C].
    apply andb_true_iff in S. destruct S as (S & S2). apply andb_true_iff in S. destruct S as (S0 & S1). apply line_third in S2. rewrite S2.
    replace (Z.to_nat (k + 1)) with (S (Z.to_nat k)) by lia. cbn [gmul]. rewrite <- E. symmetry. apply chord_eq.
    + intros X. apply negb_true_iff in S0. assert (Z : zero_p (secp_gx - x) = true); [|congruence].
      apply zero_p_iff. rewrite of_sub, X. ring.
    + apply zero_p_sub in S1. rewrite of_mul, !of_sub in S1. exact S1.
  - destruct (Z.ltb_spec 1 k) as [K1|]; [|discriminate]. apply (IH x3 y3 (k - 1) x' y' k'); [lia| |exact C].
    apply andb_true_iff in S. destruct S as (S & S2). apply andb_true_iff in S. destruct S as (S0 & S1). apply line_third in S2. rewrite S2.
    rewrite <- (gmul_pred secp256k1 PRp ODp secp_nonsing) by exact G_on.
    replace (S (Z.to_nat (k - 1))) with (Z.to_nat k) by lia. rewrite <- E. symmetry. cbn [gneg emb secp_G]. apply chord_eq.
    + intros X. apply negb_true_iff in S0. assert (Z : zero_p (secp_gx - x) = true); [|congruence].
      apply zero_p_iff. rewrite of_sub, X. ring.
    + apply zero_p_sub in S1. rewrite of_mul, !of_sub, of_opp in S1. exact S1.
Qed.

Definition order_chain : list step :=
  [ Dbl 0xcb35b28428101a303eb9d1235992ac63f58857c2f631ee6936d3aebbeddcd1b1 0xc6047f9441ed7d6d3045406e95c07cd85c778e4b8cef3ca7abac09b95c709ee5 0x1ae168fea63dc339a3c58419466ceaeef7f632653266d0e1236431a950cfe52a;
  Dbl 0x6ad2cb95963c033328d4857d4f8711deff557dd9faaa673b400442833f0efb64 0xe493dbf1c10d80f3581e4904930b1404cc6c13900ee0758474fa94abe8c4cd13 0x51ed993ea0d455b75642e2098ea51448d967ae33bfbdfe40cfe97bdc47739922;
  Dbl 0x9693023fb325cc6c7bc993eb684358ea623d5feea8ff351df662beabd0efdc6d 0x2f01e5e15cca351daff3843fb70f3c2f0a1bdd05e5af888a67784ef3e10a2a01 0x5c4da8a741539949293d082a132d13b4c2e213d6ba5b7617b5da2cb76cbde904;
  Dbl 0xbc380350880ab969e653d334691ca8c2da83b2acde59e7439ed92d96a9654a07 0xe60fce93b59e9ec53011aabc21c23e97b2a31369b87a5ae9c44ee89e2a6dec0a 0xf7e3507399e595929db99f34f57937101296891e44d23f0be1f32cce69616821;
  Dbl 0xb68c9cb56c4f0fd3279f2dec6acae3ffbacfb8384548d24892d676cd6beacbf5 0xd30199d74fb5a22d47b6e054e2f378cedacffcb89904a61d75d0dbd407143e65 0x95038d9d0ae3d5c3b3d6dec9e98380651f760cc364ed819605b3ff1f24106ab9;
  Dbl 0x57aaae4151a198790e40eb37fe0dad5ed4d4581b1a82c40124b58ac767ed1ec4 0xbf23c1542d16eab70b1051eaf832823cfc4c6f1dcdbafd81e37918e6f874ef8b 0x5cb3866fc33003737ad928a0ba5392e4c522fc54811e2f784dc37efe66831d9f;
  Dbl 0x875978642d00b859133774fec1878f9e7623f6df9c734f7ed297e920a77b4406 0x34ff3be4033f7a06696c3d09f7d1671cbcf55cd700535655647077456769a24e 0x5d9d11623a236c553f6619d89832098c55df16c3e8f8b6818491067a73cc2f1a;
  Dbl 0xf0d3817330010db820c7710c8ee17a157984f4bfd3bafbd4a49079efd7754990 0x8282263212c609d9ea2a6e3e172de238d8c39cabd5ac1ca10646e23fd5f51508 0x11f8a8098557dfe45e8256e830b60ace62d613ac2f7b17bed31b6eaff6e26caf;
  Dbl 0xed7816fe6ca3e42058b150c9eeac31ef8a6bda7ee9e51a0ec33e09f96afc74bc 0x465370b287a79ff3905a857a9cf918d50adbc968d9e159d0926e2c00ef34a24d 0x35e531b38368c082a4af8bdafdeec2c1588e09b215d37a10a2f8fb20b33887f4;
  Dbl 0x62f219d148d24eff34fe56735390098e29b6a2190daa3dc0fbd1d33b92531a49 0x241febb8e23cbd77d664a18f66ad6240aaec6ecdc813b088d5b901b2e285131f 0x513378d9ff94f8d3d6c420bd13981df8cd50fd0fbd0cb5afabb3e66f2750026d;
  Dbl 0xda8eabc70379e66ae8e505f49deb2e1b4906022def4c45ec320e33aed7091903 0x5d1bdb4ea172fa79fce4cc2983d8f8d9fc318b85f423de0dedcb63069b920471 0x2843826779379e2e794bb99438a2265679eb1e9996c56e7b70330666f7b83103;
  Dbl 0x6c49014b33417076abaadc7958f95908e93dd2886468bd7d27d61cef7c1fdfdd 0x175e159f728b865a72f99cc6c6fc846de0b93833fd2222ed73fce5b551e5b739 0xd3506e0d9e3c79eba4ef97a51ff71f5eacb5955add24345c6efa6ffee9fed695;
  Dbl 0xca43b3ab114e7c697fee873576d7b89f909e0592f9e805e00246c31200fb967b 0x423a013f03ff32d7a5ffbcc8e139c62130fdfeb5c6da121bce78049e46bc47d6 0xb91ae00fe1e1d970a1179f7bbaf6b3c7720d8ec3524f009ed1236e6d8b548a34;
  Dbl 0x1b5d9cdfbd96d7eaf397653b120ed6cb0f4bd05bf004f79c2a9fd0bcdf4929bc 0x111d6a45ac1fb90508907a7abcd6877649df662f3b3e2741302df6f78416824a 0x696911c478eaffbb90d48dbff065952f070008996daca4ca9a111d42108e9d0;
  Dbl 0x6fedf4339b46436d0db4e1864076fe618c51a754e1c0ed5708b889c5733613e 0x4a4a6dc97ac7c8b8ad795dbebcb9dcff7290b68a5ef74e56ab5edde01bced775 0x529911b016631e72943ef9f739c0f4571de90cdb424742acb2bf8f68a78dd66d;
  Dbl 0xa377ffff0b36d0535197bead9992fee7698334fa5bfc270f64d511cc9ab7c03a 0x363d90d447b00c9c99ceac05b6262ee053441c7e55552ffe526bad8f83ff4640 0x4e273adfc732221953b445397f3363145b9a89008199ecb62003c7f3bee9de9;
  Dbl 0xbe610814de113647213fff8fc6378b31333e2bac4ac437ff9a702a6734563c9 0x4c1b9866ed9a7e9b553973c6c93b02bf0b62fb012edfb59dd2712a5caf92c541 0xc1f792d320be8a0f7fbcb753ce56e69cc652ead7e43eb1ad72c4f3fdc68fe020;
  Dbl 0x92ebb512788e5c3c7a3baf1feaf8281104d50976aef98bbac62a97be2d8b7a7b 0xa4083877ba83b12b529a2f3c0780b54e3233edbc1a28f135e0c8f28cbeaaf3d1 0x40e9f612feefbc79b8bf83d69361b3e22001e7576ed1ef90b12b534df0b254b9;
  Dbl 0x9b0f855eb9be64f095aa255167f0f0baf01b2cd3cc72ef8f1444747071666278 0xa804c641d28cc0b53a4e3e1a2f56c86f6e0d880a454203b98cd3db5a7940d33a 0x95be83252b2fa6d03dec2842c16047e81af18ca89cf736a943ce95fa6d46967a;
  Dbl 0xc95c70effee378ee51d4695a7e30804db90a8fdfcca618c180cec3ec5c83b500 0x8b4b5f165df3c2be8c6244b5b745638843e4a781a15bcd1b69f79a55dffdf80c 0x4aad0a6f68d308b4b3fbd7813ab0da04f9e336546162ee56b3eff0c65fd4fd36;
  Dbl 0xec7e64a924b93bbe0b71cb15729ff63848d6104ae7d55a16ed4a41d45b8fe684 0xed0c5ce4e13291718ce17c7ec83c611071af64ee417c997abb3f26714755e4be 0x221a9fc7bc2345bdbf3dad7f5a7ea68049d93925763ddab163f9fa6ea07bf42f;
  Dbl 0x4a97f998b50e69d9b7f9c654687b8490e7f4a168b22ee05f0491f67c5bcae6b4 0xfaecb013c44ce694b3b15c3f83f1fae8e53254566e0552ced4b6e6c807cec8ab 0xcc09b5e90e9ecb57fc2e02c6ec2fb13d9c32b286b85e2e2e8981dfd9ab155070;
  Dbl 0xc0b764bf04ae63359beb2b4fc6f722f47da0482483379a58ca50aff8c2ea4869 0x9bb8a132dcad2f2c8731a0b37cbcafdb3b2dd824f23cd3e07f64eae9ad1b1f7 0x945bb2b2afeee3b9b6f9dd284f863e850f54a840f4752d5364130627c3811c80;
  Dbl 0xb9f84addcab19fb53a62e79564f6075b848477821df6d6c58668d8e9b2501575 0x723cbaa6e5db996d6bf771c00bd548c7b700dbffa6c0e77bcb6115925232fcda 0x96e867b5595cc498a921137488824d6e2660a0653779494801dc069d9eb39f5f;
  Dbl 0xc985b179caa5bee0ef6acefc42c0dec227b196c5dbd0953cc43c5868392e7cd3 0x57efa786437b744d343d7dc45773a3c62d240a43079849071fd383d60ca030d5 0xd712db0bd1b48518893627c928de03ec689b6d2ae5e9974ab07ab44274b02f9e;
  Dbl 0xa6d04e5b19577537db75701165cc1aa476cbdc92cb167d90af93b785d698742e 0x264bbd436a28bc42a2df7e9cd5226cb91080577e327b012a7fafc7770c584dd5 0xd87c6fa94ee093b4d4f75ce24c33be226a118243717b8d8de61227937704ab11;
  Dbl 0x4479d94c2f98166b4c1d24655334f9bab459cb5a6c074f1e9bb5b9ea97b6a18b 0xa94c6524bd40d2bbdac85c056236a79da78bc61fd5bdec9d2bf26bd84b2438e8 0xb5201fd992f96280fd79219505019e3a7e5d3c60a0e39b2bc2e2c8dbf18661f4;
  Dbl 0xbe5aafdeb2f0b1599d1b413e816d0ae93363953c3d97e4fd3afed1c367f9596d 0xeebfa4d493bebf98ba5feec812c2d3b50947961237a919839a533eca0e7dd7fa 0x5d9a8ca3970ef0f269ee7edaf178089d9ae4cdc3a711f712ddfd4fdae1de8999;
  Dbl 0xa6a6f72a0273aa6f7b6276e647117f1c0e9f5561a551c6238ec167ba7ac03635 0x381c4ad7a7a97bfda61c6031c118495fc4ea4bc08f6766d676bee90847d297fd 0x936af53b238eeee48f3e5fa709915eccf0451032db939c0093ace3187d493fc5;
  Dbl 0x8dee3efccec9fbd528bcbdfc380d106f09ab41277d36c65ed6c4dc4784ea857a 0xe1efb9cd05adc63bcce10831d9538c479cf1d05fefdd08b2448d70422ede454c 0xecb4530d8af9be7b0154c1ffe477123464e3244a7a2d4c6ad9fd233a8913797;
  Dbl 0xdb3e8ec5d990ec59421e6569d96dcdaecb7f725432c5a4ddb78439afbfe5554f 0x5318f9b1a2697010c5ac235e9af475a8c7e5419f33d47b18d33feeb329eb99a4 0xf44ccfeb4beda4195772d93aebb405e8a41f2b40d1e3ec652c726eeefe91f92d;
  Dbl 0xf18fad968cb987adc7d7c35fc6ad8974a3fcf82a55e9400e7bf3015e6b558a5 0x100f44da696e71672791d0a09b7bde459f1215a29b3c03bfefd7835b39a48db0 0xcdd9e13192a00b772ec8f3300c090666b7ff4a18ff5195ac0fbd5cd62bc65a09;
  Dbl 0x82cd82212ae9dbf4101c8671a40de941c0bc39b23359c41063b171fe4cbf7c6a 0x8c0989f2ceb5c771a8415dff2b4c4199d8d9c8f9237d08084b05284f1e4df706 0xfb4dbd044f432034ffd2172cb9dc966c60de6bf5156511aa736ac5a35d72fa98;
  Dbl 0xc5ab93dae7b4d1d3c5edfe8bc49fa6ba5566b166494b830b6cf082231fe99f39 0xfb8f153c5e266704c4a481743262c0259c528539bc95bc1bb1e63c33dc47bffd 0x6ca27a9dc5e0621816fa11d9b4bccd531dde1389ac542613090a45ddd949b095;
  Dbl 0xde12036f73e80356f7db91954e2ca46c56dcab93ec4efda7fa9e72b8b3a2b20a 0xe747333fd75d51755a0cc9f0a728708465a02c587737a7b8b8fa1b8b4bb2629a 0xf2affe0145070c114cc43603804c2581c88376aa6e1a969a9f8d961a6946f6d6;
  Dbl 0xeaaf7c28dae8dfa52783d0b7ef5ebc91aa999f58db631588e00a05856dbef4cd 0xe1031be262c7ed1b1dc9227a4a04c017a77f8d4464f3b3852c8acde6e534fd2d 0x9d7061928940405e6bb6a4176597535af292dd419e1ced79a44f18f29456a00d;
  Dbl 0x27923dd35874b9d0c3e1b1930352c0c3b0d91412f38fa8c1341f5a73beb4f8b9 0xf4b93f224c8089eab9f95dcd0f29b2c9028a6ac5de94d85784e27e36a95c8356 0xa67a92ec062962dfb0e5f6a7a40eee90c37ef1344915609abd5861b9be001fd3;
  Dbl 0xd8880a7ae61955a53b91ef1d5de7f4b9646afd475edbbc8974911329e12fbdcd 0x9d1aca1fce55236b19622ea025b08b0d51e8512f97e696c20d62fe17b160e8a 0x1153188f5101f0c63e56692ce0d8c27e6fe9e0ee9212b5e534e050c57ca04c44;
  Dbl 0x8676b3eae525414b100a173e847e521f75a5c46ae628b3858b1c1fbcbc59daf7 0xc66c59cc454c2b9e18a2ad793821cde7518b3a93bfc39562e97d7d0475ba7fc2 0xd9592fe2bfb30fcfbea4f3ceaac10cb2f00a60ddb15955977ec3c69cf75f5956;
  Dbl 0xf53ade417a0d913b3b9e411781e6e8de0ff1a6b169ca912fe5495f51c90530d8 0xfeea6cae46d55b530ac2839f143bd7ec5cf8b266a41d6af52d5e688d9094696d 0xe57c6b6c97dce1bab06e4e12bf3ecd5c981c8957cc41442d3155debf18090088;
  Dbl 0x32f78aa8da44cbc85c1d785fb24f0e7f0da8ec5386523d436bb3a50d1e52fb8c 0x4d000b621adb87e1c53261af9db2e179141ecae0b331a1870aa4040aee752b08 0x6a0d5b8f18e0d255cb6d825582d972cccb7df5f119c7293a3e72851f48302cea;
  Dbl 0x2c5edb78f874848d89ceb49fa59a1ff38ba3a6605f567ca67bb74a6e78c097d7 0x71f570ca203da05dd6aa262114717128d657a0403e1f1b77f89962fd475c58ef 0xeb42415b95dc880dd25557345bc95b8df2445d00c3363e7df8649a72d35d420e;
  Dbl 0xdebcd686b581f6645f94a93467d0ecdf9e4ad7edeedcfeed57d9d6364c78d427 0xa2b7b3629f7bd253b7d282b5c21da01446b4821dc65e76516048b06043ff8359 0x693038941695122d57a937a3f71e29c910d10835046f3835a2397fecfe86fec2;
  Dbl 0x81751b61f3b4ad7169d8ac62378adc14043339e3a60078fa2bf394c804c26e20 0xda67a91d91049cdcb367be4be6ffca3cfeed657d808583de33fa978bc1ec6cb1 0x9bacaa35481642bc41f463f7ec9780e5dec7adc508f740a17e9ea8e27a68be1d;
  Dbl 0xea6ec05c50822815af2653e43c1adabb3be24e602591c72373d731cc1a44a051 0x4dbacd365fa1ef587c0c0cfaaf00d8718bbd9f35ccea5a835ee3cc821fe741c9 0x16c3540e8a51892e7fdcfd59e838299d0cc384a09fc0535f60be10f8338eb623;
  Dbl 0xe60635d4ed2d254e05003b55d58bd309cce50b703f8dbf6d4700a65d85559a25 0x13d1ffc481509beee68f17d8ff41c2590f4c85f15268605087eda8bab4e218da 0x6008391fa991961dcecb9337b1b758bda4ad01206d5bd127e0db419ddb191c19;
  Dbl 0x7471bc58c865f770a22bcb1e2465507731b3ad17d19c55c851a736531fefafae 0x219b4f9cef6c60007659c79c45b0533b3cc9d916ce29dbff133b40caa2e96db8 0x24d9c605d959efeaf5a44180c0372a6e394f8ac53e90576527df01a78d3b6bc7;
  Dbl 0xc84b8bb00e0f4407e49fe1be00895dca6d817c8ce64cfebb5d67625411bde644 0x53904faa0b334cdda6e000935ef22151ec08d0f7bb11069f57545ccc1a37b7c0 0x5bc087d0bc80106d88c9eccac20d3c1c13999981e14434699dcb096b022771c8;
  Dbl 0xdfada4b2106cac4951ec538f3d828576d57426ebe0d870d5e091e5b044aa5639 0x1a575af9d4146753cf991196316995d2a6ee7aaad0f85ad57cd0f1f38a47ca9 0x3038f1cb8ab20dc3cc55fc52e1bb8698bdb93c5d9f4d7ea667c5df2e77ebcdb7;
  Dbl 0x51ee9a34eead0ad899a54439d004a42a2f3fa11be3c4773c1dc6457062e3572b 0xf5f0e0437621d439ca71f5c1b76155d6d3a61a83d3c20c6ee309d755e315565b 0x6b9f4e62be5a052bf62189160df7101aa5bf61bf3ed7e40a678430afdd2ecc82;
  Dbl 0x602c9992d00cc6030985312c38033bca60ce74f3a25777862a7288488389cdc1 0x8f506f0b6c0b6e9a57a7f36d970ca4e347cbc92146227642cbe781d9f5362d33 0x469f955d2afa61719530c5424f1c336848cf925d43bb8eaf30487d0c87fa243f;
  Dbl 0x2caed624594a3483ad98859bef75a97ed7cc509bd906bb2b23fbf9fbe4e5004f 0x8e7bcd0bd35983a7719cca7764ca906779b53a043a9b8bcaeff959f43ad86047 0x10b7770b2a3da4b3940310420ca9514579e88e2e47fd68b3ea10047e8460372a;
  Dbl 0xff486a88ac95151d852a5270924d4ccf1fff7b676398e499d324893a4bbb576c 0x33b35baa195e729dc350f319996950df3bc15b8d3d0389e777d2808bf13f0351 0xa58a0185640abf87f9464036248d52bcaa6560efbc889b702bc503cccb8d7418;
  Dbl 0x8309b9cd7caf364f8a4726b848e574837a1498176583cd38a99bbf35c27c0e01 0x374deeae22c93f955cb83ad2071f7e2256f6e109cad7bca6d71dc7b24414bb36 0x171165b64fcd4f9916032c06f806f7293828d66300e543217875bea98daf734a;
  Dbl 0xc3a088da9a740fbef9a36dc94890489302dbf3a200c6aad18428714f41d62ef0 0x2380c09c7f3aeae57c46e07395aeb0dc944dbaf2b62a9f0c5e8a64ad6ae7d616 0x6f8e86193464956af1598aefd509b09a93af92148f8467560099be48161bbc1a;
  Dbl 0x9a1bb41d1a00d1b60cc94b47fe3b071dd38189836c875b949a5bb1b3744d5622 0x385eed34c1cdff21e6d0818689b81bde71a7f4f18397e6690a841e1599c43862 0x283bebc3e8ea23f56701de19e9ebf4576b304eec2086dc8cc0458fe5542e5453;
  Dbl 0x738fd7bbbe9afd0e286fa67c1b3d9d1d4306cf1d91327714eb87d7e6678bcdb6 0xf6f622083daf54800456be134d5f67d147c82642befc1ce2dc83a27078f2827c 0x1bcd4e817de73a0faf2c5715b367cee7e657ca7448321bf6d15b20b520aaa102;
  Dbl 0x245df8c5a6ad254b4c4c56c0d969cacd2ea321b08b1ed4d55515f34d582f7420 0xfb26e5188f953de2bd70cb3c3d1fc255cd91c3ce7d8c6f369d893209715adcb6 0xf3e128811012a34d58e846a719d0176916d2cb31b8b7ab5449dbca3b58ba68f3;
  Dbl 0xb51b78655a4e5a25c8c18dd20190b5571b736e586729fe907b550841e1b6724f 0x8991225911b9132d28f5c6bc763ceab7d18c37060e8bd1d7ed44db7560788c1e 0xda8b4d987cc9ac9b27b8763559b136fa36969c84fdef9e11635c42228e8f0ef1;
  Dbl 0x2e95bd430cb40948c3e3069bb698efdada1d87ac3d902f2d55129e9cbdb660d4 0x6f9d9b803ecf191637c73a4413dfa180fddf84a5947fbc9c606ed86c3fac3a7 0x7c80c68e603059ba69b8e2a30e45c4d47ea4dd2f5c281002d86890603a842160;
  Dbl 0x61ff0b09e723c8829eb256b349701c992867da5babb9246b4e80f4a06a7739aa 0xae86eeea252b411c1cdc36c284482939da1745e5a7e4da175c9d22744b7fd72d 0x19e993c9707302f962ab0ace589ff0e98d9211551472f7282334cb7a4eee38bc;
  Dbl 0x3172c36f49857e7e10d1b5927bf54091d80521d6b2eb92a8998b92cbb2234de1 0x2248c9f90bbfff55e61d2f8c56dc2c488718be75cf36f2ee7a1474267c169290 0xfa0594692d21eed7a506bb55b435ba18e163750235da2be2369d8a12883ea257;
  Dbl 0xc3c8b71e8454afd4fe4ae23209d6947bbfdb44f29f3474cbf6e1de6bfd9974ad 0xe11a6e16e05c44074ac11b48d94085d0a99f0877dd1c6f76fd0dac4bb50964e3 0x87d6065b87a2d430e1ad5e2596f0af2417adc6e138318c6f767fbf8b0682bfc8;
  Dbl 0xc781a37bd88a0baa945a25dcbec891a96eab33936f3ae33b924c4ebb9ccc91e1 0x3322d401243c4e2582a2147c104d6ecbf774d163db0f5e5313b7e0e742d0e6bd 0x56e70797e9664ef5bfb019bc4ddaf9b72805f63ea2873af624f3a2e96c28b2a0;
  Dbl 0x5e1c71fb55e898f6e64912dece2b8a3d031f1eaee2af6f37ebd48ca94c1a3624 0x8d26200250cebdae120ef31b04c80cd50d4cddc8eadbcf29fc696d32c0ade462 0xebed3bb4715bf437d31f6f2dc3ee36ba1d4afb4e72678b3ad8e0a8b90f26470c;
  Dbl 0x5adeba52ee6ac0e141ffb884efa7a7d9a940b9950373647c8aaef60dd14e763c 0x1238c0766eaebea9ce4068a1f594d03b8ed4930d072d9c8b9164643e1516e633 0x8a9db02dbb271359d6c979e2d1c3dc170946252dcc74022805cdb728c77b7805;
  Dbl 0xa478dd7bfcb0fe45115c6952feba38f9de0842736b164666c083b48c9ac6cb1 0x271d5b0770cb9c15e7b2ea758a6a11b9cddcd7282b0ec21619b01552788e7a66 0x5d3aa45834e7f491e457d09949ac877fe2a065e3508a824e7a8d7258e03c9727;
  Dbl 0x104f2aa37e05be6add58d281a2334816593555f014ce643f702814ec1391f5a4 0x85672c7d2de0b7da2bd1770d89665868741b3f9af7643397721d74d28134ab83 0x7c481b9b5b43b2eb6374049bfa62c2e5e77f17fcc5298f44c8e3094f790313a6;
  Dbl 0xad98ae499f8b968dacfaf69097db01061deecdd4b8b7fe434720aaf6131a6fc1 0x534ccf6b740f9ec036c1861215c8a61f3b89ea46df2e6d96998b90bc1f17fc25 0xd5715cb09c8b2ddb462ae3dd32d543550ae3d277bfdd28ddd71c7f6ecfe86e76;
  Dbl 0xe3b8c91ddd9155986dea06e85caade56b09b179572444c1c2007fd77d04d6f0 0xa91d1f5cee87b7f3081e142018f8aaed79020d47ecfbc8d2c7170923e8bee8b6 0x748a324ee2df8ee15a7189c8dddad3b2f800569f628cb225003d16aa410644c1;
  Dbl 0x6d5074103e91fdcfa4597e9b5c32b822c19b5af92207eb477c72ec4f9dcccb6b 0xc15c8c23d90c8e35c1a214dde2d4383c0735ae45bef61f10aa1a1c255984cf74 0x2ba954d828522235c8dc6f45e25fd7ba47bf772d50b015a2c4a48cd839ccb000;
  Dbl 0xb0486abb58d31b2dc9704b8502170a38dc4139987db4802a1661a40d857824d 0x948bf809b1988a46b06c9f1919413b10f9226c60f668832ffd959af60c82a0a 0x53a562856dcb6646dc6b74c5d1c3418c6d4dff08c97cd2bed4cb7f88d8c8e589;
  Dbl 0xe6d9fa3e6518d4e9723dea425cf89cf627c6b2258bb185785b0f3d91b04e6115 0x26952c7f372e59360d5ce4c66291f0b6ef16c1331e825e51396eb0457e8b000a 0xf513ea4c5800a68862bc893d2d688422debe398f653d67318c3d401f05ef705a;
  Dbl 0xd884b65bd5b8dfcbdda21a681b317b0bcbf4d101debc21a38ca7300520334d4c 0xc62e58e6fc23c5bdbef2be8b131ff243f521196572d6b0e9f102588976134f96 0x4397827d45b1a1678c3d676753141fc5bcfb853563731c3e82277ed4d14cf97e;
  Dbl 0x9d1540c9467d3bf99ee5b77f3c9121f1a88e1886ce5c64aa196b85cf6815554e 0x107460520eec5c741683329a716622b0b81c03200807de973686f8800b188cbb 0xabe5d4c09a21598c35326b9b9cf54a11242e0d748dce3da601d7b6361f272124;
  Dbl 0xc48405b3038c03bd744a8ed8a5527cb83e8f1929b392d0a6967cbd721bae0b 0x6260ce7f461801c34f067ce0f02873a8f1b0e44dfc69752accecd819f38fd8e8 0xbc2da82b6fa5b571a7f09049776a1ef7ecd292238051c198c1a84e95b2b4ae17;
  Dbl 0xf9bd4b25fb8787ac97edb42b9bac8deb9ff7ef01b41f5d6575086f1012bf96ce 0x85d8da4748ad1a73dec8409be84f1a1316e65c5196aad27e0766746f3d477c2d 0x58948b53665c6690586b536531efc7bc94b0a02033c4d5a62079816fc7d1dd70;
  Dbl 0x95b144bd0405b76f012f298ce4bf1355bccb8671d21cdb26d904bbbeb3860cda 0x8e2a7166e7ec4b968c0892e9cc3ee3ee4d1e7e100fdc47f04850312d6c0b80d9 0xeadb0ba9ae2cbe592cedd29b716a9d485297b688d706349a49c61f2ad6b29f50;
  Dbl 0xcd97a7266946a362a966c2469bb3e45413110726a2c395c2bea221545461dbef 0x769bc75842bff58edc8366ecd78f8950ee4ab2e81359d90f9921fa3d2c4561be 0x4bf817362fe783bac8dce4cef73f5d4741a177767b7873add5920bffb0d9685f;
  Dbl 0xe53ce2c798d39bef6ff55175192d6b703f4df8f610db8e47bda11627318a4605 0xe5037de0afc1d8d43d8348414bbf4103043ec8f575bfdc432953cc8d2037fa2d 0x4571534baa94d3b5f9f98d09fb990bddbd5f5b03ec481f10e0e5dc841d755bda;
  Dbl 0x18b9cd189f45726e2c6dfdc2cce38866bc945ec92113621bfaa817ce723adf9e 0xa5e00da467fd5494f40b6cf7d2d61b3ec3ab217c792a2ddb8c63c8c79e3d34ef 0x98fe5f5e5608555421726fe99bf43d25b60dcfe790900acb855c5ce2f7adb4c;
  Dbl 0xbcba2313f29e1d97551bf61072f2a6f583d17ef9378ac65a6a5a28639887beb1 0xa99415f5ef3a2b403519f4bb1c9bfbc46d4afd2e4477572ae6737160d7b91252 0x82d0e64cae81f84bb9e2f10f24f6f6b6899a16ad590f4ddd73a377ac4bedc264;
  Dbl 0xccb0c2d5a765fae0fa90950f0ed92a38ad56207a00bd4f3ea9da4b31dfc25815 0xb56f4e9f9e4fd1fc7d8edde098f935f84c750d705f0c132bd8c465b66a540f17 0x32e8e53429cca856d3dc11adf0582d1d21d42963cbcca85446a2fcae0200102d;
  Dbl 0xdfedec6f42f70b127c80c91fa38ee129550274bde0c96a7286b93a0f6c39dfc0 0xe06372b0f4a207adf5ea905e8f1771b4e7e8dbd1c6a6c5b725866a0ae4fce725 0x7a908974bce18cfe12a27bb2ad5a488cd7484a7787104870b27034f94eee31dd;
  Dbl 0x24076fdb1fa11f74017e5c3696347308e32b3f0e740977d9c044061b43cc1ca4 0xeac134ca2046b8f9c8dbd304fad3f3c045ebfdb4ec6ed3cfe09aee43ed2ff3e 0x49630dbe79359b4245bf103bf2b11799ac19f696b7f21376e17206207d210988;
  Dbl 0x38894d85c2951105037a5d11369af6d039f62d660aef1e5b13689d8a8da7b17a 0xd6788590731fea198392119d7adbb41ff5948a7804c85b17476706e4dfbfa4dc 0x28eaa8c89d5063c4940ef5c6d21c13aa6206f1c4ddc9a07cca7bcd6bbd3b5406;
  Dbl 0x43e3186271177bc3437dffd0f295e9a9b2a7a173698f8c15f747e07c7e8ff275 0x6930fccbd9a040974abf210f12b71d4bc7b1a6205599b01a7275fb40e48ff9b3 0x7f02ae94b94701eada30fcdb875f6d78090f9b13e4acc51acfddab5f8ee96a4e;
  Dbl 0xb52c04d03ee5d1a4b1d4065d2e74ed960cb2de26a95aa21abbc0df208ef24801 0x213c7a715cd5d45358d0bbf9dc0ce02204b10bdde2a3f58540ad6908d0559754 0x4b6dad0b5ae462507013ad06245ba190bb4850f5f36a7eeddff2c27534b458f2;
  Dbl 0xa25099814b5320e1032c789b522196ca8e997d9c4c7caf884c79019ad46985e4 0x1c5e548132b49a7f66ae9fed8323480e0d1ab974622e7cf08993895e0ec87fac 0x4ffcf60f837f468f2bb959fa1d4c2ad3a3deaceb26fe324c555d7b3d5fc2d4ef;
  Dbl 0x722376042ae0f9d2ab08571a325abc3a4436037b5b82183ef03f4c040825c566 0x46276d0602c5668ddef6e94210bbc7ce1f901c19fed5c970e20fcba1d4531dbc 0xe0f7f24d44c75b84a292287570ded99498badfbffe1bc99af8730099686b8e2;
  Dbl 0xa108d01af8d3416aa2f0e358342876e2ba7343cd700f6c28a824e467637a1221 0xefea68eca7a6c24f4e65eb211c3191636850e0acdc78d8996114ef13522f001d 0xaab847869d583c14da150307a3719a17e413959fb3848771c128419f73bc4415;
  Dbl 0xaa93ae9daa82037fbb9b9ac8d39248dd36602f49c2588d2617debf0c252844b5 0x4e7c272a7af4b34e8dbb9352a5419a87e2838c70adc62cddf0cc3a3b08fbd53c 0x17749c766c9d0b18e16fd09f6def681b530b9614bff7dd33e0b3941817dcaae6;
  Dbl 0x1636e902f0379b679aafde9343d791a7ab89d449ce8432e3b716d55e3470094f 0x899017b02696888f268a269f4e385d9c9b11f25a1bef8790e2821e6e7c6e1b4d 0x43ae2cdab5b334f0bb45798336358bfae4e51bc0f932b212009aebdad814ab2b;
  Dbl 0x61d87a0cfe2e33fd3d7b20932d6ec316534b451b05017d55ebf66df97c650703 0x67f644f76e905fd4a8f4728e63227f0e2831f5bf91b583a8af2635a17e5f712f 0xb833d68f66445d04f05adeb7b586cf785e0e1488f7d36198d68acb5e707160e5;
  Dbl 0x24454cfd40d319c9fe377ebae48788ea6718ae1dc023e42f98c46838dfdb2715 0x327f876c93652555fa80a054968b4712930dc93012ee6b8dc10263ed3b89a762 0xb2d404eab3524026b09969255e1997b975535070febd7dfe9c9fd959b9203301;
  Dbl 0x717534901dbb59ab006854c068a50dfdd20232fe591a31fbd7dda12262862069 0xfea74e3dbe778b1b10f238ad61686aa5c76e3db2be43057632427e2840fb27b6 0x6e0568db9b0b13297cf674deccb6af93126b596b973f7b77701d3db7f23cb96f;
  Dbl 0x41c5c1a77b62baa51b180e1dcbff6780ece0a093f5a78051c6de090fab67d58b 0xed9441c8304280ff180e03d850e8cd0ebb570ee5de3730488fd97c961f9756e4 0x3dbe9e9efe8bfa19afa176128b13911e09f23774fe4de98bff0e09f93f3abfae;
  Dbl 0xcc008c577437b3b458c9b836494bb2bc62d6e64da3f0842ef710401e85163577 0x29d9698ee67a7c3fc9fed3f624b487515b10bdd84fab4d3015bad033d51cf119 0x7fd02c517dc82b45277a125404f1c96fb89c940e93a7c2963c88740575056339;
  Dbl 0x9294b9f9f80b87f9d51ea42cdc54616c6c8cacf9b6a14ad9e9bee370d90df338 0x126b57d05013936d6f3fb7bd33580a31fd453e4a86060cff467c44537f422491 0xc1a7dc13061662c2e3c4a3eba2bf3fb0e148bac30bf39347afa31f199da3ef84;
  Dbl 0x27b376e30f76ec47e5e68b16c3a2cf484262baa820f9d61937a65d963ba0a28f 0x76e64113f677cf0e10a2570d599968d31544e179b760432952c02a4417bdde39 0xc90ddf8dee4e95cf577066d70681f0d35e2a33d2b56d2032b4b1752d1901ac01;
  Dbl 0xf1bf5eae2a0c4c9ef23bb69797a3827927656b3d5c2e1dc0e927cc43f0db11ba 0x708a530e9e52c73bee87c9d88161c810005d57622c29ae691cf999a83a1187a5 0x9b884811e1f9a897fa9656dcbb6d38283ecda73c6d353e8a58a4f19b473db9c0;
  Dbl 0x546acca7e813b1998650b06326ef6544d2d72aa88a3413c45c35c5c3ba5cef5e 0x19cf034fc48b3be219bd648395e462cf9f374b6d86b2b59e2e1b16c6cde4f5be 0x28e32b06a15ab466c3b4be68ab181947ef91d1c93f0f1c0c0a91532b6f321af2;
  Dbl 0x631098678fdb228e7be3f87f83e86efe5e8cb7d78b2be931475be0b75e618be4 0xaf6c44a078cb5f0d7c719c2f8397f576ee93bd034bea2219e3abc209d17cf3e8 0x784096fe85d4b30af9e73153cb246dfec362aea7ca0d435b8add0601751baea;
  Dbl 0x792c04e8f7afd1b9a401fb8523f74d5c81c76302b10a6726b0a0b54d60e62eac 0xc738c56b03b2abe1e8281baa743f8f9a8f7cc643df26cbee3ab150242bcbb891 0x893fb578951ad2537f718f2eacbfbbbb82314eef7880cfe917e735d9699a84c3;
  Dbl 0xa12d5e05dff013873b8147dae62e9e6caf91901e3e357c1cec3858f69f0d4b2 0x5578845ecd7c037435b32a6992e7aa94647197ea49b8c9e4ddaab0784662ab1b 0xe61d07978b6de2c3cea6d0a51d2a4053f653a7746a5d64de316d18f3056f3511;
  Dbl 0x2a2f3623eafc2706805279368e2b1c5c2afa8d5e85e53d5ba7e9d48345cf88f4 0x47f3383888a364cc4abfa3bc1d0ceccd22f12354fce3996094f869b8948b6c29 0x48ca9a8d0f032937190e48675b416c7118bb499588f994a81edee1120e537ef9;
  Dbl 0x292696c573b74a6cd56a72bbb1bcc0d621fb2ff611aec55bd728a03258fa9ac4 0xc0c01f34ae41b8cfe466b4c9c6a5d5f614f570d6fcbef768a81a6c8f05ff4adb 0xb84f5bee4357f5c7c937a0b4075b8cecdbc43d170d15b85fc4eff73ac351065;
  Dbl 0xaa59b2dd302ea6d3ebf0bd86b52a675096448eaee3e2c37f59fe73a32ea2452c 0xd895626548b65b81e264c7637c972877d1d72e5f3a925014372e9f6588f6c14b 0xfebfaa38f2bc7eae728ec60818c340eb03428d632bb067e179363ed75d7d991f;
  Dbl 0x9824e79ee39825411d7bf6454d5ed23a6453d1b81b9b3a889361ae2bb1a01db9 0xfd136eef8971044e8a3a43622003a26703ecaf7a0ec40c3fba5b594b77078424 0x218da834f3c652cc67a1d191b5c5efa57cf2b1f78a2adfa8cd61eeefc671ddf1;
  Dbl 0x1410252b4cd150f805430da05be0fa84af1a95f3bda9041d49b5dac99bde7dbc 0xd99e8e9dd9638d140e9cca5367519f861b7003a0d43f024a5f1d84ec8db1cb3c 0x36dc19ad1cc0a3a7a945bb321bceba6e6286fef8ffc8765cd88a29e36b8637a7;
  Dbl 0xd835dfd81665457b77de5400f8e630b0f3fee3384b8a278f65ff35efbac3549d 0x3fdf1619a198317a1bd8a54e5b09191d203351e0440e636fd46f68d3c385172 0x408d02c06e5c12c3fe470c7d3c8573755b9b929e90e7232b79ac67f0fccb9794;
  Dbl 0x31acb4e1b1cf7975d68309d78e4079a67ff7ca16b70a141bca36aa1e38f7816 0xb8da94032a957518eb0f6433571e8761ceffc73693e84edd49150a564f676e03 0x2804dfa44805a1e4d7c99cc9762808b092cc584d95ff3b511488e4e74efdf6e7;
  Dbl 0x9e134159fa7f342a7059c56115bfcbe4aee40bb38561a32f7d1cd882eb497297 0x6d36d105ed8cc5ce53f2cb698ab620f9469a3e5cb25bf6e6d413f414c5af726a 0xe4ba5c34e377669e72d8c66c95c50029dcc59936b4108a35c570491a13f9fc7d;
  Dbl 0xf7f95ba71f70ffae38b8afe471517eb23276f67bb7e8587cbcc1c8f03fdd8edc 0x3ab6bde10cd3ac0cd06883fa66f0b0e3eb1309c0534b812286e2a30ca540db99 0xbaca62079be871d7fc3117a96a13e99c38d137b0e369c043e6873fe31bda78a3;
  Dbl 0x775399578055e555c62520e02bf03e8454a29230887ca4369e4c87b9bb0ba8cd 0x796634e3f1ad56f0fdba069d9d07bce2ba2fd4f373ddd3ba7777bf279f1048da 0x4d8ee2b6cfb20b8956de74735a7927f2532576d8cfd74862e8f9be24a106cf01;
  Dbl 0x500a08279b3c953b7ea4c442af79ee4fc12bb93017e4727816b4374fcac245db 0xe80fea14441fb33a7d8adab9475d7fab2019effb5156a792f1a11778e3c0df5d 0xeed1de7f638e00771e89768ca3ca94472d155e80af322ea9fcb4291b6ac9ec78;
  Dbl 0x759f42169706492f4d893748465b0b891cf451657415eb8bad19754d88799bb8 0x440ca1f08ea41265981ac4ed1efe7a37122dcc3877d2f9162db0e78b0f83cd58 0xa6c8b0d2cd5ee122af8954dc9d4e2f02a21e4d4269c0a260b07bc069b88a3f4b;
  Dbl 0x9b2f8851451a0c4a32b655df99f323889b9f437a5ac499423c383f787a29e43e 0xf694cbaf2b966c1cc5f7f829d3a907819bc70ebcc1b229d9e81bda2712998b10 0x40a63eba61bef03d633c5ffacc46d82aeb6c64c3183c2a47f6788b1700f05e51;
  Dbl 0xfd694f82ce17714f7e6a833cfa028cf5206ab4c04bab17679f65e28f90487e1d 0x8b6e862a3556684850b6d4f439a2595047abf695c08b6414f95a13358dd553fd 0xea5e08910ed11cb40d10bc2df4eb9fa124ac3c5a183383d0d803dad33e9be5ed;
  Dbl 0x6d66f1633c0ea4e3be369e04bdcfc73efac3f92d72320932c55fd0197c48e44a 0xa301697bdfcd704313ba48e51d567543f2a182031efd6915ddc07bbcc4e16070 0x7370f91cfb67e4f5081809fa25d40f9b1735dbf7c0a11a130c0d1a041e177ea1;
  Dbl 0x60fb0dd8cfb159a6cc7a0b308761f2bb17857246959617835ef54989090a211d 0x27e1e59cff79f049f3e8d2419e0bff74b43965004c34b5d811420316f24ba5ae 0x310b26a6c804e209ee1b5e3cfc79df05df48a1a69afa63f784a5bfee883a45b3;
  Dbl 0x50018607e3d60e50bc5e7dd6ea0060dab9e5478b964170294f64677ef6f5adfd 0xc712e7a5f6864aee16588ec3892d7e4f5a39adde84fbfb4f9969175c9caed7ae 0x49644107516363b365ed4b82311dd9e5380d8e544b0ce63784d148aa46156294;
  Dbl 0xcae60ba240a4434e4187587e5c8846b5fb61cb5eed6df31ef65e69275e8298dd 0xbfc0504a4b3235d065c0d426b8675fcb2c85d6f58275d791b43e1fe44a6db03 0x1955467a6c34f3453fb8ec7f94a6c99237427197345d4f0558ac8d1a464b8542;
  Dbl 0x27fec578a9edadb2aa5328699c0a3cccb201d9e4c4c46c036041f20898797576 0x90ad85b389d6b936463f9d0512678de208cc330b11307fffab7ac63e3fb04ed4 0xe507a3620a38261affdcbd9427222b839aefabe1582894d991d4d48cb6ef150;
  Dbl 0xd4f0db18fed8a66a083b386445c250011b57923062480f793ccb65d82d6f2d6b 0x7e2cd40ef8c94077f44b1d1548425e3d7e125be646707bad2818b0eda7dc0151 0x905b75082adcfab382a61a8b321ef95d889bee40aeee082c9a3bc53920721ec7;
  Dbl 0x58ff873b75fe48d0de02ba7960e477f2b009a1fad79a0c13db1f838a68704f33 0xa146f52195bedace21c975bbd1ef52a79c636bf9db853cf90e103ae41345e597 0xa5a99b0ab053feb09ae95dd2dbb31b40ea67a5b221f094b07675676af45a770a;
  Dbl 0x4a448861c49b177bf3d75a72ffbe403636a0189476ffa033360c12be26583b58 0xd24c75a1cf1993b9bcfbf9dab25a8114dbde421efeccc4e20cbb53fc4ce45444 0x58fe1d2de84dc1d1cfcb7d1810e5a78abf7593f499f1e524cb93246987dd4a57;
  Dbl 0x857ad2cd6b2921bd076754555a30fbaa46c691e4d20c90d6ea86468cd38da973 0x8f68b9d2f63b5f339239c1ad981f162ee88c5678723ea3351b7b444c9ec4c0da 0x662a9f2dba063986de1d90c2b6be215dbbea2cfe95510bfdf23cbf79501fff82;
  Sub 0xfc8b6877fac26cb8bad159ffb5054e192d185a695991e862b13a1157137bdfbe 0x6c034fd8cc8bd548e12569b630710400e6c24a05d9d6b32f08522a241e936da8 0x47ec36379eabcb793bfa408f7898ea619798b51289138f979b8eb3fd33d25f15;
  Dbl 0x9aaedcd3f59a511859bf395e1ecd70760076101893a56bb21333695455e74996 0x97e3647dc6f3d7aebd8cb7daff6d3ca14a14eed793fbd5a483831c7b69c1dccf 0x61cc4711e780ace666a2623eeae905b6c09acc24851535c9af243d5e4b388af8;
  Dbl 0xa9148f747424fe2d32b64be58cfc911fb79a6b7651fd7659709c61ec71d226d5 0xbd9dfd15b6c79ab3a86c9194634e8a3f8c41b1262a277930f6c47bd4df23378f 0xa46ca64f165a57308d5177164e98482b020fcc5aacea1e70c98a0c888ea6b468;
  Sub 0xc1e5bfae7e9ab5edac943a509f0b909de0240ab289c209ced04849d954c1ed4a 0x68a739be0e328a723ecf601fe7a1c75b5a33520e27a770b89f1b8022c8b2abc8 0x69e2f38b16cb6ad206233480ec42d429b3209bf64aa30f27e3b1dcc295074f42;
  Dbl 0x8532f8eb16203de056ee10bbbb95ff107dc6b10e55caeb78c5b32aa624c44c35 0xe35e1b85ac68365745c9f535c56e2035b5832b1f25eafa0e418e04afde1af480 0xd7c42c86d29d9170a89c014b1236f50dabd52c09a997eec5b24daddad17c4546;
  Dbl 0x7dadbcbfaa91cbbf78b2986150ac4e327edb9c69606820cb5a391831b9aa8b86 0xbcb5c46f872a1d5a16bcf3e774a58a88576e8e5e839c03677483a129424b4a59 0x64512e8b37f510cf879ead74a15aa65f2be045d50266ae47eeafa917b1508b57;
  Dbl 0x464b37aee9e3cf9ceb318e70fbf5949a9746428a0d4230c392969175c1fe9102 0x9023a8df54d1f2df00d367f04bec7688b96a03b279998820ac41800ceb3caacd 0x49351b7e198ea8a7807771bd843cbb3a5e9c2d8a5035e4e3a995425f695e6731;
  Dbl 0x90d58ca4958eb13899468baa7bd19964d7201875b86dde6ccd6bd3c90ce236df 0x4fae94281db702f7524193cd427222f4f287c4b4ce04ad2f1538e059a80adcbf 0x5e20f1b26b1e42c3a10a9268bc517d27e6c9c242716521015c51e378afee26c0;
  Sub 0xf91b01b74c44d50452c012ebde3fb579cafdd97f7d7bf637f019fcaaf7079e9 0x1681af3357c6512ffb8c1e9f65e64fd81a5a93d77a67430cde445042f5b2e31f 0x3564db78473ddbd60fbddfb84a4429a0f182bfa0fc14bc3a5a5ddf8181a5210d;
  Dbl 0x37b6c936c1f724a47343cb4fdfd95568d4ebe6acc6d9e50901a795723e359831 0xca24485c16cd176669faff4f27c41c15e0a123c7c859e2f2176e40499089a373 0x7b25866b4bc8a1ce1fd65b75a45028fe7ad6ed6b9ee8c7670e45e003072a7cbd;
  Dbl 0x1feaf819ffca25f3b9c197e022f9534f881680b73b166f6322e4c00d66ddccc1 0x78bafc5e16a4acaa01c15c4dfd18666b463e43e771fcc38ab38d2043ca09ac12 0x249e44f753381138b95a4e6feff0ae5e38107df0b053486dee49da58e59370d5;
  Sub 0xe1a5f099e7d10503cf72913018556899858d231be015d0d574c73063a319368b 0xf63be9637bcdacede3c3fe4f387445bb29d7ceb887fda015f18dac27cb35f543 0x9dea543f3499c68e7512b9733f73dedda18bc1550d229aca9537d871e58c5a05;
  Dbl 0xd1c03969250c4dd33fb07bcbfc4f9e59fb99a37d71a5a1b3fff6f08ca4156e2c 0x80b3e8ef2ca93e4564fb4fb748b29409a3fd06e70089274afc73112c21e64477 0x7d1035444e130b2e9321cc9d22e97cf9a34bfc81a30fb38e73366eabda6f4160;
  Dbl 0xf2e392a1075b09257a56d40b9302887966fbd4a1789052512367e3174d62b5c3 0x609b3a59c72885dea386ccead145835d38f59efe2b943bedc311311762eea289 0xf8e2d08352afb20d2b392cc9475c34a04d4f9fa00c283410f239ec5071865c15;
  Sub 0xb8eda1a8824a7752dce3f803f0bc739aa7ffcd9e6730fc80874075ca4078d38 0x80216fba773e5e62ba48d7a506f6a3f9c3a11e2ae0dd2a3397f72c62a23aef1a 0xadf67121c5da1c4462f32158eae2eb10b686f06d1658068dc9ccfb913a930ab4;
  Dbl 0x714ac25124a0f210514a0ffda9101cac365c8d7f76311c6c49fdaa7d96325f24 0xfb34775da06ab702d1066fd09d8776c02ea1bc6c1e4e82453c5223a299f1ef45 0xbb9a7abd63c50265abf3d2fb7b1cfc235b479503bc63b56ea5d9e148c106ce94;
  Dbl 0xeff70c491077d6ec76deb529425a4439fb9f0a65fb05229200a788c0d3b3ed2d 0x14f7672bf91530a0c6ca84ab95ebe6e5d4de984d9204625a1ee548944c9faaf7 0x51a728b07aa59ccc082b9998525768cb5592ae48a1a74203130faa4fb3d4c7a5;
  Sub 0xf66eeb2ae5c65a6823253261c9092f7a97cb28ad3eb54ecce2149811566c4636 0x8811b0c34ce4afc34acd6b2c139c41266c15b3dbae17d673aa9f8d266290787a 0x4602972e3ba14ea15774dcafbbeae0f20114838fa484b9441178d14700982c4f;
  Dbl 0xfb2b929c5c52a0c85b192208855d148ae2de4e021d066d7be9836724bf3c5059 0x959878645880be1d10bb6cc160b53e8156efe79d8532d9b97f0d66caff23229c 0xa4f6b989d576fbb18a188937a3495eadc591f238e8488a0ec0c1268d2bfe8d9a;
  Dbl 0xa538286f0f4dd5abd361615c2a97b79ec03b46c49c35832dfc7ae456d6d673c0 0x1623b307019fb9416bcba5e3ac5d4671cb82e4a5a5d6f81187c2e10822239534 0x3dad53912ee1b8486a55da61af309105188109672841d5b3a71950f0ae48be86;
  Dbl 0x9838f6c643c678e8ea7ff729a7268090a7103064616ee571f8cc564d0c14db8a 0xbd824c30c17923befdee75f8ec74c4d6b5238ff10e18e9b546afc32aa791d3d1 0x3b211912406057573c9fca1be3f0f8eb90164090db09fa86c683cb3093a5839e;
  Dbl 0x25ac4c4957cfb517208fb3a1da2e8a863ee0692ea7f2bca7e8c07e2e660d9bb6 0xbfcd5a68e2261aa280ba807120ab3057f215ad213e6c0b947f13da29276f7c5d 0x1ebdd824c9b079d31cdecf16e07e30d73cf94b1addad309e402643d968362854;
  Sub 0xf34fa0ae9b45403fe0e834b98a53b11064998c305cd2314cb9fbccfaf3738f54 0xc9142246837614f7c53c00deae3fb513f5558beaf981914e44d32a89d50a375a 0x4241277fdb4017c0aec6faf882c0b59373ffece8b23b55bae53c430318e437dd;
  Dbl 0xd25bed1f34d120a9f3eb037b4ec798f6a36e21192d34baa62fb7080012575a4a 0x4cc977571d40c3264d789889d3b2dcbc0a0b5e3e6e0fb62f8eaaa0c4fb84da70 0x40713e8a58ae61a349bb36e5052512f066050f913a70f7f06a9bc4278c05aa70;
  Dbl 0xef22b56da8a04a7d889068152800e8a662d13200bcf3f8866c73cdcc98b1877e 0xab546dd3a5c421089c7ee0404cc03801688326455df5d4eac5b2d52096587bcb 0x1fee97bd212bc563779c99ee0cb5d5513d34614e9d0170cdd1c3e246de3cd290;
  Dbl 0xef0cd14edd1e93bdf5c7068919d57c768f289c5bf9b99d1d0096565e752b463c 0x2e594b864cc0bd4e548bba3740062434f5f47a3af609973aef90e0acf76c02e7 0x3ab3479caa25b7f8417b53881178049a256799215194264de42ff8cad7480523;
  Sub 0xa74eb1ded9b0a87b22f86c7caf786224204ce368ee629765ca0421fb5b104915 0x2c29782866523b7a61d000bd42acf69f5dd3cade6fe59ccb6cecbea3b20a995a 0x2abe01a9f13be678db84e527a0d5df83d7dd82edbc92a5d23546ef6e4058adc0;
  Dbl 0xba7b6f02dc63af8fd13b23dda46e194d0dc1d899e799c1caca6b0b37586332f9 0x7064fff4db98f682ca0b2cb10e4e7afbd5d22162ef32cbe1203e60da5a1f72a4 0x2a323bbeedec8c7da4d3528a4cb82908d90eff484c9de19d8e21fdd1d886e1e6;
  Dbl 0xb65975493130d4bdb9e2a904b9df8e50e25670b8fa6e6a90d6926838e9648297 0x4ce79ddfa19e523c80036b4c5021a1b870b59b7c0d7d855388b4d331f7e351e8 0x16de532315c9459af461db1d4c92a6914571df713408ec099e726c6e278e56f9;
  Dbl 0x6755b546bd5ecdad54830125945ebcf11749ff30a79abe014586232733cbb5a 0x4492a505fcf9b0ffa7974d3cdd9d8c31cae6d83568871376f99b53d0e95db0c9 0xbc15a9e21cd9eb81138f0646c38ba1ba5e947d23f914406ae5ccf54d1b571060;
  Sub 0x5fb293af30ec24877fcdfc76b4e2fe1d512dc5a1a85675280d2d80ba85be7bde 0x7f3884e02c4ee06657c57e693c15e73846a188ae5020553a6554c6e88d46ae6a 0x86e51ec3e50750248ce9bc60f9948053c0ea9cf0dc5ceb46318137e041d7763;
  Dbl 0x88246dec0a2f5c1781c111b275131f55b126fd8e265fdde8ac3989cb1274622c 0xc9340d137d8eaaa3013a5bbd04185f63e2184e38397177d6d1c4637742b4ed8c 0x79330f1ac4a4157afcd03d587bdfb89c74388c802b54401b42e9c96750e0eede;
  Dbl 0x907e6ca0df806efa454760a45d6531e8911524be961db28481f68854ccaa76f4 0xb371f028126c676cd92d0c7e533eb71231ef7ba784204fe84bef76f34b1679d8 0xaeb5fff8faa3dbb780856dac00bd751d207a43f71c97f23566251b400c028c6d;
  Add 0x65aa85691aee4e00fc38309544a5890cb087836da9f9f38f27b2b31029e9a47b 0xd0fe06c5cf22d88fcb5479f7eaca12b67600d02f305dfd7ac450fe985d98ca6d 0x9120673ad33081df68b68a6ccdcec808cadad805fdc8ac277fcda98944949aef;
  Dbl 0xff3b9cef794d59af663742705c924d25096b6e5d78cb79b0c564211264074ab6 0xf0dd047e36490351d24663207d5017565a94bd76b32b366751d9889ee7a93cd6 0xc687de996ac38dd5971aaa2a2e735551441a078859b92e1aec88c3d64bb7e4e9;
  Dbl 0x28d1a2346878b14458df21150493c1bdbf85720bade0927bae4da94df6157f1 0x8900e877085727c1217d96bc9b011586b5fe729576717fbff4f438dc4d5bdc27 0x8d0c356e86cbf1b0e17ae6f761c928054722d0701f988b3eb730cd94d57ff92d;
  Dbl 0xb231c5c3633a4d5700f705351d2635f7b72cc9ce54b9cca358fe7c680fff87fd 0xb3460a6514a08bcff7e1c21e519be467d889b4baf1b46c754fef923d8b66e7a9 0xe6e07d62d0de0b037fe0cce0a272df733511c938b60e5e4455ea4e80f750b3d0;
  Sub 0x38b417ca4cbb532f46249af4ac8862f278b57ecdf8cf3ebea4f9fd9657768e7f 0xdde4dfb5dfca4fb57a8ce9ba2ddb2e52380942165cba4719d2a925b9a4ff6ada 0xf78d44a4251d5af7ca3ef4fce177626ffbc755bbad781c7ab0b12bd7972bba37;
  Dbl 0xb7d7dfd2dd60ebc633df4932f165679c28f925b5ac1c11cae367c92589a57d92 0x6d18e5da0bb638acdcf053a8a4c18563ac2f25e7a5fb7e11df1bee0c6bfa399c 0x26ef4d15f51b5bfadc9158bb92987ee36faf52bd1c1f26cd6fefaf6be261663d;
  Dbl 0x75a74a2e990e1651dddec1e928034d4da24fb8884096c0933e6136f675561c39 0xa2e971319e811abcc472a10c00a63c01b36015b9f4c903a66eee38bf78b69063 0xc9e48179584f643c3ac90f8c01979d80da43c28aebf1488a5eeb82eb428ee39b;
  Add 0x78e4121c61c528cec73a1c573baaf5e75e0287f5d65da61a20ddb245ab1b8092 0xc33e7ce847456128a1e5420c9c29f9a59cfecdf402abf91c9646651b82fc8e4a 0xc1e0e6564bedf74775347dd0a5896a097156aa603cbee27c66690332b6749ac9;
  Dbl 0x2835932153b072f79e4c7e62b278c8fa650162e54b45fad45ff41a6df5f6914c 0xb7427af8aaa5aac6f361ba9579a15db96c2941b3e1c7323f3545ac7971be0e84 0xf93038f3cde0603444dcf11b04d26aa0b052ba1d67d770c57be5774d15d640ff;
  Dbl 0xb58c42b76682bbc037885c1ed2f3e5b40131bec35ee4b6cda64a96de9bcfe6f9 0x99c8f0bd11964531387514e34e0ffb4669880c4c2ccc6ecac90804dd6585332d 0x949d3a719eaef352d72eb9098c84bfe9d574fd08ae450ba0b801e19da4ddc908;
  Dbl 0x1f2f4acc43dae13959e540e71b296215e4e36b14f5e0aad4a57be917c5b674d0 0xd79bf9f07a33c0a0185a7483ec1b476503ded449b4409c964c90a7f577c193a1 0x15dddafa7b4aa509670c701487a2a2dc913b03ccf25a4e1532e9294ae943f22c;
  Sub 0x9a1b4b351a71976545db9cf18d4d0d993ab38ca22d3ac906534f821385d5406d 0xd9d15a4c3449c319ea466c1f135ae85cb28ff0b94b652c2036407408321542cb 0x87c1d75cb1c7be1e3d5c90e8eb028a9d6be0681a17fa88fee378278952d2b09b;
  Dbl 0x1d99561ee2c3ef21851d7cacb2ad51f830f56be32f8fb4b90e73a884b795d1ec 0x87b0f116e7348a990eeb818e160c7ac687f34811e3f2598240ff5b35ffa4ffff 0x533cacd042786fd9899b7ac1018208be9cb2e6410344484fa3dfe814f6513649;
  Dbl 0x9d5f07313eecd9367cf3f9a2a5d3a6d759fb70877d413e70b0313994808c13f6 0xd59e43ec0d288caa21e3f266f4fe0d0eb5e667e0659f6689142622eefafd1dd7 0x593d3e4d81eefc13c5663d8efd0ddbef4149713d229bbd2679051c46ae6191cd;
  Sub 0x86ba109e0b28fa365fc5faee1cb320148e0510f2387acb8fd01d66563b1dcdfd 0xb6f0001fe4f5ffcec3d77d137743b962b703325c4e72258691bf7f0a1b66da77 0x72193e0c7016e5ad9b3fcb618de126341f99b5de4ca69c409f085ea848eec431;
  Dbl 0xe4d6753800c65953da70514bb94da9e03189de16c9fa3086112d99228ef1c1ba 0x62529da54351c49215f27e8c5278e7ecff2db822894ed6a5e0aeb4d54f8d3a0e 0xcb298d0708d0ed8493e09e772c36f034e071e649470e87295e50f46582028464;
  Dbl 0xb25b45c9d1888fdc652a39c4c69383330a7096d97cf830a96872044ab68b58ef 0x307d0c4b44416a0fbc29ef454508324c4737af99808f2b9c44b28f49fa7cc224 0xf8ad081f69221c63efa507b01b916d04e92a3f21e973569cc1d6d2fe6cd5feb5;
  Sub 0xcfa74e52d54b5960e255d66aeff17b96874fa000bfa967c727c012ec7d00cd42 0xfdbb79ce227535051be9c6540478d381c38061f1d637e04c80c4bfa4f83a3bbc 0xbce1b61af7e12c2e4619026021ba47a525716fbb70a87a69af3e8fc5b0806;
  Dbl 0x970c455202313c987e004ba7b49db651abf429b9aec412ce907bb08f4fe11f63 0x12ccfd501c85104f14ea3f82f200422141723d023829882379303aa805aef0f4 0x1b4328514b349a359d189d2466f4620b016182bd0d8bfdeb36d3fd710772b0ac;
  Dbl 0xbc1f834adf3c42bbe146c8c3d35467280b791cb0b48a6177b8216e77b35688bc 0xb09edbf8a1e670c8316a28ece332b34474b59b885abdedc2df013a2d37cd0980 0x9df822b54e2b837a8ba8319564f929943ced734cfba8bf7310a57ce0541794b3;
  Dbl 0x69c7268a22d38ac448b5d4da59aa1263f4e36fe3a979d8070bafbda702f14c96 0xb3ff7dbe23aef501216e12f58329d8ab351d9dd68d837ca66c78781e5dfc233 0xdf4672574d4cb783571e1cdd391114b5dc8343bbdc9d5eaa8318c3ca4733b863;
  Dbl 0xefc098f9b579deae6d9add81e6ad34c16f3269b81f2e67d38db6e7d5e17bd89f 0x91a920511bdb2216e9651f3c689540433351fb05527dc4ea95201eca7b8301aa 0x8bddba7d4df051eabbc4bddfc0e044022d201a7e4c05c92a5a2f6b0c9c798c53;
  Sub 0xcb2234c63216d431e1f3ffcfb9656f0edd2bfc52c3f5ba2b3207d040546d15c5 0x3a41b097f3b1f47679b8ee258ed73eab4bfe769cf27ebcbfd80adbfc962c2591 0x668b37a247a80f04a38fad09398aca9b0d04e52bed2cb2ea204e678c6f1737aa;
  Dbl 0xfcf1523b82f29c2de448f6d989ac55b2df8473bf03b0568f47ba0ecb0bdd77af 0x6981aec0adc4022c3012ac6185a0dd9b0958d134932313d276940b9dd9ef8aed 0x1a35d4f9990db04c2ca787d4e05cae9bc3b476c30cc76f67125dd5538402e8e8;
  Dbl 0x490c1ce453ca3fd42de1dd36b26e293a111b987c7deccac16fb161186ca125a 0x7b7dc4ffcbed4c10c76c29bfdf82718250ad3be97b4d778dc31d83418e89ef9c 0x4d912e38840dc7741fe45a0714d09ea588d49ba1d98c2216cd33174c44b2e5ed;
  Add 0x3855482b858ff0489054da3a871a0829ec1abe06156a9c76d133a74243635ec5 0x13dea541142fcb5bb5900f4bc9ef2d44c14546438631805e2267cf8d875930d3 0x1a6bef85f512c47681f5651d2912fac5815ce358c428fe9938be9c16bed02c6b;
  Dbl 0x2e293dde18e6e71e43395520c05773ea44bad530ab495d611458e2ef46a7707b 0x1c3f22027346472faa1ddd7b1ad00e22a10cb302ae191c0fe7514a34660a7987 0x429e960a772acde7e164e0fc29e217957dd4c24443846dd0510bc8b9ded5ef95;
  Dbl 0xb06e1d39763a83a57fb67b677d4b44e12d71299c9b00785b1112809177da5c59 0xdb7c545312db194e8c651a291317b7c9c8ab3cc48ab0fa9ccbaf1b9826fe4907 0x104503edb8425128433e33ec9dc1368629e388efe06efc5dd77e7e1b49eb316b;
  Dbl 0xb4a04407ebd4b6a776a7bcf22e2391ef82fcb38caa323d9d88f6b064243137c6 0x95c65a08076f8d8a4800dd9725a647fa11b5334676bee2d9f514f40212559943 0x51298cd0f9ebedb7936f3ca5e825fc7b6b7365e75af348a2922b55276e287630;
  Add 0x3744b45e624b5e48ff3377f3c07d5a48a62ed058e0e7960d23aeab1b85b0fbd3 0x5c6d3f275f8586c9f9d495a59d6519eaab7638908e6dd2e2617e9ecedab10268 0x662779f0687cf46f8d2d7105a90b7add59950e9f9e4fe60aae55b22f8e5d924f;
  Dbl 0x4287ac902cd67c7e2ad5bf1085a4583c2156251d39355ae4d1eab8ae366e1da1 0x157992523f500d24a0981c07238b5097fdc7113ad4b7850c48e2513adce9fbce 0x64b9eebfd9dba130d1a89bf7350985589326813ef813b3256832a54357d1b4fb;
  Dbl 0xba3a1732d8f416c8d30c483abba55c6650234c26cc68ee2b4b5b9dbe94eac59a 0x3e6fb8825fc86cd3ea21f178c80db94765dd94e6182b9ce70351d54613a586fa 0x75474f302f2e26e1040450c5c21ee4bb4cd61198ab848778e195e21ff75d3458;
  Dbl 0x37775d936f164f8a84a47a9fb920758d15245f8c54c93178d1c4b5cafe4aa748 0xc0345e6a332abc4c820ac910821ba56f7b874ed568db814148e83644e55fc8f1 0x83cfe84d2e5cd5b3cf8f1eea5ce40a12eca67352bc7503a23795350b9320ed37;
  Dbl 0xa4a58801d8546d2f02a4050f921dab5916a5a5dd44176f76551f3edbafa49fab 0x32010f12c0902955acdc75b3e601a547b3212691c645eb0f8c85a4fc94766b0d 0x55f1229b81ea9c07076323ec016824b167ba9ecb8c71f03103c54e041497f773;
  Add 0x55a917ba6b5d45d33ea48131d175456e0b896ca85247cc49de12458f2b48d505 0x15204ba630e2530b643e9ad6385e3ea18bfec0aacf2ec3343225908e36b9bd55 0xf705bbce0ffc5d3f8b787ba9c763d0e2aea597d19d0072d100929c4aff705f0e;
  Dbl 0x370e8f0214178e23448c3e2d2bf282e330be2f2967a412792452a0383df0b62f 0x3b8cb57bbf18b91d243d6cda29af58475e530eb2442bee4dc6030820d9161ec8 0x3a67030248df1f93ff202a5046f8ea0bb9ada2e37b385cc681f735929e441118;
  Dbl 0x50cf9a814a661783423db02e4a5e06e785ff9a267cc04fa814022a9de2273796 0x31ef101ada872621f7cd15cbdc5e766964c51424046e0594875a7cb758317cae 0x6739b90dac8e5f1a4a9e50e5029421e9e9551febaf3b80485c82370d81cad5de;
  Add 0xbd812c5cc435aadb43c291fb04112777d6607f416d48ecca063d66c94d240d4e 0xc0e4e84498489a714c6b7bfaabdc4116de4db0f226e138551bacff0b553ebbe9 0x48683e0b9f0d0b9dc14231f638899be10ff716313dffd4d3871337ae0dd8a5f3;
  Dbl 0x15ed51763216385857d89c815309ebe43b35f69a834afdb5cb1b2cd34ffcf80a 0x4d2b3516ba0049854e67d41695eb8ece643c93d17e0994ec139bdaeb2936827 0xaff453544e112f0d859b53ef74bd999079ad82b5d367e4276892c886635a4418;
  Dbl 0x9f0934630df8621d6a3c6c02ff916caccb0616bde61bfadbe8e0e5aed2afa375 0x32f44a983fdfc81f9a4446b0aa6d39a2433544bc32890e8d9fac2d5a51a0695c 0x142054a4949028894ae64f3387f36615d713404186a4ff8e9541ce5a056e53c5;
  Dbl 0x7e719a2b2ba07ae6d322194e523da6eea7ede79a3be1ffb3fc12bdee43de1167 0x8852100b59f344a5da2462967a73a86424fde8eff20521a1cc77cf49f13dbd95 0xd2fc2602b0d516972659d99fbee83123088fdbc8cb6c5e400f64e1e31c72bfe6;
  Dbl 0x6041ba759eb9a87f0bf848fa65af818d3fcfffaa0c80943b90c7449163936b3e 0x348ed1709ceef43fb91b6f2100f419c3b906c5fa564f4e78a2c44a31493cbbd1 0xbb0c5e0d14d4a94f277185952167db14b94d9104e1949125dc8456412f369a02;
  Dbl 0xa6a11f381b330e0eceead13193ca089f4cdce3ed7c19bb361cec09cf272e6dea 0xe95d6e1c9fd8291dd247b53962d73f534efcbc59d8d81b8fc63a7e19d133e390 0x5df18b5af183919b4406866aeb31e093d70472fd950a756745e949c574840571;
  Dbl 0xf46c2f33e3c1237340aa05dacbfd10f83f8c6aef5265ffc24313453af50d9f95 0x28d5a32e04c63c8d89b67e19f92b11fa1875c4c0ebb20c458ad3b3142b4a2bdd 0x27ff550a06dc3cc2b1dee4b81dfde2b8f7c27566c382148a051a0dd0d9d010c8;
  Dbl 0xddae855b43b0804eef5626ba19b0872ade9f6db236626d5f6b712d8485de4f93 0xa865051d205a77590fcf7f8f8086a44b77b601032d8a5cbcfe8906759a502a18 0x22762d113664ad234f22401711c6efeb3f655d46416925761d89e44b34005ad1;
  Add 0xcb8cc9e7e1610e7ae147495b1cb99346cd16d1fd1a824d2174a96dcdebcf443 0xae01f0d426ff656115d042d446ff3baad097c3a137ffe0d30a0dac7da84cc96d 0x75f05a81f160dce90c9014ecf4594bb3f4e46fb4247d9825e29927c1943f75fc;
  Dbl 0x6eb0a4c6654101fc19a48b24493bdc36f8b080c3adf635bd66af6ee0b562f30c 0x1914bb41227d9d6ea810f4704cccfa474f0083adb49cbc1c19a424d921f6b806 0xb3a5e9ed076947740321ee942882bdb8d11f5d2e9f5b0414df5e30017cdd1b60;
  Dbl 0xac1e02a703bd8a93b2db8c85f7ac70c3b53bcd4c94987a57983fbc4b5a5d100a 0x44ad01a3bd3895d5b1571f99d1dfc09226cbd53bc8b77c444a072fcac49b3814 0x9f648d56dc34210ae0a67310cdb2a858e4de0e485fb332eb88431c560e0b282;
  Dbl 0xc482786c25d5fd584d48080910827d7294258425db3b5a72dd6161b0da195533 0xfda8ad67869d26caf3108c6513aba3dcab966b9a07c47395e1625766e9db8ed5 0x56fca0db9cac712599ed1739b68946b059685935d00b84169d93a36428417a1d;
  Dbl 0xde5971e7caed1e1a33202f0e34d034130f711b0228874bc2328517f5f0919b93 0xaab770f5c4f9092ef268fc8ac277dbb3c5183507816491d689c3145a8ca966e4 0x5dfbff5f9a727bfacd079f4b797d5e61ee4b64018915de2e0cdfe9986ca63865;
  Sub 0x94de1b62a13fb94b31c34200a8203819a5523751338859763bac1580594354e1 0x569997824308e2d37bb640eb411065f33a6d24a11b5c0a2282c653e85e6c0dab 0x6bf4242959abd91b7675ef1b455fe06a8bf1517987221fd56a381227e874de01;
  Dbl 0x40516c4575656e7e08caba929e2cdb17434a15f0e0c560db36084174d2b0352a 0x908e50a6800f4fe066b6e23017aa327bbacfafdd10c4c7c34f58486293cd3a1d 0x65bf501555cf23e5ac3e877f313cb1eb8eb2e0f4b6dc70dc5386d3293648c944;
  Dbl 0x81337f491b421a272eae9a9fa15c04b2051f83c553346b8dd455a58b813e5244 0xb724d96a375439ac5191464756cfad8288d51f4216d823382e14c2cf4777b3d1 0x6ef80e3cd55e5e336bbef409c613d33aeaae6f1d99df11f45e1d59a99a96c846;
  Dbl 0x4daf9e6b8da1ac05ce09a71d6dd33bdec1c0aa06da4a71dd4b99776a9eee2fc7 0x353ebc84cbf921ada170db6f15e9e3abe51d67f924cbd4fdd19df62c60967ccb 0x110972cb7452e7477f74739afc28f18ab229043daa5a7fb3c3e7a0cdd5705ba6;
  Dbl 0x6ee32adf9bd905667f6e3c993ea80794603e47b190ab3d884da71f04e5688561 0x271198c3cb4e0b3a4d127112e159cad0fff0b92b737608f0bdde83b496487652 0xeb422c9f301c4ce219507b240fed9f4e8832164beef8739f62eb681a4c7ebaa9;
  Sub 0x1db62086d2280bae363dee77836ad59e0bfed1fdb0180fdacdd7f5cddd26e6cf 0x4c101c13f525f39482ea96fe4ebea2659213d89039027558d3c310d1e60a6cd6 0x60a785ea66b156194b162f57fdacbd5acf395c4da01581916759247e44835607;
  Dbl 0x1900957ab1c62a54d064b1d854f42fd14d64c316bfcacfccbb5073278cc6d4a0 0x75b9551f13c6ddebcaea842e526beff2ac5866087d930b41b0917fb2c4d1c426 0x69340f0f923a65e84968ba5d3710d2354edde0967f9540ab6d78af78441920b8;
  Dbl 0x4b9aa67f5d122cd5f407198a72c371b23b17a20998fd57407e3c752f686252dc 0xbcfa662d89f7da55e8042c049e4f08401227480ca47da5790145b5a609e9e35b 0x3ab64c6029004875bc4d5ee4b77ffe739ebc73954453d886546e8b51ee35a4bd;
  Dbl 0xdc9daf63f537f348ad194598ae0480c4641e8a3c103f36df382db1fa4287e92e 0x7135e5af61af0fb2eb50859bcf60ce17a06f5839f521d80f7d346624e542c236 0xd8b542921ec6fa9e3f3a36675d7030e0dd336388a24a2cf097a509949cb50d28;
  Dbl 0xcfa5bf7570bc25f4bbc9b00fac3ea75055a13f3190124f9432626507528c15db 0xa4f7192504cb0bdedf2c7fd61f95005af0b5a3dc45e10239fd5c8fd87366cb4 0xf65a1a5ac9783597afbc02462ad6ab807afb92a702e8c80d34a331fedbb27538;
  Dbl 0x6634246d4ee908374359e885d8a45bf4d7e5431c80d72438093404d17ecb459 0xde7c5ce7010733b1a3a1895ec7a3e1df953a8415858de3cf93e455490b01acdb 0x4ee82d3a645ec895e7209a5285227efd108eebafcd3714b9f8845d5a2e85ec9b;
  Dbl 0x417f0cb3f44a2338ea7b03192a209625b1a7a86700fa2738e638739270143ae7 0xabda2f1443a8d71097799f42e1f4390987802963fd8730babf05959b3cf3ee4d 0xc94acd0826eabaa36e584934c9f57d56848e47b8496aaf2ab2260bf673b93976;
  Dbl 0x7d9391121e69533105d5b7687e5d4955ed5debd8d790e24d70228c240958b609 0x81b08aadfef66ee97ab0c32dfa83f9cc4ad0930899bb598c45e2b4c8d036a912 0x8876394e620659e5c8d2bc9df989b2a103768eb342938e5c7ca08a5a19b83995;
  Dbl 0x45822432cd567c9e3e8d2313405b46de3874f1463dbdbcdc0ab428b5e3f1397b 0x6479f4ba92f859b76978cef303389c4f35924d6e321316ef5887e71cf3482dee 0xecf179774902e6cc8b5c5276850ed0b8ee5b0e00694eedaafb0fbabdd802f681;
  Sub 0x8e7270b15ae85de67bec98d3d8c62ef58c0ad384ebbe8533817a850cfaf1aed5 0xf91a342f3e683bac39d6ba71606f586545e1e0c3360f89660a118c9f5bf94e3 0x3ddb80e975be421d1e224fb8b2af83189f9cf1d3fd2168708c44198435a2d906;
  Dbl 0x8474e018b6ac5b589f4749e1b38d6adc60a22c9eddd99afdd8e8d6044a4d4e98 0x87a2ee0242ccc236378a6e820f80aed4ce33b04584c18953845750ee09c1f7c9 0x336ced8552f14e0bbfeab7840cbbda7d1b899ba71325e5c485921d399ad63501;
  Dbl 0x8df6afc453659936eaa14ccfa4cbd75a49199a5a40838876176e6da39d169bc2 0xc93c1b00bdeb3e4962dca57a3dfce74d11824db2f164a366f266f8cfd67e640f 0xd790eaedc41b3cfeb890bc2a078df7f8d531aafcdec7141c503aa103ffb3fa50;
  Add 0xff5caf8da8deb38d5833f1ef0047eaf5331a5e49802cb29843c99257ffab9b9e 0x29b2a9955317107bdd2bd03faa821da45bbecc9cd72df5c4b5a1d8db76d14d80 0x377814656cd36d9934081511184dd683fd878dff026f84602e0796ad4d6e1653;
  Dbl 0xd8d4c3fb404a84f9a0146faf112eb5f7b8482cd2d86a4736dfdb78f4bd319ba9 0x79c59c014e469a3f7f63af79475c7c6244639bbc0bae6f7ffc6a3acbd539f5ab 0xb59c06de63f2084c981f3ed26e8af1b9ba22afc2db9205594b034224261de6a2;
  Dbl 0x4026935e27333c9997ed5080700d1fe587b0a10e52f3668cb1ff2e53bef165a0 0x2b4032a979726ff75c61ea2f5cf1515e2667d28b573ad363f39a6374879ea326 0x64f2a2685f47aa90879d53c31dc75261ab11a3ed3b6dc4d3e1ba31b9ff70817;
  Dbl 0xe91116989d2c29ba1c402a42220bb6afafd7a1d89c0f7cb6f1415f6b30d72782 0xc846dd9636a5cd2c03743b9a02a00ca1fd959147dd8f97c305800a9f73dc490d 0x58497a09399bdfb6664bc9ad5be141f74fde899f7e000e3e596efa3ea47d283;
  Add 0xb9431bd34b02aced50f20c6257e46301867c5a638cdf4f97d6beaabeb0b9d37b 0xed9634a7e20eedf6befdce7ff76d2fe378c8876d9cea93a37093eff21b0e988b 0x95ab171125c2f49cbef93dd1c70b5b9f49c59519e3ecfbc2415bb714d19bc92a;
  Dbl 0x9b5ce7f66fb114a71e108c251df1485ab6f06b1e5babf4062feaeef8390f74b 0xf7931b71bd6a67e7fb47973633283eb6e0cc448efdcbaca935894ff325da38be 0xe80340c413fe97d7e7576ca033e14f0a4e87411e9b4578a6a447c3f2a558aba9;
  Dbl 0x39823a814982236ee6a11487982e893d758c2a2220c8b90ddb245fcf7db25e13 0x5a840398a1e667ce83a5b4dc189e4e8aa986a00739950f11d9ec8a41a11dc185 0xb555d8106f30325012d4ac66954c2c56b2bbe2a24e4a4409fc7b2286c440e2c2;
  Add 0x10a640b7d9b34b0c3af15c9366cd9415b3238d3589605fa5986a80406e67b91e 0xbc6d550fea7c7e395d323f01a4bce0ed0b0b09ceeabdeef0b20d86996270117 0x3dfafd5957d34706828ce5cf57930e4d5e1b84642e5d6ef893f985238ba5fe9c;
  Dbl 0xed6c0e2fb9fb629821cc78012ed56697d5579c55a0cd895f5cdfe8775c5e21fc 0xbc7aa46ccaebe673e63f83bd6a2138792f4c8768c29a8188855492770a33797b 0xdf831ff46cdfe4de7272944bffb4736d24f438435668bfae9256ef33b60acc24;
  Dbl 0xd3965a5a9eaa7091a9d00594371be33806d078928f6862337d390c3c94b22e2a 0xd9af42439992dff62a960a0b807778b893cdd7b8ae84129ad13a38d8b9945281 0x55071ae759c8c0a224c586232ed116a5d111d1d033a6f7cee21229a7a96d086;
  Sub 0x989d5562e747261a6020d59d7d938a23a5a3bee44bce707feb3a761f414c7513 0x2c3979dc006837fa9f4404b3f4ad5b4466532d122cf986d833ce813c7da05e9f 0x535504d53ab4cca4dd570cd6761421f8c2b6b9b3006f561d38bb3af099db7e8f;
  Dbl 0xc39fb3fa386e4c75b1c970948bbf5d83647f7fbe31914b8c887fcf6dcd147493 0x7b4b33259d3653169e6fc9feb4a0515f91180b1011896f7e64ce2a9d26674463 0xdc3c527551d21ba8befaeff47cf3248b2019c8598c372402f60681bf000678ff;
  Dbl 0xb1206b720fe6033a76096668b533a8d975ea4bd5f808b41fb2e3bfd32efb5da5 0xa737e485f1095d46abbd4d3fab5e41660ed9b539d7d26eb3983a476d1178ce29 0x8ad4ca56af3eeb58f01de6499d29dc213bf50e40dcefbba9086b3551dcb2e817;
  Dbl 0xd4f8f728defb009b19611939ba09a25df988e2c20cd72404a3c9241682d9b1cd 0xddd9ba85d721108401f0fbb240a559e91a64eb7795d2b0518a1865032b080d64 0x8cf73ad467c73ed004b1ce5deb707a17924b1de5e8a3c01d45616ea6e0384a73;
  Dbl 0xef067cf45af2b98df43ea206403afb8c285d5f02aebbcaddfa1986f723726cd3 0x1dbe270f8382f57d58fa8ef739dc00f2215fecde9b7b2a2a781d1ac14f761c7d 0xb02ad2aac6b481269ce8ce5d3e1f803ddb3b2da77d72f8e8b895d49d6f1d0a13;
  Sub 0x26e127b79affedcdeeec2b52d0b2828c3b05db91131849240fa85d21dcb4d902 0x32abae154a169be2822476ed1e837893e8e28bdc64b39db396374753a0d79ca 0x621c0a80d91cdda24502218b9cc6ec068446430bc38482275055b7b97c59c04d;
  Dbl 0x8e3fa477123b584f2d50b6f126ada57e27a8f2868ca91f8fd9ce85a1f920cf12 0x9808ecf7beec7107c9f854e501b955cf1932e8aa4c7c4f81b1769b880c253b10 0x1e1baff0353575305f5c273f355c74432530749d1388288bf2a1fa9ca4e8d220;
  Dbl 0x3b49c33d536bdb2e909079c762d2053f34997113063cf72adcab7d7ddec9faa9 0xfd688f03cdea65a132bffaef52e13ed3464ad04781006d48fbc822193b917e49 0x8b67caf6ebae54aa22940dbe7b2665b0f7453385432e945aa7af332a458de381;
  Add 0x1f2ec02e6466b6d8c72f9d7f5d8ecd7033ab03d07baaaa43ce78c20480d033e3 0x2e7f27e454d8593c574e5cb89b99255a11b15f7b6d98582bba98be008febf717 0xef2180a04227160a5e81dc2fa77a744368864e39f866f8c295f870a8bc616b94;
  Dbl 0x62c33e0b9150e0608b29448fb56bcef22513931a622e8631b498ae54b22262a2 0x8b8e7d5a90a242503d8b4693ff8770ef129070011b32e57f65f20ebe996f459a 0xdbb3730bd44d388e6b0820a4d5fbf257cc0de8318600c5b3e2cc4660d9073336;
  Dbl 0x98706a34365fc35f0bf58006b8086053e00baca29dff996227401c8ccd9179d7 0x1d191a0947f67b870c31c0f20d3da6b66d4fd0b5a49a32c5a07a776e6c734262 0x3b2a3f3972f2d8e46eea82d5880997bff2cb652e3faf208e96189284c63ce0b7;
  Dbl 0x754e3f3b8b39783ae1d98f7bed4a33a9cb83a2dcf3dd96af1ed15030279b19e9 0xb7da96bf13c179bc9a9c90bdb7b6c1ef9d555e6799bf4f76750b6567c651b465 0x28ac804031a2b0068154809ef06a8f48f6ed63f5af4c9cd018b66e25f5de12d1;
  Add 0xe215962cd9f44461723913864b5fbe04968cf55c243b95b2dca2b4b3749e9513 0x5bddf26c481cdb618dd0cbcb17dded3d6fbf941027edbb8a68ac185df912fdc7 0xaeca255138c1852dab41a7235dd6403aa725d7ea3d3b8aee30c08beae07984cc;
  Dbl 0x10e18fd20ebde51bc24c0d0d7726bf8172768691af8284e703a862e3cb39e08b 0xf632613e177b86f6adbf655c303024e24ddcdba7d811dee496680ac6c4c54c3a 0x16e57331b412a1d4424c5087ae0af14ed1a3756c61c4347c3f6d0228898748d4;
  Dbl 0xcf8a0d4edd568904aecb3da1b921a0295a8dae93d6f44ae1794dea81ce43be88 0xd781e6945d1f6ecf932f554b400f165c9f83637ba6760d766f4ddbb02d44758e 0x3e070bf29a075e04bee992ff941fa43469f42eba57f1ea5c91caa29849001b72;
  Sub 0xb943066b51606d8c7a85933d423ed4b73ef8d41330052d28600934bf15459293 0x77419938fe9d4d183c6ae247d7767c8255558f79293368541e8f28ae2d59db0a 0x8c27c4622729de14aaf233866eadb3a459c798d14ad351de9092d7dfd8f31e7f;
  Dbl 0x66b7745de248b97277a5615ff0bb462cf6e3c3e46ff057f7cce290d68ec3315a 0xb9e371aee5cdc7090ea3329bd143a940d45cf9cfac79365fc9e17a81dc55ba05 0x2daff17326a770da5f89bf10782385d7e0275a53616d417c7b35522644101836;
  Dbl 0x68723255cb589f934be2b1545a295f0260eea2b5de3a4a9e94f804ebd5eb2ac4 0x7510b3cb6e7dcff96e4ccb661b959a00524dde58ce83aec00ac8e4d627a6da61 0xee3bae36ecb330bffbe41537b2faee168c6be58f1dbb5dfbcfc3032b6653a673;
  Add 0x466f29056888918e158f06a3e32528123e32443c985d64841f467cd3e63b38ed 0xf0386e2c09560257676319499e71c40da23f2f6857a22f5cfb98c1b65c2535ca 0x98a3bba3793b916cf9a8c21984c84b5c17c388162653cb10ed36c95d7a1c36d7;
  Dbl 0x805efb2463fb1d9717ad604768050ed07ec1782489ee3db07c023d3ebe49c5be 0x716fa98c9dde0cc478852cf75622139994fcedbe9bab459dc85f0f3307c83dec 0x19109c30ee1955588c9e6ddede516d3d8b36fa5d3be55f4a51f62507f9f409c6;
  Dbl 0x6457233262f02f78f62a941998cf2f8f0cafc6dc68529823ba96db33339633b5 0x51c8b782dfda67c97699ffb78c96769ca6b50fe77a1b7f8cac53409f81796022 0xedd1a8dd9d9c2c736bf110701e49e5438c261021c4772ae32f634d4a1095df14;
  Sub 0xdcc2daec8346af1cfeca154564757790bf9ce15a39f2cc4866ad395471701517 0xf7bf95cd74247863e1e94cead464864357e16c6bf35eafcf8028c41f493813e5 0xcf2b7c5ed5f782e85fc63fefe2e7410cbe3711c98b1ef7de08ce1a20f7f7ba94;
  Dbl 0x69b6343cd46e3261cbfba536047eac826a6e5b069d0511ed854203a27dc2d6ad 0x2675d6c93721ea437088c933eeffde4e66294b619ce91f85ca6df32f9047e5ff 0xb7966ef8909331eff1091208954c052bda348b7b48d110b3c196b102927da5f8;
  Dbl 0x1d3fe586613e4a9815c3ccdffefedf1f536fdfc332940ccc5ee0db4890ef4566 0x4cd2114f2e8603244ab075376d2d00df0062dc86e2d780b81a62b7adf17444c5 0xac847c3834db991dc3d7dac3702091ae1184c2689ce0fc68a932d1fff9dec08e;
  Add 0xe913bd3cc40444a7a62bd51a89b61dc8310e47f94c8f56737a7166af88bcf547 0xcd559700b304f588f65ddeecd3cab1f2357770ac27c27f0fd26aa681937b6c0 0xbf59d2a1afe067dbdcf248e6f38d5f4a7753077d0d06b7062caaa1dadd5cc71;
  Dbl 0xf839838e5ea18c0c3efc4d8a88787af906a6abca84884bcf498e6353b96e4ae4 0x717f3cb8f9a9480973abd9d07b11a6af00e5f7f782df9713cedaa351dcba6d9e 0xa8c848d088acfe8a3b55637da8e7d077f90d13e7c95fd67430386eab5ebe88e2;
  Dbl 0x2d5c87588d26f9c1cabb2ad6143c9145ca8a25067d0d0a1d1a941ac54f1e9ea8 0x77c639032f4393edcdbe84e3e4ad619eac36e0145d109daca12ee5576459c9ab 0x89fb17e7a23bcc1f51711fef97bb5d9566535600b54def4772a109fc42d29291;
  Dbl 0xc9633d6252ea9df0eda9df6c2913cead0ac51d4cd58e74f5da5e89ea5d228b0e 0x5829aacacfb75d57fedc9919ab2a302d39da56b7b655c6e96800bb5a9d51cdb5 0x512a90c5fc0c2627ad91f8c657529cda4acf8d2da5cf6e57aec20cb55705bfff;
  Dbl 0xe271ab4ebd11fff0ec68a819b151c9ad16b2402b2fae6c2220fdd66672bd4063 0x117364d1a188812339342d6faaf9b9d8c4b41fe1fe92733d8ff4a19fac5ccbd3 0x90e186732ceba6b53d27529891ee2e96bb2bad9ad152d94feb5ed854ffb1160;
  Dbl 0xd36996ae84fdc0707b26792cdfab4100a637ffa1177d4a6e9b004ce2e8e408ee 0x3c58748cae51b1cf8ccad71af45f8d62dd0561bf168a99d696253fe33751ae1a 0xf091584b70288f392823a9a6b25c2c8d04c4868c2221a19af737e1a8374d1f41;
  Dbl 0x82f4035a2f943ba8d23b2fd98a9fa96b84620ffd6fb6ac5d80d2d89c955d0442 0x8e25b7ae51eb379cea6e4db5e69b4d2e48ba771c81e3cc77061c680b9a85764f 0x756d0a9f3b40d862186e88fe07cd243b71e0eaeaf657297ee03e0e6e1b3ef5c2;
  Add 0x2359ffe39a24516f73e543d2e3166bb59ab008563c691ea500fce17ac2636f20 0x6c0a19c58e46ee90f228c3a2d35f8ca9b2f7637fa58f42d1ef5dadeb07538692 0xcb23b74ebc68391202a2890c57894d0b8b71aae497921f71e404ed3df050453d;
  Dbl 0xa6c01e692657ecd5ec1e19f348128fa4f0c3b5b3a50e715e67edaaa8c56696d4 0x7b75b56adf4d639775f3079f5661f41627c741ac1e52340df2f4163dbe02a481 0x7e9126c28aa4d24a9fcc56d84ec57ffcf82e570411531b5faaa6502b93b11e6;
  Dbl 0xd55caef44ef25aaed3132574aa0fe85d1f4c209a1baafa91991ce5cb60bc5173 0x885b6176b50d0f76d0a4a284b76d5a4cadd9766211c1d73fbd34f56cbb829408 0x7e47a28fc693d4787973e609811d05a67eb8584ae47d855196342eee1512a451;
  Dbl 0xb34e522bc62416885f2e04725659c52d4ca4166ee58e1ab9c9d8154f3d9997eb 0x26ab9c41f79c7ac2b781ae3e17ba5994045f1a2070caf3fba866e5174ffe29e6 0xa0d0a5e327b5390682b7d05d758e9f6670c168306b59b0759da80fe88ee607b;
  Sub 0x96851d01f7c52d4d4054d62374be5022dc74134883f0fb1f914f3960fee83a2a 0x5576495e6145ce8d2d6ad7e5adb5503118fb255d39929e242cd37837f869edbd 0x5b667d57019f658beb66b8aecba4e8ebe1a1941735ad3fc5830c6f60e32be802;
  Dbl 0x5061f9b099a4ceac1276439800176691901c478015955fc1f9fb263abec3e757 0xe9facd20f18abdb7e48ba143bb54d67d4cff3a0c67034d76c6215672e8c13e63 0x2f19e144f947f0d414c92d01f2c0d1c04167605563add1c569810e268ba921fe;
  Dbl 0x486c0f1742399bebc1b0e7cf3c2d9bc6da16d8f8c8136944e4e68d607fc7fb73 0x6ed6e947c03ec66953955eaa53993296a42e70d939a0fb46a6279b4ef4e2c90e 0x22c1f6f71445dea5d2c8360bb4865e03889162e8e1bb68a1f751896c9bcbfd05;
  Sub 0x6603975656b3234e973953b7f7f3d63ffa1c7a5e63e3f1358ac7e27a52b927d6 0xd85b9d81804f75b76744ab9371a216c8e0751ab93d5a5ce5fea6ebbd32c3ba4b 0xdc82012ef0b98f7bf317786e69826cb148812dba5f80d789b32c417e0c7194f0;
  Dbl 0x4dfeeeb6f36c1a9ca52e3abae72aff21f3f5cfc1f1763a5463cd3f9419518c9b 0x834e691bcc30d8800dc8c6ff0481adb1ba197409e5eb48a54e8f492653bdffab 0xec233f67fa7c0714ef529a14ccce39d3ab595b1ef801313b19f03a013aac0cb4;
  Dbl 0x9054207d23fdd08ad96b38a135a128fb3ef816f72a9d5f1f52bdfd118ba86b4e 0x99dbd8fe234c8516a84c21ce12a81a46187041b71f3ca6a05225b75ddc9d636d 0x103db3cba4ed3dfeb36ef511e484167fa0c84610b3abae405a40be34ab8c1411;
  Dbl 0x9cfcb3c3101bca8208a3879277013a90fde33d7e52688c097ada6a913a3e7f3b 0xa0245d83b1457b6611d1231b98dadf9201f26c638cb03e4060f964e9807f0e16 0xd67e2cea73c2b7006310fa22e059eb922acac7d257de4116b4b86f8de58ebc5b;
  Add 0xfab655ddb77e8b9989c2effc19e228c0c72121537ebd7ec3c6a7e4d048847d2b 0xf4295ebbbb524f05ed096edfb57704113ba4ca94d1b1b539ce8f30440394cf39 0x2fee88754a5d53596be914326dd9d0435c5df90e470fe8394b1d61cc0b9f0165;
  Dbl 0xafd086d090b268755bdf504137173c8ccc46493d1d4201e9916a757f7b00dc70 0xaccf43e70c4900e56c9414fd57f2206bd9e8fb55ab1e40dd1af539373a58ed81 0xde83c3749ce258f98118fad43cba0853338f81bc2dc6e39bd810ae0622e70422;
  Dbl 0xa5539e4c2a0cea6c4ede3f6173797a79cf2787f06f7e96e45e56c87a2e153893 0x8b20b1ef875b4f0ea0782fe906159da0c62cadc18b9bc14d2a9598b5c189e107 0xfa223d773182d041a44928656832f024747ea14d1690b5ee8497c49d262c956e;
  Dbl 0x18338c0dbb8c4b2cc1c0beac6fe6aba94372e897eff057934f4f1ab15a411201 0xea766aedc87ca1b9ecc5c3bb0ba49b43c2edbedc673707fdc234f74c7e76a0db 0x927d17f351b6425e359b7f2e13b963e717755ace4fefcbd20dae78caeaec7fc5;
  Dbl 0xfbd1ede4f87d76496c35e8768d3cc737302aacce3580b0b9925bbae37021f505 0x1188f346c1e0517f809acc50daa6608f04175eb95fb762606fd62573196fbabc 0xb05a2ac6c1d2fc12f33a67302428f25d84093a864644692749363566c71d1837;
  Dbl 0xe87d436bed4bff39a438dbc5e0f2a0ab3c426665c18963a027a08bf1b5481af2 0x5ccdc614cb67789e573d7fc6092e47af6eedf507a4cb6097a2872654465071db 0x9b25ae1bff2ade1558886a8a9ecfa421cf301ac5c765c4bde6be69734402b230;
  Dbl 0x6ef473b5991356ad1b67f3fac06178cedf101127229b3473a62ebee5a858903e 0xb89b4aef0ee4749350d17606d549453085d14c129ec4917f24adac9713778657 0x8021ddb2d8e02118d9598ab5d87c2e615170e583c727da0dbf8331b2814ef6ed;
  Add 0xc9dec5ff3cfd2b46ca46f2e1e2462aaf8500d13eaedffa5622486431a4defc0e 0x750c48ea743e024ed6db98d688af9feea98d19605b8c35f41f7689feb4947673 0x18fdbc55b1536ec580b94e206c060f3da0bba66c48f82208afc55028bead3906;
  Dbl 0x98878284e0dad18c26ef85a11e64f28c050b597a75718c02f4b113be0d7f4566 0xb2ecd953ffa503c43af22fa56ebc56fb8901494c72b5b96aa3f4308287f5e8c8 0x4d5554054d04eef6ff7ab6a9fdba62504329d19cf70bcd1c854e5a173c50c538;
  Dbl 0x54872f7c6339d01480fd341fd5d2488dfd73172d95ed1155432e6e89d3398c0 0x728794205f90f54bf5d1e505b38217947322fee226e4434451a4b91167a47c8c 0x464f7c78b01df1503055380621c3cb35c8f8bbf3afc4bdf9e665e9aac19a71e8;
  Add 0xb652eafe317f809ebd0d0babb231eba646f4bf5b1c3e02f7e018073689be34d1 0xf4f5086c4adf5d72f97848e135ebea1f7c3231ad2827e12b61b38a0ab54af9d3 0x7c49403601263860c0b8e2c0535e9989e39b3ed60b5034cee4f38fe3f368c72c;
  Dbl 0xaeafae58242a90e531e26ad3754e9a553b88d37d07cae8e35fa4185aaeb6f158 0xbb2228d3ea32cb3c1eb160cc824a4ba8115f9a7f415d18ddcaac8193defc2c47 0x8e07363833ca066474d5432354792ed348ac64c044ba43bcc4c426bce4ca3ddc;
  Dbl 0x9b3f6216667833ff2a4bbcd12ac27afe4a51a2d3b07eb0e78d312eca1f7159a1 0xf978b7a80b10554c847ef8b259857af1cd5060fe394894f17a5cd815f896d363 0x43b86e54f0380b3bfcc19605f90aee73e0b34528976e3fabeb5c7e34f8cbe5c4;
  Dbl 0xf6c614511660dd458e525fbfb354aeb10fcf1e624c2f26086ba3729f78386cc0 0x16f9a89d6da61f39bdbd7aa1d99d6c4fe7d35c91ae777df739678098dcdf2247 0x398c2a7f1f5f6cd2ff426221d4bb58c75dbf1c2ac7910ca6fc185b157792aa03;
  Dbl 0x2fa523c29a33f7934f4e62b53aef395863ff174d933527da8937c26b6a5c9c60 0xa6b594b38fb3e77c6edf78161fade2041f4e09fd8497db776e546c41567feb3c 0x71444009192228730cd8237a490feba2afe3d27d7cc1136bc97e439d13330d55;
  Dbl 0x60610490a84968ba2933cdf68cdfad9b184ba2853935fd774bef4e64377ba489 0x3b78ce563f89a0ed9414f5aa28ad0d96d6795f9c63 0x3f3979bf72ae8202983dc989aec7f2ff2ed91bdd69ce02fc0700ca100e59ddf3;
  Dbl 0x3b9e1fd3f452018f0e9c2ee69240a880ee147a50256c489c9338d92cacd255c2 0x79be667ef9dcbbac55a06295ce870b07029bfcdb2dce28d959f2815b16f81798 0xb7c52588d95c3b9aa25b0403f1eef75702e84bb7597aabe663b82f6f04ef2777 ].

Lemma chain_check :
  match chain secp_gx secp_gy 1 order_chain with
  | Some (x, y, k) => (x =? secp_gx) && (y =? secp_p - secp_gy) && (k =? key_max - 1)
  | None => false
  end = true.
Proof. vm_compute. reflexivity. Qed.
Lemma to_nat_pred k : 0 < k -> Z.to_nat k = S (Z.to_nat (k - 1)).
Proof. lia. Qed.
Lemma last_step k n x y : 0 < k -> n = k + 1 -> GAff (of pS x) (of pS y) = mulG k -> of pS x = of pS secp_gx ->
  fadd (of pS y) (of pS secp_gy) = of pS 0 -> mulG n = GInf.
Proof.
  intros K -> E X Y. rewrite (to_nat_pred (k + 1)) by lia. cbn [gmul]. replace (k + 1 - 1) with k by lia. rewrite <- E.
  cbn [emb secp_G]. apply gadd_opposite. split; assumption.
Qed.
Lemma order_y : fadd (of pS (secp_p - secp_gy)) (of pS secp_gy) = of pS 0.
Proof. rewrite <- of_add. apply of_eq. vm_compute. reflexivity. Qed.
Lemma start_G : GAff (of pS secp_gx) (of pS secp_gy) = mulG 1.
Proof. reflexivity. Qed.
Lemma order_G : mulG key_max = GInf.
Proof.
  pose proof chain_check as C. destruct (chain secp_gx secp_gy 1 order_chain) as [((x & y) & k)|] eqn:E; [|discriminate].
  destruct (chain_ok order_chain secp_gx secp_gy 1 x y k eq_refl start_G E) as (K & H). clear E.
  repeat rewrite andb_true_iff in C. rewrite !Z.eqb_eq in C. destruct C as ((CX & CY) & CK). clear -K H CX CY CK.
  apply (last_step k key_max x y K); [rewrite CK; symmetry; apply Z.sub_add|exact H|rewrite CX; reflexivity|rewrite CY; exact order_y].
Qed.
