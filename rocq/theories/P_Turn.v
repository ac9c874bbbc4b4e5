(** Keys with the same ordinate: the map (x, y) -> (beta x, y) multiplies secrets by lambda. *)
From Coq Require Import ZArith Znumtheory Lia Bool List Field.
From Verif Require Import Base M_Hash S_Codec M_Keys S_Keys M_EC S_EC M_HD M_Sign S_Sign P_Codec P_Keys P_PubKey P_Field P_NumTheory P_Group P_EC P_ECProps P_Prime P_SecpPrime P_SecpOrder P_ECDSA P_DSA P_Sign P_Cofactor P_KeyArith P_KeyTheory S_Turn.
Import ListNotations.
Open Scope Z_scope.
Add Field Ffield5 : (fp_field PRp).

Notation bF := (of pS beta).
Lemma beta_cube : fmul bF (fmul bF bF) = of pS 1.
Proof. rewrite <- !of_mul. apply of_eq. vm_compute. reflexivity. Qed.
Lemma beta_nz : bF <> of pS 0.
Proof. intros E. apply of_eq in E. vm_compute in E. discriminate. Qed.

Definition turn (P : gpt pS) : gpt pS := match P with GInf => GInf | GAff x y => GAff (fmul bF x) y end.
Lemma beta_inj x y : fmul bF x = fmul bF y -> x = y.
Proof. intros E. apply (P_Group.fcancel PRp bF x y beta_nz E). Qed.
Lemma turn_on P : gon sa sb P -> gon sa sb (turn P).
Proof.
  destruct P as [|x y]; [auto|]. cbn [turn gon]. change (c_a secp256k1) with 0. intros ->.
  replace (fmul (fmul (fmul bF x) (fmul bF x)) (fmul bF x)) with (fmul (fmul bF (fmul bF bF)) (fmul (fmul x x) x)) by ring. rewrite beta_cube. ring.
Qed.
Lemma turn_third x1 y1 x2 l : turn (third x1 y1 x2 l) = third (fmul bF x1) y1 (fmul bF x2) (fmul (fmul bF bF) l).
Proof.
  unfold third, turn. f_equal.
  - transitivity (fsub (fsub (fmul (fmul (fmul bF (fmul bF bF)) bF) (fmul l l)) (fmul bF x1)) (fmul bF x2)); [rewrite beta_cube; ring|ring].
  - transitivity (fsub (fmul (fmul (fmul bF (fmul bF bF)) l) (fsub x1 (fsub (fsub (fmul (fmul bF (fmul bF bF)) (fmul l l)) x1) x2))) y1); [rewrite beta_cube; ring|ring].
Qed.
Lemma turn_add P Q : gon sa sb P -> gon sa sb Q -> gadd sa (turn P) (turn Q) = turn (gadd sa P Q).
Proof.
  intros OP OQ. destruct P as [|x1 y1]; [reflexivity|]. destruct Q as [|x2 y2]; [reflexivity|]. cbn [turn gadd].
  destruct (fp_eq_dec pS x1 x2) as [->|N].
  - destruct (fp_eq_dec pS (fmul bF x2) (fmul bF x2)) as [_|K]; [|contradiction]. destruct (fp_eq_dec pS (fadd y1 y2) (of pS 0)) as [E|E]; [reflexivity|].
    rewrite turn_third. f_equal. unfold fdiv. change (c_a secp256k1) with 0. ring.
  - destruct (fp_eq_dec pS (fmul bF x1) (fmul bF x2)) as [K|_]; [apply beta_inj in K; contradiction|].
    rewrite turn_third. f_equal. apply (P_Group.fcancel PRp (fmul bF (fsub x2 x1))).
    + intros Z. apply (fmul_zero PRp) in Z. destruct Z as [Z|Z]; [exact (beta_nz Z)|]. apply (P_Group.sub0 PRp) in Z. congruence.
    + transitivity (fmul (fmul bF (fmul bF bF)) (fsub y2 y1)).
      * rewrite beta_cube. field. apply (P_Group.sub_neq PRp). intros K. apply beta_inj in K. congruence.
      * field. intros Z. apply N. symmetry. apply (P_Group.sub0 PRp). exact Z.
Qed.

Lemma turn_mul k P : gon sa sb P -> gmul secp256k1 k (turn P) = turn (gmul secp256k1 k P).
Proof.
  intros O. induction k as [|k IH]; cbn [gmul]; [reflexivity|]. rewrite IH. apply turn_add; [apply (gmul_on secp256k1 PRp ODp), O|exact O].
Qed.

(** lambda times the generator *)
Definition lambda_chain : list step :=
  [ Dbl 0xcb35b28428101a303eb9d1235992ac63f58857c2f631ee6936d3aebbeddcd1b1 0xc6047f9441ed7d6d3045406e95c07cd85c778e4b8cef3ca7abac09b95c709ee5 0x1ae168fea63dc339a3c58419466ceaeef7f632653266d0e1236431a950cfe52a;
  Dbl 0x6ad2cb95963c033328d4857d4f8711deff557dd9faaa673b400442833f0efb64 0xe493dbf1c10d80f3581e4904930b1404cc6c13900ee0758474fa94abe8c4cd13 0x51ed993ea0d455b75642e2098ea51448d967ae33bfbdfe40cfe97bdc47739922;
  Add 0x82b5a391701db61f5678809054594a583cc8b36b2a608ad9d28e6dc6eb6b1b61 0x2f8bde4d1a07209355b4a7250a5c5128e88b84bddc619ab7cba8d569b240efe4 0xd8ac222636e5e3d6d4dba9dda6c9c426f788271bab0d6840dca87d3aa6ac62d6;
  Dbl 0x8007d5d6d043a3dc81805c43df96e3a6b763ca01ff69a82935f10751a06d7006 0xa0434d9e47f3c86235477c7b1ae6ae5d3442d49b1943c2b752a68e2a47e247c7 0x893aba425419bc27a3b6c7e693a24c696f794c2ed877a1593cbee53b037368d7;
  Dbl 0xcd279959faa1f37ac77afa80a47fe3fe552081693944d70f6b93acf808d8954e 0x4ce119c96e2fa357200b559b2f7dd5a5f02d5290aff74b03f3e471b273211c97 0x12ba26dcb10ec1625da61fa10a844c676162948271d96967450288ee9233dc3a;
  Add 0xc1b5c3b01e26bd4bc753b5f58345f0c3a41ea91955fcef533330857b7dd09434 0x352bbf4a4cdd12564f93fa332ce333301d9ad40271f8107181340aef25be59d5 0x321eb4075348f534d59c18259dda3e1f4a1b3b2e71b1039c67bd3d8bcf81998c;
  Dbl 0xc6b702ad340e5308c5c32b9de81188a3c3cb33e44bc614b46e1ea91fdf1fba1e 0xfe8d1eb1bcb3432b1db5833ff5f2226d9cb5e65cee430558c18ed3a3c86ce1af 0x7b158f244cd0de2134ac7c1d371cffbfae4db40801a2572e531c573cda9b5b4;
  Dbl 0xa85233129b7d7c1df47cdd6e7c99166dbf0f7891652969e7d04e8d53b1870cd8 0x87c01e27d84da2dbd3330a7f05a58614a1ecdbabdcfccd39e5626baaf6812379 0x90e9991a7304206a64ef68644823be8a420e76859e59e54e0e5ec95ee2a1ecee;
  Dbl 0x4025cb90212808924e56f28f6248bc472b66d69291dbfbdf2c5504c58e0b2e58 0x328ba6c70c404497a663505914704a7b695331569d729745baa1f1cdcbf2d359 0xc8ecc2845917b7ffa518bdc4c4e812e4287d8f897b2b1b474a6efe1a786fce55;
  Sub 0x6bbc3686b247ba3b459be3fc21f2f2ee4fb92ebb30513af3ef5f70e646705e8f 0xa6cbc3046bc6a450bac24789fa17115a4c9739ed75f8f21ce441f72e0b90e6ef 0x21ae7f4680e889bb130619e2c0f95a360ceb573c70603139862afd617fa9b9f;
  Dbl 0x9a0f3b70496cc2707edcbb0fdae75e213285badcb0383188be7b3527b57a0689 0x65210379a8f4d1a8d9b9103361874b36c39aa35a87e2cc1876745f9a3372a42 0x8903c32501079bd8e7fc8e69e3a735753c9f7d58d37497d474113e60a8a9c7be;
  Dbl 0x6e6b6338e2ed7fe290db3e8c8f0db842b92aba956f4a5730b905a57fa6e4db55 0x4089f3ed3ea1e08d303f30a8509b3860529fbc8c544c9f66a69a66a41d969457 0x31826e5340ca993d9572ff62d3a6fb06a642b1ef0298d83cf3f0d56e4c18788;
  Sub 0xdd4828c1ec960ad31908f300c334d14d34a1200151a174deb1bd365717ae0ab5 0xc980693e73a1cb46f5eb71b773b00389f8bcb36ffb489e7aaae64c236ac1745d 0xbf3b808efe6b7efb771853e56fbba6e8b3b21fef00706bd4274cc058b6fae474;
  Dbl 0xb33db04c1aa09a9a2bdc7478d03b663e17a6eea41e3deca6c49f1cbd3e2a412f 0xde59219ca068a8d20fef81561dbf7a04b36ddd1302c984fa0c024347ea9783a4 0x9406c1884b040a2137f6b6fd5ae141be705976585b29770e27323565b2dc294b;
  Dbl 0xcc98201cce78911452d4acd1339b9d545c85e633f7aa3e6fde5c2dc98748c2c0 0x9b378254a97f9ee53baee4585b6c939a1df0042dbc311174c060c4b21e97924a 0x696cf56334be4b5414ce42d86f97692af79a543907ca4d42931049602dfbd670;
  Dbl 0x8b76d344e570b69e27757da2b2c449f7b8f44a4d9d2ce293971e9e67fdea87d1 0xb1f3028cbd05d7db5eb46d97504f4481b1b4371cf10d18464f42e2713a7c76f2 0xb697bd6bfcb49196743af641f81c9fb353c700b142e8c8d0f3d2223bb3a0c0b5;
  Add 0x9aee77b14c99e9a2f2aa4b8b60359caf24b69966d6789003f7bf706e3096a7e6 0x7c1df3460616cb72b42f417236fc98f9e8cd05041da47d9f566c8df2e80cd54d 0xad3e7e0dd602b9be45ba8d456bc1255873153c2ec16773b9390ad6304fc41dd7;
  Dbl 0x78400272a101abd5a3a39c82bf3de300b5b50d6a1e730e78dd581ea93c710f16 0x97990f039af2736f86b5c795d3bd1797012612cb37d512d9d377ad0b2b155dc 0x23813e1d9baf69ac3380c46b706e159416e0ae91a35a49f6c7abe5a7ef03555c;
  Dbl 0x7ed019edc69043a7e55b2abc63b98ed528f1b9f43f48f9048e7519a4e525a73 0x4bb7805b411bc03fcd94b074b30577257add264a21149c1811576dead0ec611d 0x92d50649bc9c7edf8c7e710f6ad2f797cd165e64dda2af540bbed302b94e4783;
  Dbl 0xfcdb8f7002fe969a57479b71a58518a943dd6de1d3b7b0109ab80fcdaf36ae7f 0xfb372e8b92ef9a9e3210a58e5c9b9b055c44936507bddd3b108885c56e7b07d5 0xb2a7b2799972de8e901de852cf0e4fce6c4bffe262c436df98f30c04651353d9;
  Dbl 0xc6774b2de7ccf9bfe6924eadf83eb4c980bf9719b09a9459c2d37992e2794234 0x77d1f4408c8116b6b05a35cc81a377e1cc90f18a4f47d83bc65994f7bffd5de 0x5ab1a6722054dcd7c605bbb8260631b8e1c3d7e472215cb56e6c42d7ec495211;
  Sub 0x18098ca50d67a212da086e9b43b978904cb89f3830dcb1ba7d8510f2334a0aa7 0x46829ddbf4915269a54b3d9f2c7931726af399e477547e97489f4668831c93f9 0xead81df91d2f0092e43c1dedf3e42d756205a59848b548c6572f1e833b11d2d6;
  Dbl 0x3999ba627fedc274d73ed89269e1e288bfe5ce23990075b1d48ee8447725f51e 0xcb85b50d490727d8d2759721fd5edfe9048f4f6790c1eeeedb49a5bb1d843537 0xedf334b9ca9944d2df91b0c3de32597da7144ff8485cebb403f5f71910dbf6a;
  Dbl 0xe8007ebcf5bf84e4eeaf8c64419cc89dc4f8c0672888588d7889338b06a1c132 0x2c016b8815ae1a06a59d18c5f49dd0bcb9a37fc5c54c41e5cf2aeddca62777c 0x8f5c9bb8e7ba8e149897febbd605e51285c7ca0c5c4fe115d9978d4e6a0fd88d;
  Sub 0x48c8865d6bab949d0a79632a86b5c5a95d5ad44004fbafae0bfe58f9112e7598 0xca3df02253a773cefa1600971c8af595fe571f1ff4d58a39c6a37ae3ba5be8b4 0xdc7c3036e4ceb68ce973d26c737b6067973a237eb5a1f62a4eaf2e45ea7d1174;
  Dbl 0x7252f527515b243825ef4477c2c091e0792c759b5a63230370c88183d750ab22 0xfe91ccb94ba62bbfdf84c6395870a84ab8debc17f25134a589520be842947f4a 0xf372403cdb84042583ebfd7f3e0c1e573da31c042f793775446a71902d90ee18;
  Dbl 0x4b8892c65af8130d980312ebed95ac714b6ec3f85354203926f62f1075c8a47f 0xf1c30be3b3f08d2eda47fd88448e8d32b7e3067870f0ae4370139ccf0bbb4bcd 0x4c19fc23a161015b54dc11683f82f796922d24011e3057f745b72ff51c5d2347;
  Sub 0x3911aaccfed170c794bb19e830feebd9ea8658a52d6dd9717e7eaa0ccab2094f 0x9fee8fb639e30a1e1df8e5c06e05c6c8ce196988585d6410e1015cc5c5ee20d9 0xe0054a3a101754543f5f404d757e08a00bc274ab870401c0fe545b0ef08005d4;
  Dbl 0xa5b24f0b27282484db0c8546f98e40c0920328bc308beaf1f4e9085d95b97684 0x1b5ecde56aaa52ea03201ec0d2581f6d8801a1cc1587b6233a987741541392e4 0x4fba815a073755f13d4ed20005dc167a4f8ebaf8e9edbda8908aa6e71f8c01be;
  Dbl 0x938b746ed8152a60a60787688bd3cd4dd84bf38a20f11d1879937459733e2602 0x1f4ecec4ae7c9c9f6d48ba5897193ddbd5bc2674d816cf1ec761315f1a54e87f 0x8cbcdf82ff92ae2d5ea5fde0b18b72e6b8f6ea1543fa74dd06259091432cace;
  Add 0x5da5109d1e63979df66fe6458b6b0f2053003d510eb1b27206d067878e25da8c 0x907121dc5d8ea11e684e82b419fa474d8adf11eb200b6d632957c24f5462f7b1 0x9d5ae8dcd394e99b58c399c072edbc63233ea9a0360cdd9f72cfa065480b0aed;
  Dbl 0x48dba34e7a41b157abb4f9941541b5dc8f9151e34214b6d4365a969a7d48e0fb 0xe7e906bf2bee8ec19999bc8966e8cfb201396ed6d6072852a194302eb5116d27 0x776c592052d597691e46723b205175f947e3a2c94c7a315d311a9eb8b2d138dd;
  Dbl 0xde6124d7d133ef68d76357f8007ffb82d1f80403db0e280f03c5ad399fcdd31a 0xd0562473dbf809d16143e011bce9962764773b09dfca31d5e386ac70e22563fb 0x5370e67ceec7eaf264a279ce67050dcbca2362a845c8f54c893fa06f7f59ea6b;
  Add 0x4412936a2a0d2ab33fc6b0af148fbea8e1acd5eb2aea85839503e250593289ba 0xbf9c9c308b1aab21725ef4a2a6104f0aae551d7d5df1c8107af3c275b6c6a5b 0x8780e64e46b91c971ffd075dc81f123fcae66792f9ef0cd98d9e38171661705c;
  Dbl 0xe2839abc289108117815d93a3e9ad4cee795e76d8fb041e957d30b4f93b39bda 0x877db362a1df9c431617cac9e4180b38db5271ad0e994d5c734a1c6ce5992911 0x356b8db9efbb73a174cc70c4ac3dd3bd598d60101440bd542f25089c5562a67c;
  Dbl 0x1ac57f0dae9e7abe32a74b3da67e9de8d20f9ebdd96ba1ac12566610c8812a93 0x563179b960c69d70d63bc3a99a8e85f4ed80ca89b92056cc516cef3e56c8f2e2 0x7a07b1ecfd3e7f2e3228e7de9d39e35e7b1515997b0bd61444bb78252d568259;
  Add 0x957c496e7b1be5deb1d8c2ae35a0fe7705c82a4ab17d21eec140a7f9ce84db60 0xb34c513ce3ecb784cda28adc92623222175c3a5f47a709ce2aac4446b18a0065 0x83185283a4e1a88f70613f232dc9e8751f07baca4427b68ff2ca04e7529ba978;
  Dbl 0xfa12677d753fc9dbf71a91cf8bc7d0131e69402a7c84df79c8a0d267d97778ef 0xf83a346007e44a1ae9c083c610d3481623ee190b99f62a912f80d16faf16ec30 0xce87ba6e1c449ed37c628b766e8c54ec424e64e5b3a2892262cc774cedc1888f;
  Dbl 0x2a0a989cd53f4480be854594926687fc04cbae4da876c8d9ffa2bd16c3f56552 0x16ffc46686c4f567b4429fca5a1e8c11f9f528db2d23265c3b7089aa42b7cf4f 0x8d37d47b019283c040e3edf372bcf6964961f048f6616a9bd928ef8dce9c649;
  Sub 0x45c175212aa4556ca1ee9ce351f6f5a94e01dc58f0254fe58080258c18c86c35 0x93e5a3a5b61f7cec1696d9fd5d758d94ce2699e033c41d3e3f4dbeb18638c68a 0x80dccfc63565575cf845f58ef0d503891fa0c6fd58970d1560efd1734fa887e;
  Dbl 0x1fabfad4da18aaa24264b27bab3357c7fb85db639d8f80eac0eb1a4c045cdfe1 0x9dce970be8d62a4f0ec8096d38813279fe26d7eae01269844550b34d68c9fdd3 0xaf6acbfbf68a5a7a4f7b2a562455ff460ca05488017d14337bbea99754999511;
  Dbl 0x8f369ea6c08fca2ad840cc87bc4f3930a5a0b4cd09bd07ca3805889300d8e34f 0xd12dfd646b7fcdc60a4004c8653d7a01edb06eecc5aaf5800017e02382d83f8d 0xa052b9f3b0c31e45dc86e8e0b6d02a9b81e105554e6677478c2b51c98edf64fc;
  Add 0x694fc0607197afc820fab872fee90ecad988a903d549fedd303c784b6b782fcb 0x87befe608483b74da4d5df7355457af8644e6d97d6919b523bee38346fa7cbcc 0x8b5d231ddb33bad07bc79273ba45bfd5d8ba42ab92ec7b36cfd3e3a47bee9d59;
  Dbl 0xbf622d01db601da0ba2774a3b063bda4387bba9230b69ea752cb16e349749df0 0xd6af6ac7e1233f8712a595a3f3babda8f8ffb7fb2dcb880c9b5d9733417aaab3 0xdad71162007bdc421befd7fe2734091e16026a639ce434aa63e0fdf8139b15f1;
  Dbl 0xb9d3ffc1119c1412abdd7a44fd0010b7cf5b5d0e56c007e7748c0b7f25f145f9 0xe008432c375afd249eb40429aa56da4e334399be1ad2fadb24188cb7aba891ce 0xc3369c253eabe2cc2691d9e601b1653a7a21788b463dfc3f65ae2f76db80c28c;
  Sub 0x28d5c2c2930136d78511385d965a8b702bed42b28c00c02a83469bca752c643f 0x5e556aca62e1b707e99a114f5340a29aa5cb71ec6fdc39902d44b7db274add98 0xd25234a79c5316395d2901547e88737c33fb8ead659f0a2e379dbbfae638e8ab;
  Dbl 0x3d05771540edf5365bf27cc0170f3bc81d21366216762d12eb18530f57f9b621 0x1426ecfcf702d6a981b7a31b087d95a947d4994a4d4f35df3a56a6924a08de5c 0xa648d5fb6b3350735b6223c21ab2ed122f6870d436634c3464093be6317b422b;
  Dbl 0x16d3ea6d794f9750cb4adfa9d8d86f9a0ab6ae54c92b67334d06cfb6dc883f68 0x7532fbcfa5585aab2426859bfbc22ee4f4c667ab8e54a9b55b8d7cdfb0397e2 0x90e6cdac6cbcb4e2aeaf28c7970c01a3c5882ee705e01a2a9471c4cce55e8332;
  Dbl 0xeab8bef4cbe2c89a5bc41a80551bc1f6d8fdccf2d29e6f30baca181124d243c5 0x84be99578f5d3285dc81a8e9cf5b6777c68c90e64db2f012c8c25c7a99d11de3 0x555bc8ff075c7a65866dfa27f5926593f9ac96a68eac6136cc0e9770f7b63941;
  Dbl 0x60c04f935de0a986471e6d55dd4511bc24fa5cd6ede935003478cc1fcbde09fd 0xf8e0bdd743f8768bd6eba47b343a287701759413b01c6b34ebdb374abc8c985b 0xe97686026e4d20b97db2c303e19f4d66385edb6a5cf56556d5c90dc7222158b3;
  Dbl 0x997ec3b278af3c5ffb9a1600b2e7893b8c9135e3f960ef3b9cc757a7d7de65ce 0x79902c61358a707d8e27aed8323cc4056a3e0f911cd3d1f4aa2b392b10c51049 0xc19421ef0f22bf06844c7b11aba1618d632547e21c4390569443d5f0187251d8;
  Dbl 0xf126f851745436f58b0b28e6d22027c325f641ffc3c7effcd6a1d019c61f2b6b 0x9e711cc4245e9e2401cfd216c932ae8e70a260bfd1b2235ab373181d065c250d 0xac931c5a13c5c499927ec33e7421dd7c04c5de709956e1614678807b1dfe2e75;
  Dbl 0x2602e44fd7111273512c66786cee98f4a2d9fa1e42cbdb0011a582748957de47 0x141030af6245d3e36871145160228408faf8ea9de6699a8fff760656337a9fc2 0xc61477d706fcd567bc34f70df08167226c32ac302acd66e7ed88920b3e2b6377;
  Add 0xd196d26f504c94fc139e2255ed5b2531e557546d19ffd88ea40e71d6996fbd9 0xbbba6e770aa7cbe966665be859cdfbc1a4e3615d620f09eff88811af5889148b 0x1164689a94cd153521f237e7e8d3eab9ddb0c3bb0dff1c3757b7ebe9c418a1ec;
  Dbl 0x7e30518ec5bbafda39e0e1ed64f76e8a9626e161b5759068707e7e3a786327d6 0xba2de1b33c852e86f1067afc235549466d800385cb7d890abb3982eba2c2822a 0xb114d3e0551ce21c92fdf7028990f9e32759bba1301cffef9f91faf07b5e9fe;
  Dbl 0x8a0073efe4fc1cd39a1d991cc3d0dd91633c96ea778ee128eef0d9fab92e97b2 0xf5f32292ac583c9a8d4aec95ea0aa71e3b0aff9c45c0a41c8de13b42bcb16caa 0xc8c20c75bcfd2926476b6e74418a650403e4be65be9534d195deca4eacd745ea;
  Sub 0x7adaaf81da56a92e1edf29fb5c9c2dea685f1b30dddf7c7dafd0d6269d24cceb 0x9fb251d30a6637d54b145f277c009ffa54d1fa8523c264cac93159f90e2ab659 0xc0efe30dbc3398a1f0b261036d1d51483f78410b364ec16f7767a2685401dc55;
  Dbl 0x9821da200b5eae2ccd8ffb004fa433616538a6673e8ec38fe873dbf6a96867fc 0x6d5b4e6072aca3fe1ed5e7320d5f8c496c0ea7a8116c3502a53d418589af8268 0x6378ef0698710980a3c0a29efa8abe9dc52ffe04263f2842b4b1d8029cb89616;
  Dbl 0xb108e84c3d97b5a9260c1299ea0aa7df4ffa194ca7d176b4b17e99169819be13 0xaa287e7644ff1216a421f9dc5919b2cecc54eb37b4f3f5fb479de4317a3a2a25 0xb69213e9e283c76539a2e4dadc2acdbb0c6aea9ef631c18c6611876305dead22;
  Dbl 0x70749db6f053d37ad8d93c9ffff3dcfa953a83391c48b43df9ec28c4fc30f89c 0xf2280837a847f90302b8c12fa66b63ce376234936dd644eab8d9c2606f583b18 0x3c7c3b2cc6f2d7dd217e3a8e9c9435527690dd001e168219397ca9d87cd2ad37;
  Sub 0xb7ca41636bb5b9628c1ac760d544965335ef68b18327f4e9deb93c6c1f4ef1a0 0x996c4980a7f0f967e2cbc8932df2779155fd5baf0d0bd8e1c281dcc2374019a3 0x797c1a55bf66fe1f81c3b27af997fd237d6ecfcb6be413c23ab95b484f40d3c1;
  Dbl 0x22775a4e7fd0dfb1a931c12314bfeecd9bf164306eef3d7a700e2e0e4b60676f 0xc47bc599e49c6449e45928bb064fd7d733304945cbda2bb8e6f1f0ca9fdad768 0xc9039c7558ad6e5f9fe4617a66c2a94f0737487ee6150f808a930edb344ce6f2;
  Dbl 0xcaf5a026431b756423b3a721ef7277a12f58bfe19af1076cfa99b8340862829a 0xb8b76f702026aacd8eee92d3bb0a59b0407e7ffaed82f2642fcdd6dc6f1f106f 0xf23222fad872613cb31c8d0a9c0be6198b255ad62693182d0efa3c16863206e8;
  Dbl 0x33b618ef278261bb1d0cd376b6fa01f3600b02c7445f3fac9168207618f2247a 0x580b749ab56298618744596b2ec39ef7ed8ec305495d7c6359f12fa19d221421 0xdb65419849fafc57b618eb4a5a2f7797816e9ad8669f5b38dcf3683f1100e7e7;
  Dbl 0xd86708f1038f5179a53f9a80b7a02405898bbdeb7cacd16e1a12cb748b22cb86 0x9a9cb6881bac15f0bfaf8e4a9737f0915c68eb5710cfc4f46acaaf01801bf21a 0xb51a4e04e50a112973e0cc74547904e21bce44fde7f43a98aeaa65b6e717bbcf;
  Add 0xa1316e8521d4d3bc9d345aeb0224a183d9f0f44ec3ae808eb41cc856c6e45519 0x4f26fee5db2ce50e25bee98acf1fbae85fd954c3b3d602b58fd3841ff7d1d360 0xdb01b75cc1f02206ade9b8a82fb006150872bae38c35b28f558eee304d9855de;
  Dbl 0xa1c9cada55b5f3d55f73608cb02feaaa02f8b20547c6aee1337ee24a16b6712e 0x56c8ea0378e7a9fab7870e6b12b66f974384839eadd9c77fb77f24d13e31315b 0x2fb0dbc70f5a266ef217e1524b8108376f581403e328cc98bd53ffd5653c438c;
  Dbl 0x9d775309f99a4581c46804a62a5dae398e4580aa200fa2e05f064f567596f26b 0x82301b793c0016a116d6a14c9ba93770df366739b896a85f55fa4e373a2ec190 0x51fa35be8619684d34c6c47b0a8b7e6964c65085526a6177417103c64914b6de;
  Sub 0x469d31d8d1cc944aa3706f91aee9e3c21fa6fd03c044171dd51ae6b605141976 0x3204a7265bd1e9604d9ddd6156ebd1ce284f276e4f299848eebd95ed2eeb2896 0xb1d39a3cd38d0968aefaf8196de79fb073abd923731b11e645a31cbd5d9d7eb2;
  Dbl 0x74241d77bd56e27bdf10549b656afa2a997f639398d425720d273e40c3c753ce 0x736842b588d1b04798f3376a25762de63373aca4a8d05ba98045995740ebee98 0x691017376ee2a72f74e58d41f02b87093dd72347f4b8da38c488fbe4aab313ec;
  Dbl 0x5fc2e81d9801375862e1276f76d302f32a5dca781b5a9040ffc54cede95f186e 0x16e6037ff9e52b05945da0aff943db421a476fff1cd1ce92c7f70b00e1cdda0e 0xb95dccdd1235c9b1e24b76a440998c0d3ef761ad76fcb0c650f38e5c3fe7e48;
  Dbl 0x223bd37a4a4e8273f96e081c779f66e87ae79908685301b6a3e855b9bf812ab0 0xe62be9a45d659018d84b8144b47144f68a7f6657b1f1af17340f454bf7287945 0x69871a3791e6a07b5401cb9d1ad5d6c956ef114608996780d4e56d0a5651f7e8;
  Dbl 0xd0eaa9b1f903fdb16eefea56e591ba5969a7e6733b5820c97a4b28c2d304ff98 0x2fd7303372526cda9c306a6d7c083a2aadbec5f05e2026821719e62dcad7f75e 0xfc0414dccb2c7d3a7c373ceb40c963d4c2bb8af3fd8b8878961d28c157ec2af8;
  Add 0x6eee16729281749700d8eba7e9e6df7452a30d385a9f262a6316e0cf5fc4ae07 0xa3fa409767448fadf691c6cdddafbdf2893f009d9d1597d8e4a9832e06d06491 0x826ba110580985c33e079fbc4e90acbf60b543170bff56ae4767305e1f99af81;
  Dbl 0xd79fe9bc46a0bbae0d354f453ff7ceacd3242d4357d9453beb24db0e85a90c38 0x1cbbda5bbdcd6b2391f7ccc3afe07edb2ecece3579d348d31b7072dae6592144 0x436add03fe48404e72e0674941e4bd42d25652048c9048076ccd63c61aaa7ca8;
  Dbl 0xb41db7b7d1e5cde67c9fc4d08840aca7798fee1dac3b25bc4269d3c7028f7569 0x3bff4f0213a085d5032bfd52ca2a0ec7b9e7e51596ad1fa7b009eb7aeddb1cc3 0xd3b1b2bab2c2401aa77a2f5aceb37c40416d0786edcb9170ad040f6d483e3db0;
  Dbl 0x335cc4bdf2abd2805d5c2fca3f91b026d47f3e9c5b98f53caf3e43b949a10630 0x45248d6f20c8fda09dc883abe9a4af52d924bb4f557d10ecab5b2a1dab994e2f 0xc503af777c946d0f793b7f99f1998f2290ebfa742a64d4ad59729501ccf8249b;
  Sub 0x12872c47dc34bd3c4134642928a89f0d6cd7c4cf8b26fb0fc6c598909e972024 0x84008676eb24c7c536e7304866ca06328ec4b54a1d29bea00913daff6e96cc0 0x38af2bd9f603c45c32aee7fc1052e2bb53e4cf5d8e2f24b1ccbd4ea3eb3c973d;
  Dbl 0xfe41b154f229bc60a9f45197bc415eaca26a207e26cb67e7b66f91fb77f3dbf6 0x4c69afceb0819e3cb010f918dc28bde39bda555ca7f451f97b34e11611bd1ae3 0x46f7a974a79109eef3c559b76065546ba41532a4f6642036ee3af116979505e4;
  Dbl 0x5109b6e0bddb710d730ba7147dd827480c19dd2ca37e019b6472b04107152301 0xab58ecec323c7c16ec8b99a47fa913fae77a5ccddd9313fbcd8077105f26c01c 0xaff65ab3b1e130725ef7eb67c0620ffc4ce2fb6a6d118f566cd1d6d255ffa808;
  Dbl 0x669c40746c88c47287af14147b1d424f2142524d7d1998db8ee3614fc1f67490 0xe7b0d0113739fe8dd3459d7eb8cda941c214eb14fd2f75600544f3750e3c5f33 0x92faa91102a39f2e693e4608c8e035ba5e7a24f49c252e7c3c0ad1c45860018f;
  Dbl 0x43370317aaa8322e8693e4f266dd0c9291e8ccf913dbbf385508fc3d10071e13 0xe8fc60ac36d634cc8db82af07f8850c3b3dcd25af0067bcf4fed47179c6887d3 0xbd1c9dd09191a2ea2c65a83a47c211a7e38e23b9879a6bfda588e67e04713830;
  Dbl 0xc8a96fe22cc18e5c95e42f07a2e943fc0b4e9a5b3993fc64147c5224c8d0e821 0x12552f96d8358fd2c38e0c3a265e005147f94117cb4d33876fb48afb3ba61178 0x37ff3127fde3d6186664ddcf89a25b32b89859b746f73ce8d4f90f35e2d46d42;
  Dbl 0x355cc930cdea3002c7c1c31f072f72f38ac4d28f050bb675fdf2b67c4890af0d 0xc80d9e12bc89ea5a1bdf6f2a9f89c84d6a77f975698abeb31bbdc89b62e7bcae 0xa29ad530e518beab0c246a40f94c673e3f6d8d6f52295ecdbba73083e946341a;
  Add 0xcfdb3ab937471c1fe40317535459400b31c89f57149477fa246e0cbce669c868 0xff17add5e32d608856e0174a4542d633491c0a527069af15a4510222c8c58370 0x25415efb4537ab6531fcb34865a653204baee55f1e401c072b71ffdfca316cdf;
  Dbl 0x60ac5c63e44f2812862050ba5685d4daaeb0278707c6d31b809e4936f6c00597 0x76521e813cbbf3dfe6b87a4134876dbd9910c758fb9d8d548807f45a666fd944 0x697045cd435ddad84905c9cf4fa682d124ee8ca3e486e9453afabf90346a0019;
  Dbl 0x24e3de5d625fbead613e01a4db6efc7439b5020484f0f1b3cd15d96883833463 0x4d2e72c02b09965e82b9b36dd614c9fe10bf9cfa10a3794164a866f7cd5bf115 0x25651ed34ecf95c977efec1a439268be8fa1dd03b0f4193c21046ef4b794300b;
  Add 0xbfd4a4e076b734b996aab50f1708b88c28542f1aa865efcc19952ffa7a1962b3 0x875f244b9a40c674ca6ef17dd4d1bdaecf6f31154d763930d9f6a8ed3253805c 0x4af86989956d0d2f0a399993331406c3288168f2f8e533cc5138d41496d3e54d;
  Dbl 0x4eb3d85ff4a6201dc5782f89a9d8d7ef767a90e8ad95beb9398fb81f3a5f6758 0x80a6b3e2cbae8feafde209bd418e84093d45b24823d7438a3803dbf000e201fc 0x365a745f9e38a442c7f04c7034e5f53a76865d9bf288f69742033254e9f06d6a;
  Dbl 0x6ca0240b29b49e5a49b9688cb369c4d9cc5459b9aca4df2b8eeaf74ed9820bfd 0x4fcfc63aae41173d7ecc9c368c80c4dd2efe61f9dd307236e6fdf7ebe3f51418 0xfe199ca2f65efac2eacaa041fa755202091a0b6536b878caa02812370a0b1e9f;
  Dbl 0xbbd93379f6e75dd9c52e6d572e03f23986a6c4e380ca724ac0f9c7f953f3fd86 0xbc816b777fd280542c353114b28ae002819193c43962cdbe5d5b415cd97de403 0xcdd179c63df1fb7a01f265520aee41bce932fb38edd1bb8365b54dc2bf2135a1;
  Add 0x6ea7533b4ff086d0821ed3237227279002d9e455c9b5b03a59c3cb8926da0268 0xb17ac78c34481f8ef7f18ff9cdb56243cc1c6355315df9b73e0435734150a848 0xc69813ccbc633a810eff19813f4abd71ef19f8484c3bc3456ede590eddcadea1;
  Dbl 0x1f751ac89a1c474a798e45a67abbac49548a381b246d10943284c37a0de1428 0xb2f6a4a0f9e8d79a2df18ec8f39558a7a06fd48964ef9a9334d8b640ac55563f 0x1f2ccb62214ffe6b19e918950726516f2b8b0d833ea6c56e22842955ba5c502d;
  Dbl 0xd97a828b8f9578bdae1db1dc1cdc87d8b7651e25b01d600d7a2b8dcd3b29aa42 0x6238a927ef0da7d215babab10103a5573991173080ecf509215b9e9950930773 0x7f45c64750cfe1add744ff79fcd59f37bd9e886d04eeb9702fd06af999cd5fbb;
  Add 0x1518267af7546d6d66ebb3d8e060c7b6dc82da134a24e1ec88c6d86dd84c0926 0xa9c01d5c269009635afe007d4b6155d164183ee88165ca9ab6eda27669fedabb 0xfabcdfece644615d9fc8c0b34d889a6ec478da73d067cac47be2d3445caa8d53;
  Dbl 0x9c1b3d6d74e8d9b3ad442f930828445d974b96d0394a1206dd9e9fe0afe1da05 0x886014715e2fb3983f9a9647013dc0a67edc810d5121a8b94ab9c23b198cafad 0xcbbbad44d833e1d195f11dc313242661c402305a4870c368bc0ed3978f34a6d;
  Dbl 0x1cb5372cc27e7746571df32c0327698c0f89d2a22e75c35591ec2d0e8dc48720 0x1a3440fb1cfa35b7165c50798adccc6c9c0695a31214d5cdf7bf2d8d15064d6b 0x81dd6700208737ba0ea1430c7ac3ca8895b10ad156c252ebab6e37e4a46651af;
  Dbl 0xe73d8f549c9f7711a39141ecc416950b41434cff4e083ec6de61dcf7c2f7c2ca 0xf389e2e23b24792d4cf751d558e9325cc1a147dbe63409aa51dd92efb30221ed 0x9f56fd8f9797b4855878bbd3b2a35402b4b589061d002a0d24242ea93c324429;
  Add 0xe1967a34a7d39043cdc524de1f0c6deacd526f8625c227afde26ab1d1ee25a55 0x9d44845b9b28acc590c90877f1725f893440c8b9f8a93b2df84199b58ddf70ee 0x1bafe5b4cff9fc209f44ad7fb7f8f1df13c87d678be535f7bb9c39e4f6b34f3b;
  Dbl 0x33e570815fb613125536565f074b6f867497463f995fbee862d5bf7865dd4176 0xaa9a73b39ba3939337ab18978a913f24b400e3d2d24f6d083b650cf9bee75459 0x5f4d2d3a0bdb4126c1eb87bba109a4391cafeec04547c6fdf988678a38126a93;
  Dbl 0xadb94ae76b34c4511b7b5a01808d725b4b1c84ebc1457f54c9cea19f4ab5d433 0xe2c904b4d8758ca9fda3de9185cd3d38b72caf48f945c5038343bff5cf68c988 0xaf30ed6574ed7e375e05497d7109a7db70dec3443f68806f53066f4a96b1438;
  Add 0x95093327b6970ef7eba254340bbaf816807f2f27b114f532f06cf8c7ac17eb21 0x8e3e89397e2c107f96028bb9f2bda2fd03dde04cb91cac63e5611fb4208dc5e 0x35d86e528e33bbf4ba8099306bea48f00eedcd2cde839754449ee370dbb8a29a;
  Dbl 0x5c07495567fe68ee92979a170cdb56c7099ebb53dc55dcec874e6f3d53f5d5d 0xc1ca6ee7656a7d77fe2ed89ab03d31296f227aa76874153661ffc0c2d25bb366 0x2c2e41d1f4a10909c8fba08fc1158d5cead87cd4b63ada4723a6752eea787279;
  Dbl 0x208b19ea58d60b611e7c3af2da7a2afbc5346e3b26c4770189679ce5a70903e6 0x5fbcbd62c63e582ef8845d7f0a7581c6d46a781874a51597b31ffa824a8a1e75 0xfeccdb3cfe4c1df2c349efdb231b4481d404325ebf3f468752ee80e0421cc72b;
  Sub 0xe1bef69778975f06b277ff5222346a8f4bd686723ee47f198084cd8930cf970d 0xef1ab94ce81a1ea958240b9f559a88714f7133c33db76c84288efdfbcbbb26c4 0x2edb3a7f2b50f88bf4dba24dea85be0050312c85bc373a9b7bdd63583da16ef4;
  Dbl 0x37751d883e050a06203019b5ae1781cac212dac289bb45c4b34888e201234967 0x422ac75f11e1a5ba55d4b6c8d262a7c90c5f0b6976b06139a3cea9795e50d35f 0x96c589bc61f6986615495d3d88824e1e0a9efd008309af56d2f747978883a040;
  Dbl 0xf8e7a9d660795337791f30e0fb5672a8bd7dd7277cad2ba61f19afa62c0376f4 0xb3d5bbfb5d91c243167472eda3eb1b6def302df418b616a3eafd9719a30614b8 0x96885c3ae7084f47e97130514ff2c3dd81bd81d3a58f1982a1dd48daeb6b08ab;
  Dbl 0x832becd0f94bfd10605f917e2d59976df85d6ac0a0fd2410e4c9e3fd1716e568 0x751bcc9d10765a57a40e8759b5ab3858b7b699668b394e7b47ea0ae8937180bb 0xaeba8378cb617ce45beee94540492915c7bf1ae260851a6f6300c3a47322cb3d;
  Dbl 0xd5a8730b99b109bad04b5fabd2251dc2f1967924f80bb66895aa9e6dc9e9f3d2 0xa2199500c62f26cf946c4c6401084a3d5631d563e30623448b511c6d5fa54400 0x3a01e823ddda9ffe834906e77e9bc4c2bf95a13e6c5a66efe90c1cb9c02734bd;
  Add 0x2f9c3878127e7c5a338855fa9fee046bb6b6e41fd7bbb60bb9c2d757b9e05dfb 0x3b973b365ebdb9b1a1c4a52be3e4e60ed50c4d9b1ceb32e37d9b19dd826f23a5 0xee427ef55160e07c2a2676b421a72af6317ae838d5ecab287b187197a2ec5ffd;
  Dbl 0x9996c1adc38fbce5f96ad6c41793228bb6a59d9631434f23b23597c418d046ec 0xd1aaec40e315ed3f50b62f8a2f443f635b83a8e88c3ea7f742aec8f033edbd4b 0x35d3ee0fbe6f712dc0b3c91fee7654865ff5ba8cc93c0286c53afa12b59f7e2c;
  Dbl 0xea8ebc45e0c983237cb30aa89f58aec58f4f223ff3a0d21e74a09904252bc7f8 0x26815ccb1e0b6a53676bb772b197ee14640b9b7ee21514591238d2eec090edd5 0xe38305ded693a119c16c71addbe794383a12b9d686d7d69ee5f085eccb9f53c9;
  Dbl 0x5704393934c761244d16bfa13e4a504244005172af24ae71e61aec28d4a43a86 0x654546d378269d5834e490d823b718f9ad5ee290819ddb027df8b14b74bfeee0 0x72b4854dafc850b74608c1e12d232b591bd544c103aee8707fdc150493726dd1;
  Sub 0xe386b54a68763cd794efec297c16b1de7c9068a466496ba9cea2a7b4023cbbe4 0x3f18cd78eeaa66eb49c54c56e4b676651787be9bfd10c31bd6a79c93da71f870 0x6aec901e5fad3e052af305e4d6788e0383d8121e6b21b8bdf72909f2e1f1dca;
  Dbl 0x15aafa12d06492027d0ac87d209d903cc6ac2ea1aa11cddc963fcd2cf0c4f036 0xf6301b5b0887279b8a5ddb09ac784512b9d7bda4ea48a9c9e9570c199c8f3563 0xc35bdf352c4e3c894cc2aeef0cd7760fb121bb1088d71de603a589b3a65a4f14;
  Dbl 0x435f9a8741ac51edb5adb4b742ea07c41cb4213eefddef83776ef5504ef3c6ee 0xdb166e05169cd61760fa45285738c4d1e33cafeef139668a855fb8fcb75e2390 0x5c58794544459de6d21c662abecffc10450fdbbf49f199efd826a8a01f55d0a5;
  Dbl 0xa7966f236c1fa806358287b02089917961a366eacc3b0c2d4174f19c406d037e 0xc5d0094734c3362979af25381b40701a277a22d09277d552b2511ab3307abc72 0x64cfefc796b668bebbacba2a35ad80af966f6e620a3ba35a6c472a6b9abe5b7;
  Dbl 0x121f4d4ef5cf12568663cdd00b4688a89f619a6b0dacabf09d8f2cf50070db96 0xebaf7286ef74d18a4c5d6b6615f55b3260c034f85d2e3b3840550c4258fc29be 0xc678bc48c8638660da3976b4dcb248f6ebfe82ad65f1cff9fbbe08665f12e015;
  Dbl 0x679daa8261fa93e29aaf6a78c6e81b0db34ddc7dcf4d7d5c2bbe0f2a3fa46270 0xdb7781f4dad907bc91323823676c6a9b7e0b0ddf574184e9a71eb429dca2eaf7 0xbacafebf837dec1dc5f59f825bffb8599426035ff95b542f38711bb5fb3f2e74;
  Dbl 0x4b63a1d6003fe0e4d90ecae61c3333b98c3cd5714adc2bcfd3ba240d2ea6b1d2 0xff5b4f25229d1725c1172512566a899cee000e0565a78d953b0fe906bbc2fa68 0xb1edbb563e60111f4129942e3c4f55c3155b3255eb1a880fd0dc173e30eb95d7;
  Dbl 0x8763403a034c416c429176d457d6912f1271b61760dff7a15611e0457a2cd8bd 0xf8707391f370be87bdadbc5cd4a2bd50cfd6ab57a643bd8c7402c92c16e8a3f6 0xfe1204f3df6db38e1d7ff4615bb07b23908320b7c85e1685b662ec5ef2551741;
  Dbl 0xeffd674008a5bdfd4f18d3a4a77b7773a61ad22127064bf9b6ad98f2c9d32c02 0x4a45d5b23b692086a1d34cafd6c1f719ce0be26baca78d0ff76ad24178b6d8cc 0xbc1690cd0f84f437c04c520252faf6a710df79fb22d0e7f4aa03abdbe4fe87a6;
  Dbl 0x5f1353cad99c9b15c6dd6c20a4849ed2dc7e704578c2350897619b517b994f1d 0xbb6b3ecd9208ec9215c61df3e59be2e3585daafc48fef92ecbf973b4f68a8e63 0x869bc03d9785feb37d8b6fe2c61f62cf2965add346268e09133f0eaa1011d8c7;
  Add 0x7ec48c8ff78e0f895f2361c0f7fd541f7a10c0ace0975d86858af576bf56b56f 0x336941338296e4beebe0d8621b6254c5760150f7a131daf1104d8b1767c205e3 0x3d5a533a7896adbcd4741a6a0fca8e88b487b4d096e71b07a07bdfe57cb44e5;
  Dbl 0xd58b36dd9bb65fe782e62f1161e5c98b8205d7e9f7bcf967a3d7f00e3a48733d 0x142b9143cf82b6814f79d697307aa0d87e43f44a6a82803bd6fa1ea233ca3af1 0x26d30ea75aa9589871e6b94e62bfe0fb0db88a4e7a1d52d47a36886569bb8e13;
  Dbl 0x1ea08c56a13b7256a95912f9f2ed20677cb33dce382e3ed0dd1fe8e6587ebe85 0x472022017ce05059691d936b347e05aee7ff274e09ccdba5bca1228737c3d05c 0xdcb6736dc9eda19af18da92af75ba19d116bea53a74ebb3bfbaf7a7024528126;
  Add 0x75daf56e0d796bfa5da232ac318400fd64f605827ac3fa4b554bf3d398af39aa 0x79d85d1c9e944a1f3b15af3de00b3059223941df2825618c36adfac7f87ab375 0xda02f05495f283786e24e6d41a06c5fa1edbeaf824f5370249095274d9fcc7f4;
  Dbl 0xa64346b2543f4b4672cef3a2a44ac43f68beaf4028a90d1785d1d205ccd2cf80 0x2d60808834d1bd7d1477409eb44c107a5119353112d05b2e1552342afa895f83 0x3b454f10c0cfee3cb0adcd88ef18f7e4467b455c1df1d92f27a939251f7424d9;
  Dbl 0x557255e238706eb857826081aac75234c20247f362a3d35e742c04aefdd73ad3 0x878419cdc50ac22fe3d2c66c0c5e8966bac53710f7d49913e410eb04ebd06e44 0xa73461c31f6272a500243aa692bda9f14a7c5176970796d240f7cb187b765841;
  Dbl 0x9dc2e818279ec089ac1acade5e389b97bc9429c85706ab74bf0d269b5a392486 0x977616619955325876a1e10fc9c49c10107c7203433baf553339cc7c41d64821 0xa748a890800c38661f68aa9ebd267fb8ba6b5f5e92cfe81416b256f3c5d9dc1a;
  Dbl 0x4f72f424af9fbb7a90eb2ed6ecbdbdd5a2afd5c399486a3ab6ea75980bbe50a9 0x5e9277f0e2200827ff7222ce52cd3e8b140116ab89de7e099abf2c6a091ee6cd 0x601c9788c66f32408011f8209d21ad7ec84de074811241157db312bd099a2c3f;
  Add 0xfff1c03c92b9ccffa9218a182673b8ab0f3690a61024f884443021a4968e4ee4 0x39cc39930bac038e31393034092d9481ac81a36a90f2cc584582f7377748f507 0xaeb58815a3408e78aeb97895f3e8c14f8ea55228046e1daecb9731398d62f9af;
  Dbl 0xaab7740f347d04876041edca57de29a5b5550da5080f4b032c68927bb929f1d6 0x497b25020fcc1dbaeaa39582cfd989633a5528a100dd36127e0fa3b284955a5c 0xbdc1eaaf99ea3218a75a18d86fb4bed8a4164b99177bfd7db73497f677922679;
  Dbl 0xd0fb2d9157650489b5483d040ec35a207f5cdd0aae20f6b7b3efe129874040f7 0x9ab8612e2d1eca5b53de104207a242757666c258f9325ecb8313a203c3e1e269 0xc3904f01455dceda5c3363ed60f3ffc6410c62649c90e1ad5df1a29fd6f1a14c;
  Dbl 0x20f1d394f0dddf8cde26d198baf76b01b47f4e7fd621503e96fcdbe47e5e5bf1 0xa67d81657fb00c6e3a5f0e8b8609d96323641f100e520175ecc7dc7af192917d 0x7086698fe42c084c80e4d307d20a5a99fbf8d4e043b7f43b36472d750403a192;
  Dbl 0x467e2b3b044935902880c05513de7f0b1b5a03e0c5c7b0fbc53dba45b3b8d73c 0x6d1af79551612c90ce333f69c069c7d83ce59c7ec48fc99fc45e5fd9968e24ca 0x8be2cad95858fcb56aa8997671c908989b7dc0afb8003afbca100d9805171bed;
  Dbl 0xc7cc895fd29ff5c58907dc2b718bd4eafcd2a42b091a81ae6d3571675cec996b 0xf5c836a9f23ec3eefe5f6f625a71c3678cf2ff0f667e6cfb1537cb88d5717ee 0x32c1a77243326fa1ca7cf17e9fb49f892de5f3842bd27b8d99182601da3fdc33;
  Dbl 0xfbb7d1d433ebef19fadbb5467e210f38b0971f0a1b692432dffe45f4df7447f8 0x4d6bb758f414e03e966e834c8a0d1463237baa555be5db52c00488f88578abba 0x75fd9d1b7f9664c801247e070760340cf9aa8a2fe00742d225d14e70ddcb292c;
  Dbl 0x4e4b798a2f6e2e094e93b679dccc97f3b12f9c4fbce9114adb6ff5624f7c3f20 0x578022595ffd69090ac95368733ea2355f66902cbf04078d69bdfef7df4520b7 0xf28d5721c25b4a479aed6a51dd7c00c9893818899016a03f7929246a5fc59db7;
  Add 0x46af46cd03b9ab9d199446c54fd5a1ee07a15e2775d8632ba681ad14f37f72fa 0x751590ea125da6547fcf0b1aee4d660d3b677c8c70b10451f259edc0a9d44ad3 0xc5f101ed07c249f14849c48c5aa53b0e8cd9c4215b4d97afe6cf9b648e1e5b62;
  Dbl 0xd3ba18dc6ab8cdf5525b7d1afd5b2211ea82b36c311889b83d5ca9bfd16eee5e 0xa762204ff78bd2e086423bfed6386a88d22749baa47236d1f2d7b85006722158 0xf6058f2d4d64c3a7bbd2b2e13b4f2998ab48c9764d89a538af6b08d04c2b6fe1;
  Dbl 0x2a74dc30274e6edd5142ea06f8768dce4fed789249aa25802619bec85839480e 0x20114d27b7149dc490d29811c38be75f78d4c52001aec96e28db84564965de3c 0x2361ade9cf76a02cf0c943f6af6101d5af3d344ba2ae0538b57375a889102c43;
  Dbl 0x267fcb1bac17754dd508f436750a9b4b63f331228d109194751155236c81a34b 0x29596eaffd398429bd483a95d0d79ba24de3d038243002b56b49b617a231ff7 0x6c697f4d03a4148dc58726a89ccf6bea380535172c867a1ad5720817e227f8d4;
  Add 0xbf1176498de9eb1363d2459ec5478d06b8f38fdcf6149a737c44afa4fffb1183 0xa87247f7dd86d10cd1357647697523f2651997e28b3e004a9d5a0a7da706c0a0 0x876b674a493b1eee77b8dbcdbf734bae60cbab08d7922a65285a1c078823deab;
  Dbl 0x5ccb89aac28952bdb405ed85d0725cd7124d6a879c062a3dd3fb9f6a0c5e787b 0xbf54c33864cfef0d6e46b40b2bd96a053dfa556f7797f9804a792a5702de129b 0xb6ffd8b7fd011111918bd2f44be1c99dcee6f74e6053a4e16679fd2493352018;
  Dbl 0x5cb351ca8286c1684e9b518369df865df30b11559ba894736964c2db6a950d56 0x9c11cd45e8f5d70216b023bb5b1f55036ee81f6525591ebc57df637365dd8993 0x1a087f98146b6ca6234579644e12d5b7c24c42a4b69680f0ecf99ae421f9c892;
  Add 0x52832f708ac9cb4e3a062a3ef3e1dada01d56bd04bf50fc5dcf1a263b0d01214 0x42cf1f4a0d5f3dc0885bd3eb08bee9fd3e7829224b18b18ec62713abdc3e203 0xaaf7f1e2c7584dce6416184a918429709666e0d333d58244891b5b7304ae1b47;
  Dbl 0x911b6bc73f0ece8ecc5a86280f71ae28c4f5aff9916bb6986b111f0ad4ff6929 0xf252ff59d18b268e55673bd2feb669df2a45ce5b66e55b72371df7c2032eb59 0x971ee72a680640dc051153c23de942538f14ab0d4a3b38d04529a02a139e87a3;
  Dbl 0x288104db8dd4fc7f98d4db5c6958bfc718233040bb587b7c36e31b5b6089c78c 0x1b5ff540b7e5c7a77ce1dad69cbcc01abea3abcd179ae45738443c4f23d2eb4a 0x59d97decff0fb752ae0fe8428d86340c3fb5ade2a1bda76a77d3ae3523581185;
  Sub 0x259ad7bfa5feac9c1c83fea7243504e285d7c63e9ac5f149c1bcb5631aec4d7 0xb87cf395f123839d8e336c3871c248755f4d03bdd269ee52d16eab04c3814ae0 0x43922c9c7f57af6639f5b07fc091b46d6314d88c103f63f8c1215f0851c414b8;
  Dbl 0x718b6bf7f86afa3f8a48e0e1de6777b508a5d66409d7740dd8bedc283cdb6b29 0x395aaa0f3a725b69d0ce5cbf2eb1ea1114913ccaec2db6dfd4d5e7ba32d763e0 0xaa5e44d236b2ce97ee14867b330fe39dc61f5a52bb81a1a7af145fec7486b0e0;
  Dbl 0xc5432422367010ee7fe0503758a9921e84d6fb82b7ea1798da1f1ce15b858dda 0x86d4f93fdc60d399baf7f5baff4ccbb169f0c2a5077f254da1eeddd204de7ff0 0xdb4b4e42508c49aa979ffedd361ae841b084108d35982b75f88e8bc359d3c827;
  Dbl 0xd0d29178d31c6700bdcd1b3e0063537dd5331d18b9499882300638994ba075aa 0xb4cda609a81a946b02f542cc03cf2c02173e3ee57d6a13510424b6a27f581919 0xef49d95cca9fa50977651615492ab32a881dc6fc9557a668c68da77d90a46695;
  Add 0x74eda9708e2fed0ebb79a18dac669e337dbe0415c308bccca649681830516c8d 0x3401c6e123be02bbd34e2c2793ec9d20fb127e9556386b1471f53f47ca798c0b 0x3078c76bb3b902ceb20843a40fa6a232b1f3269a1f029c52c2a5365e85781e7b;
  Dbl 0x17bce8f09b6fb4a338168d121ad1d1f06b4a8286e0db838c884ef8bc8ebb9b6 0x56a962fb552f79333b622fdca6be17b7110f297806071d016d923f698bc9b84 0xef800c769a693f825214292a5a1d60e3a698c2a175b2eae09737dc3b50afea20;
  Dbl 0xc3cb60a8d391017d873c4032baf1d36ec5a76006acd957df676fd34df4a710f3 0x326116cbd88486f299c380bb8af7f484f19fc5c1d04f24d763ede667a1e826e3 0x925969b658afdfd67431447f466c009869cccfa103de2ffc94d3d641b5d3565;
  Dbl 0xb41b37eb6ece7454720a927849f998b530e69e81e01e8499b3424f414266200 0x45478a0078675beb4bf30c6840cbb7416dfeb07254809ac8d2ed8d60546cd569 0x92a16a52e203e0932d8b924c86aed859e06a55dc630760a05a7a25308cf41f07;
  Add 0xace6f09416aad740503a0b1e10fb6ba51a13c3bcdcc5657eb7cb028721fdac31 0x3bdfded4d3fc1abb71f82a77edc1fa8b22107c773b28546bcf8f52c825e70b57 0x89a9a938752735d17876c28774ee1876324a33cd63e6da4b75455de7ab13737b;
  Dbl 0x83974665b9fa5c808157a5c3e8c4bb48f7cfbc11d82cf5f91dfa9afe53d3a6bb 0xf5ea6103d739a3bef894cf7f92422bac627a05fd0ab219b339bb26f388f4b3c4 0xa1ef7786c5f9907ae8f62bd2f82271a5a628e51c93f48b0697e152b3a7d868d3;
  Dbl 0x2a39fb2ef44cd25a5523d7274b3172544773ccbd3fa66c4800bf4bb486d9edf9 0x8a3e0f4a282645769350ee060d44cd23279c0398433864b426ecb2e9c110b029 0xdb0db58259a55d0c515c73c8f1d744e40af557ad5c4916d31748ed417a34c5c3;
  Sub 0xe42f44b30f9ee25f1b6b233f0ddc20675bce9f0ffb93197cda9bd4511c14a9ac 0xb58023af18d20fed4116c84d213dd81c26eeb4722458b05ed8fc102be5e52ac0 0xa155367dd8b231006ebd70b4708d8be84282f16f0211004c80385bdceca19fd4;
  Dbl 0x94685879fd6bd3a11383b7882bce20f217b6f36175553d9a358cdc19ed2b7f49 0x2f5bb61f7ca7769b2d75249138720d4bc7c7ed01fc24711f6d6d8bb2e89dd6c9 0xb95a73987301ec3b5c98f10b467c6f48f452a743ee537781fe35f87a20e2acea;
  Dbl 0x3ce698a1d1085826038a1c04e3630b955bea20d8154e1db00ddb0904c4a011a5 0xa16894fe3fae74c1b102837be0afb16b4c00bdd1dee3b0b9dd8f2da7f5ffedfa 0xd1d2c7d7dcb759b090c3d2cd3786cdcb9e3d918b366f05fb68c7bb248b71531c;
  Sub 0x7cae54ce8fd477ef63d7f63d05d3431d1b06c8db87a9e00833e08a34d1828b91 0xdaa4fa2fe28f0ff07ae1caea8e57b5cdff80c5329c33a0cee11e6a41564c2747 0xbb849f2c829ca3557c68ff71aa145e300dbf1fef730d44516eadd5dd80eb37f;
  Dbl 0x3810953933a7fcb2de717f83f0a427e2fb8efafc27ed8c57631e1d0111965e4b 0x1858c41a4d96fb152ffb22bf94d5a7f568b1377aeb2a3fdf9f3dfdb8af393fa2 0x7622b6b6e95d5b203971d97ff547519e88733f02fb80b655de97f8f2860bea58;
  Dbl 0x77733169ec5fc5ddd12e5a89a43694d969b487d3803716094e6d4b071e56e5c4 0x22375c326b0b47277191591ac1893a842efac40c2e28887446ba6479b21c911c 0x56d98f60793c1bd629aab6f03fa39b5de8f513bf445d5b9c88e75a16feeb1a2a;
  Add 0x92a1f3c252683341ed10c663f2e5c067c030b9f46372e3b10414acbd8301ad98 0x8289d75832fd4a179af354dab0cdef9ecefbb3b38a5f54900e9b8163b18c6112 0x698be94cc2b8ec3bbc52e3a0291d5cf667a43a0a43cdb731427bf6c83149d3b;
  Dbl 0x1628ef80373720bd553fe926ea2e342093ccc918708f938ae8ca7ef7c1e3d815 0xeff43d14fc3240f8d6df6780b0882321992600b56f002e2592c46bb6590f5185 0xbf565d285202b647947542a2b68a8d460bbc7acea2de365b23a733550565f758;
  Dbl 0xc54b4400d3fc00256d3fa0d1a69bebb368bf4aa6c8ac9f95a64da805967bbe2a 0x739fe7789a81c55007a626535e738666d32d2ba05db88c7548d057ea84a64c7b 0x263e4d2b4a77be2fcf0abdf62545ec8fa2822a8f05313d47078e692f8f875df2;
  Dbl 0x87d59408a917e629cc7158b119dba02dbe58d796edcd6ea43f29a672bc2fa8ae 0xe33ea5aa864dfb385d3fdf5338355bd5738c3308ddbd6464280ceff6aa902aef 0x99f9148f343a214276206c73a44a94dac16d62c7260dc18b5f138aa3577d329e;
  Dbl 0x842c66ab86e15239356a137b76be84f70ae2aa1899d1ce4133382c2cfc1f41b7 0x410aceee731c12ecdab446cc8bb636f7b5357fd4dca4d76c9bac66a73fa616d6 0x42466a565bf595b52af272f53862fb74d867b25ebbfc4828671fbb7df5e1b701;
  Dbl 0x163560d48d712a3076881011a792df0c9857c1b7d996bb43b5f361eb8af4597b 0xb1674fca02e8e8f99f39764e668788a2aa95e2b03127185db772e9427d852be4 0xdf18238985e486cb82a2e48465272b33ec0c4a017d366380cc1aabeec5cee09;
  Add 0xa12ea8b8df4be94d2b00493fbdfb2b5159b888240415909940b09815f6ad7606 0x8a10bc8a5390a2999320d9f6a73abaaa9a47648239900562564047f95cead575 0xbd1d38f23ea816e6b935d6cd91ab7427883f8b24060b4658aba2f367a9de587f;
  Dbl 0xe5f65c998978297c3d0efdb665bf08060ce13c4342f72cc7bf51b6024131e089 0x94fffbc7ab878244c5533dd8d5b670d455bff3f3049a1c796d99bead00cef143 0x5626d18972d5424face6457bebd0029da65ee2804845a32d21f382b9bbec21be;
  Dbl 0x7b6cc9a23e03f41f271f485a47e7850f2127c45ebe982c606ad654545c658367 0xf609d76c566c34b095e0126511c1d475875fdccbef1f5ececd852d1349c2f9ef 0x7bb54fa5a2da7eb14b15dfef3cb40f0867a1ba38e442f8913a6c38b33d7c9270;
  Dbl 0xadb1b11cb7a6b9fa8e84fee03236dc2f7ee685c6967943aba371f87cdf716887 0xb606429edcddf8e06b26461c4e85b8d07bf36f63b07b06d18f55dc4e0b369a63 0x1c74d024e1aa5d2b2059fe986cf49568113638a920cd64bd6dc74144645b5dfb;
  Add 0xaa26077313d4c68e147dba5cb3e9f13595861d4b2c7a524684f2eba1bef2cf25 0xc0c91e1109e32def1c4b329727264290fff24999839fae46a6ee92a6a56ea25f 0xfd78468423277a12872459023eb4030be580bca6ce511123e674fe22bbd1b210;
  Dbl 0xd207fb4beada0d538d1f4030cb70d64512260ea1285febe303ec0eefe4f9954f 0x5bacb8aea6aa3e816074cf3dba89548e46bf71a30672c4d71eccf36fa216a818 0x8a2fff2a75600e149262c1abe81b7acd02bc21c0df5b70a25380943470a804b;
  Dbl 0xde72ea6eb40d9675c4edf65b4dff424c31ce238ea33a969d6282e2faaa0024e7 0x80fd948a2012115faa5d1072a47a508ce8beafc3afa0eedfd567be032d15156f 0x5c7fddb364dc52dd6c03a708badbd3bca5b256b5c68facfa90dbe504dcbdefd0;
  Dbl 0x40cd5846c567d5fea5260bec8e92f20d993a1798e96b8a1d706108eadbdd4626 0x2b00d81a2cb111c2007ddc1c8c223a28749f001f40369e974790fc4350c5bbf6 0xc7be7cd82c6e0332073b1a94a6fe5e14b792f0907481a8c1a73dfe2b60b37398;
  Add 0x6035710ff98e18d37dde387d1e0dd6d8aae3c47aee6aa246b734a10057924c06 0x407f446fef8c5e3ba74e153bead71e84253b9eaebcc22f4f46c820a82eaccdb0 0x59305fc055cce160453dd0d353f633b2b4ec0b02cc054d8fab4d74252f5bc409;
  Dbl 0x4ab9e24fb84fe7e4f9c6a2c191228cb16fd9800d7dabf2f0712546bdb1468894 0x7497c6a35fd093c1f4ea05e97e84749c2aae674583a85dda4b1ecfe8697a62e9 0xfff40da76c38180addc56c4df811f694fe38e322e37151e56c5d629a072121cd;
  Dbl 0x61a67a3a0a6bc354b8187f83f5f90731e9ce90c031ef2cce19b2c0fd9fc583c6 0x107d4cb50765df209acb076a8ce3054cecc0bdd0ef8c070ea5128a8f6d833d1b 0x4e43a05c59694b367b9a27e4a0064dd941b5e0965d4ceb7d59fef7b0d897834c;
  Sub 0x1d98ac89e0bcceee6c51b88d2e0373c80701ef1c39b3566ee98b3cca76ad6ed1 0x1ea691279eb79ad7ff48cd6b2f3bb5eb40475eb746d5293b158d2a1bec41a178 0xaedafcde5abd05d690dc1477f3c6e97372b81892ee158a52642f9dcf4c535383;
  Dbl 0xcadaa67b385111248ddbd3ff1ae4479e051be15a2bcc091c1eadca038a1490ba 0xc106ccf1f6307170bf0efc82d70e6bb17a547e1d1dce87f6e4b578079a8d70e5 0xd1daa39fea04181326a236ea06ef395409d9b509b0f9b23d4440acf19e6c2c8e;
  Dbl 0x8c4568a4b361adc07f95d9f3e48520defd0a240b8b9c2f25ec909a184b4fd15e 0x51e96aa255864d9d81abcc4ae6d31df7e3c4cc1b3c4368241f2930a5d7d65cf8 0xf484db115223a25110ff4620e4f855e3b2cd9fe84bf764b229a6699dcb8d5eba;
  Dbl 0x8a6a383613a946839094986f2df434ffe1923b4d18ecb073a0128f55a433988a 0x3feb79060c3810b3dc44addd77ee77e3bca4ac77b0d575f3d0ae43af6602cb70 0x916591a2759ac2f5f4d0d5105fcc90e8f6ba717877ebe45b96896541fb0bd76c;
  Sub 0xa14b43569e1d7161c67b2456303598edb4bbdb0d80a7dead285bf2ef4e8268f4 0xa8c967b4256f7f983ff3502a8eb564f6293151adbc87a522da252c53d6aa78c4 0x9159a6e2a4d7f95fc3f3c7c6e9d6d66ef8826cd86aa9bb6b07799e0c3e3f01e1;
  Dbl 0x250961f241d214cdec0f89c31ff47e4755de1837182cdea5b64c6c65aae92c3f 0xf9a7c82d41f9094d5e375196611882fc116e0e838c9e9fc3af40c592593a714 0x817c4c5ff9bb1690beac3ffb481ddc2c5b4ddd3f8c36d8defe0ebcd15abe2d42;
  Dbl 0x1dafd6612f2e9f9409528fae2296f5b66f84dbd231774df1b9f4af497ef97951 0x3e8477f6578054cf47bbc8ea607b27c24fe64c1eefd74a464abce32a03029807 0xa6e063229e180ec7af165a5e9a32594a3ad8cb85860681d481f32800b7f1ce7f;
  Dbl 0x117516d8f05723ee52d11eda5f34c7f6fd31b1c44c0a4e735503d41c26eeaac6 0x99d7c1b75c92bccbebb8c2642cb1dfd0f5f483d1222569d2a02261a901c645c2 0x3c5ce439c4c48bf4a7ce817da804760a4e1dc8fb4ac751c578dd7dc8a7efac5b;
  Dbl 0x145e623acc3df1af8cffb6a6c4f6a5f41763e574edef72dafd805389e5da29b7 0x6d3744bc5db7712a1a22a8bc1449b2e0a3ea160dcf2881d20d4a16d33d77b94e 0xb6049ae5df05cec8ce5f05f7054bc2b882d5782fe58e833c7f3be5b4b89a57df;
  Add 0x11ec1d8c0c16e1b7f861b9a3d4b4202e6cbe427e9b009babc0d71db05206b4b1 0x5dfc7b23741e7b087f7b1f5b2fbb54756675289beb291df73705400db19fe634 0xd394e16c32adc3597adbe89f35b405e754c2c3cf71af961d6a3cda51cd2b51fd;
  Dbl 0x9c7c1a08f3d2ad3aa32501027fcf9c584c0c85cc3d4bdaa13c05284b56f5ecac 0xc7905237eb5cbb78406fb8155a225b2fc3b7597e957b0410f16b78cb57844150 0xaaad26dd79756aea19ce2be4e4ba91337fc4d5fce84fd55e13c483e90854c960;
  Dbl 0xbc002f2ad90c6e834f0eeda8849c3e54fb73a039108d5df2cdeadca6a9fd3cd0 0x19e66f338801c30f11095325a69d06557a16f79dc7c4c5cd04109994b75fad72 0x915c1fbf7cc19176980dd5ab3e9a7813a925ee1b39dbdd89abef060bce33404e;
  Dbl 0x26c192fa9af50363d64adc4d1761e0ee5970a233edf9b4a97cb307c42409581d 0x76991624079a0857e8ac969bc84406e7cfc63d69d508e9b562705ad260c328de 0x109558d2cb33b60384e31d13da47fa43f4ce9cdb54779d3722c027b15433cc2;
  Add 0x6acaf7caf220cd43e8687eb58904b38283ed81e49ce0f57c4b4f1e1d3c3193ec 0xc3549f23f3890a942e731a07bbbe8000267e1ad5bf1cd285ad22135545d52754 0xb903bf5caeac79b24646af31988acacf002c54dc7d34e5fa1ce4eeb96c435ae6;
  Dbl 0x1d4f6ce4fb69dc9f043f5c8024ca7fbd1fd9e64a912962278ba588f38d0d1dd4 0x4fcfc51f866e09ad3a470c99123decb0cee380eb264393d4ab784e76c7b2afcd 0x4a1bb0530025f734ea0f44dc3623762603fc5dc5d7b60caeba044ea9015a60da;
  Dbl 0x37a129a91a0d8ad14208ef6dbdd959c23afd5f9f38f7c0f679ff70057f1c2772 0x3ca37db7736b898ae711bd85e23518927bf10bb7f9be318a69fa5479da7b86b5 0xe53ca7077c1a6a02022689e6e17969e21a05764e833617e3c3fd08591753f966;
  Sub 0x900495c37313c5fa1eadcf3c59b346afe94e2a336ea5c4826c5b6d6b5a454acd 0x3222543affd9c3cb73b554600007164ba263de03670f01b276148504cede8f8 0x3628fc4a65e64cd4a6d6e06e8a529cab2cd45b48ccc45a187b610c671afe8444;
  Dbl 0x6433e62e3e60f70d99aed94bcbd60ff81d887d1f6bda62a2d6fa25064c921c44 0x8379c6252b3d0b7966fb2e7c99b39f152f4b3455cc93261dda0fd8964a121a67 0x717ec954dcfab9167afe6299ef0b806f32b1e7347d30f7d048280be8a1320064;
  Dbl 0x10cad661934cc4759a49986612fba2e160689300ccb494ac8ebe0b89e5e5c24c 0xde714ba33837e025df73dd49a176e8ba9caf0b79c63de623e8a5f3c1beb99daa 0x40ee2b3092ce6fccdd326152913eeaacc98a6649256e7dabe4f41b3634eae221;
  Dbl 0xa1238eb6c97d32b2bbdebc911b3106f3c2388685c05a51217cc153225decf91 0x6c1ec32047275c092fc27ade256ff6ee5a2ec79c85cd0005de4ecb9aa9f3ea31 0xb5e924a1299ccbf9e6dd28d11b8d9c09a8ba5e8143812f7fc386ed58f0260174;
  Sub 0x41eb8648ef7be4ca2e18d28f796e2ff503e4c1bded4e555a9dc1cf596e0aacb2 0x5c1df026e43e9c498b4303a4606d9cc91f1219d7451395b50d56bda86ac697db 0xb8916e4c431efb1acd1f90a2789f424ad7142802e22081a95e15cc4c2fb01db1;
  Dbl 0x5762a9edb32bc50923742159aa69c694d14fcb32339301b9233ccbc4c9774dac 0x418caa4016e3a38b90a9dfd8c0a9f37177877d54bb8fb8ebc9dd721027723f65 0xb440b5a4948005fbc9a879df076a7d1e0513eb6fd26c16e218875b35709a5824;
  Dbl 0x27269f19c7fffd05cef85a1e99f20d46cdde8bdc75554a4af903bf84968e7ff5 0x854cf6df99a4ff11f4cd823b686879f91534bf9c329ec4ea9c55fd12e5bc93b6 0x62a8a141b8ef56a49a7db88c9dca7e93fae80c2798f7942799cdb14fa0ea028b;
  Add 0x7f1721c93026dfd1338baa42d48b11b03a50735422bbbbe0dacd948870bd54a7 0x4df25e7f0c3daf6441e88977bb3435bca2bb130bbd3fdacc27a8168f9d871643 0x4b95e6185325772e138740530f3ade9f37cbcf8329f0cb89b3791eec6fc9f4de;
  Dbl 0x5753a1fbee05f8af91ef2e388b52abf85ccea505f51ce55b4d8ac9d212db2202 0xab27462a8a0dc40c2d096d0d80c13f154d916eafd9c0394c409de1b71d2094a5 0x5da613c62252c73877d73f270e8d5ff850e3927adb2b698e8a73dac7b5074dce;
  Dbl 0xeb110d679690f00f6e5414a26755d10d530d29ad29c863d33fca66a7161730da 0xcb5b07b3ac2fef855dc930fc4b03e1aa7c87e12d80a098a30eb12514f3a29261 0x3c33b2bc9a46ec64406acb9c4f76196039bb0ffd840b792773b172d4fa229bb2;
  Add 0x64cf6dfa0ff5fdedb1d45c040018c26a270ee7129ad4229a0e1cf3d961ce4c2d 0x2fed0677b22253e5d5fda50c4f4704edb6507e4aace5ca44932c5c97fe7c8667 0x62db64e7d54e7c7d73ff7fab2cc22bc887c46054c7cf6b872dd8794653988994;
  Dbl 0x51bea25177df95c748589697955956b04cf131e07b9ce6e0cca4f2f6e8e29187 0x8546312310f02b35050f87fd791d91b01d44be1866b37b5de3c987887399e9ca 0xac8ced9956f451b69c1465ac079f9cdc5bc0ce149486b8d7ee14baaface4db70;
  Dbl 0xa2aba6a7555900a75a380ebf223f8c0256a6524a11598aedc19d9fc17a021e4d 0x842bcc5dc87f3431117222fa149a30499a62575d32e572f53dcbe2c1d89197a5 0xc6a976b85948f316c9c5f3857b6393319f3cb2b3e679e478c59b9eacbf1b2335;
  Dbl 0x6df816f6119aba6f6c9baea208ef310c70f785074b6ebf8fd9b8f3b5a8d29b70 0x20cf7a68978084b842319c230a4f9241bfd2f36d054f92b9aed257e870032e7d 0x911481fded577225d718ff2a2cece4bf77b72ebdf999c4646d18cfbdb31956cf;
  Dbl 0xfa5ad94ed577e8daaa63cb4e524d5acd05821d74164885c513a824d1ae259843 0xfa705f3e50e51f2a242dbc5c4d44e18d6b35dcc846c150daf4063205ab6af12c 0x852a89c5ab21cc317f1287179edc00b187d25aeeb1a951dc14dac309f50d0dd5;
  Add 0x56ffce6b26ba43fbf2f9bd886161929e816e2c3813ff41c613a2d70c8f1c0759 0xab183e7bab591beca5e67a1a22efffafc1baefac3aba8ac22e1e6366d5457d24 0xe8071bbd392ce583ec4e977a79698d22f70257d68df7f31c58cc7a50d679064;
  Dbl 0xcf0e3e592778bede7cd4e7c17bcf4c55a6d4dcf3b571abbbf1ab5e57d3cbc5ab 0xa6b44b0f3230010f452e7c00732950c40b08bcc24b600bc078dc459437f76a6 0x7c85276abcfcef15df4448035d5aa7427030282ea261e2e33e79525ca8ce8d2f;
  Dbl 0xb49391c9c109939e993a3578644901e48aa12af6b0d0bce242910d1883efbc52 0x6e2c989dc0718e65dc3dabfbc237ab3e4fe25253f05cb360d72d134e1f1fe69b 0x9f516ab52e62a45e663b3577e2ab3a39f70f30e4a810c5cfbe3fbbc07cd322f9;
  Dbl 0xd0a04b8aecc05e1494e8e7241d6bedfc64f8332ab512534eb02bb57aa59e08a8 0x238b0890b0e23346491655ecd6839c3ca9a88cf6b593f1d627cf32bef95c9d9a 0xbd1fc8be4fcd070bfd7e0fd46495b1b65641bc1cc926a4c4e4a1553b7d99e01c;
  Dbl 0xa262b06fdbdce15862af8b5e2b8a3142b1148f914081a4b31bc923688ea2754a 0x990c10e359cf26d04779172d7908c1a5acdaa12fd0e57febfc4aca265bbbd3d4 0x48a03171762eecbe4af057d2db0fbc48701fa6e6d90d94b98a682f75beec0dce;
  Dbl 0x8b6d9c53a9994cbcc18ec71476d305b43723ff44d0c8c1b264b49411661ab266 0x4f83a7f155c0ef2fde923037a6142c9e1d31832fe0b6c7504d7ea651b3bfa7d2 0xbda69db6dc88bb6112720a84b158df9aedc28f0c69e4c29325c842521a6c6c60;
  Dbl 0xe6314da67823f620fd1787c3fd74b85f8ad3db9928c8a38d535e191294ad3aee 0x8d98fd2bc1a22e6645dd8ab1f8970bc21050cd872131d97dc11c62370ba4ce01 0x2a327f7ae46dc1ae2dd103aa6210d7179840c177512efe904d05eeb41643829c;
  Add 0xf190f14cdc7184ba3360663db68281a4aac088c50dbef5367242efac3ab5b516 0x70de81c280abf145c5b19e8f486b819a952e070d658c62310c471b47485596f6 0xc639edca1fa87be91495a797cbc0f7828d1e36060704e507bd723981a7bf38a3;
  Dbl 0x11922fd9f6f02fc5dd7c0b3f77120d5f5ac3f34ddb8e118fac8a275d9eeb0813 0x15f090bc4a0d9c33cb97a14592595e1d2597bb3fc0773cbfb2a4da8c5a5eea8c 0x38a7a465d58b94759f025ec3b70d1a1a8f36ab62c651fd2126b317e7f8c0a1ff;
  Dbl 0x199a49dc125aa690103e2ee0bf3a47a89b4c7c1153f3463904b00141a1efb324 0xf1288eca7b32437a431451d8792cfc06ade856149f436d20bc954764e6971f52 0xe4171d733a4ba7270eb80016369721cebd1133772fbac3b7f590b40d62a61882;
  Dbl 0xebe41afec6ee70453e19ac263314e7a82d6aa30b3b425a4d7a31713e13f16c00 0x2beb38d217f8229a3b289657c5f8f7b119d1a05d7f97865adb4e8099577794da 0x61d97ce382595baa0bfece836ddb282016fe44e65845d52a185b159a45c22a75;
  Dbl 0x93a360a5de317e7bfcdbe330d90c619bd10f6b09850e77e02f5d214dedac89b2 0xa7e1611e8a392bed426ce7eec39cae364de392cbee3cadfda7885d19611cf7f6 0xb9977f0a0542e6f31aa29b9fa871761c63e04d3f1594e1aa544742e60826204a;
  Dbl 0x2e918417453dc2eadc88017e766cced509284e6425a1b4be5c56f892b1897ee9 0xbd27729ce75f81303ab29cf6c9651ce47b41fdef2a295e05baf56a07d115e72b 0x83b8a3cc42ac9d9c19ac509d94a5d2c58c8c87fe52f263ed5c8f0fe0310bf00;
  Dbl 0x6fb0f75f740a4524650f7fecb4ea2591785c825b1eb32d4d84101b40078adb41 0x520a6df6c57daeee9cb7e0331578dc002d86486248dd3af72796904c266cdf1a 0x33b3a70dfc1acae0a2782d90f74443667793a3d1754120f7f0cd9c8ed856810f;
  Add 0xafc3afb24241459a60bc063929896dc867be2b169e04623e1464d825f8f6549d 0x604d17c1c8f4637768a2a6a4c291e5726409807ce2efc4ef924ffb9bb880a293 0x58b71968dd0394034fbef88e8b600b80458f0ea504f7e8528acfb615412f9e3b;
  Dbl 0xc5388939dc3b71aa6f6990c91bedf7e6db710d301e6cb22b9b37f873bef135dc 0xa69dd581785a52b03a989b186fd2295b4db740a2e5e3de6097e53ad594f4152a 0xea5b6d3fcb301cf2aa9528905899e26716e2514282470adb312dc12226d7ee3d;
  Dbl 0x7327e53fa57651e2476a7857525d7471691affa6a3c3b5cf24153442a4127618 0xedc41da83945273d0982367fef5cec3b57b0951877465bd1f7a671694ecffce2 0x3c6b67497b27aaaf2aa2a1a8bff3fade907b605ae15f6574ea9ee9e5f1492d2e;
  Sub 0x4ee9b991dc82bb0b95f194d524245db89a37a1a5bcb88f04e59828ff178d3861 0x3a2e12cc80666a8aaa7e024e9ce48c18f871890eb0a6622c010c5702d7fc8792 0x30f73527d78c16f8999e7c3c23021c8432f8418dcff0cce5f30a4f3e419e0f05;
  Dbl 0x8dc9f082471960078aa31bd510cf5e375ebe29293ddf03195300c9c99eb56be1 0xc55e08ca7904ed8260243ab3ee8774f78dce44eae90aa605de5e4ff43f5e389a 0x957d3915492314e4070bee1dcf057e610b5379d94a2588f3e0a5e9fdce273a15;
  Dbl 0x2edad373f2bd0d04f66e2376f44dcc852b1dad40bfa61c525b8eb051c7d34eaa 0x67244bc532d0fd0874f9f7a8af8b513c1743b6988baccd08fd4b9e2cc84353ec 0xf61086610c06774cd52c04c3c7668adab999cee55438b730ea3bb20532a5c7a5;
  Sub 0xb468fe59fb758d083f15b72ddcd68ce1066af3e60353e85f72334122748f4427 0x6094eb51e9420f9911fcde8850e70c719503859bd710c9fcee7b91329622f4ac 0x31d39345333aeab312dd902e7721fb133e08bec18669a4d88aa60a706ab0c1ab;
  Dbl 0x8f0ed8778d9056dd44f6086a45a2dbd9ae3659e324e000cbfecaeacd2187dbf3 0x14c761365ea0e980785e3474f16be9d35ed222703308d2d090351e32bd196736 0x465c6264b4c2cb942c2b2b540662de8d492ebc0b4e847ac40bc5efcc960d5e70;
  Dbl 0xc7d08239906bc3da3e1d867fde5095982e3e47a0a8b01db00b1dc34cc518ae10 0x779918a4f7614e2f7c31f28aab9a24e1ee24dfc408d768233826a29811658a69 0xe01fc68723574bbf2f68598e0ebbcf4991986eac6314d7ffff2f1c33850d973f;
  Add 0xcd5cbfb09ed9f954b4399f8fd3acc9c3d2c2a5f109e128a6d196d528748af242 0xcf5d8ad9bb0a6311dce59df1f85f09b37fb1b4b20b2705325a42a13da5ad51b1 0x16f9552d6ad611b3ba36b7f2b41995e10a747191d02ed139496c15ffc0ffb091;
  Dbl 0x2ed75ac4b70b646c77ad4fe1f4c29769ab5a1ad7af6d106f24494698ee7e65ee 0x1cb1d5a53aa3d4c96f2f76cfe8896d7dde2f83b2870055bce625d489feefda68 0x75e658b979a3ea661acdeadcf3f116e76b30fe0cc82cacc0956e20d154e25b69;
  Dbl 0x27c2db2df099a96adc459b8f5d4bce103995b4e9c6cef2062febf744e783341a 0xddf977288f760bf0833557f5cbfb2d383a94578a0dd5fe5e17e8ab0233ac91b8 0xb028c80a0f58a5ad2a93195077031156df1cb6e0823bbc9fded78d67133e9383;
  Sub 0xc1821b9aef54fefd5f2605efc2202eae98ca38b3efcad51dbed513dd18d1570d 0x16514a3be3f545e7eb4c2ce2a021fe89c5781e75f3e956f70e2b5d3f88aa0a0e 0x8bd29bb43a0d384feb83f7206a8bedc51934b3d2f00a131de92d2a03cda6fd88;
  Dbl 0xcf48e52fd18d4269ac59b1d5ccd6233f06a88232c7bca8b0d2787678bf606286 0xcb125ffcffe3bda8abf2f80693237ac469e454a5b6e17fa6fbc907ae060c5537 0xc971cf27d37f4438b2a075cb416ce2f66bc70d974f65042269c98451e561d46f;
  Dbl 0xc3b2bdc59c6a071d559693fb6972f61eccaa0d5c58fab67dc539d1866580b3a6 0xd741593a3b1526ee9c95ca3a1cfd7dacf437ff53da47ceb1f77afffb77c42125 0x516fd0c431cb2ea343abe7812aa9cfe983b9d0d8080cd0fbc289a73bbbf462a0;
  Add 0x2d46ccad276366aa56f65372e094db9882a12d5d84ecc8e165648800179bf5a9 0x9974376d16cbff71a64a646842bae352f46bcf4948461f649280a09d846d498b 0xf2a7a81442c2ca68844c547a26f98edd05604a852df5d662ab5945850fc264c;
  Dbl 0xb61b368b2cc89a357ce12058396dd044005a0fcc853ba5fd2efb059e1319f1e8 0x6b99d026774f502c78c8dc3768fe0a9fe65fe986fec0acb4a8b2beb9a4d6a5d1 0x2a186506be78d8698000a5a0648dedd8f6af54eecfa59f3bbffa3b26df11faff;
  Dbl 0x26a11fc49277afc7631b169166f26f94f94bc238f1bf1c9c94b411e51173aaff 0xdd885e44d42e5b21477e00da0df0ccca53d42b1615b87e51507bdee656aa8f99 0x1bfa93fa3298161ea21cdbacd42ca297f551784a7e4b3350eb2abbf8a886bbf3;
  Dbl 0x82220d5f25473ed2c9b7288bb7ae859fdf449075d1ab33823925a1a21ff09119 0xf90b43d091c328052a01ed10cdd4e91287f40abc3fbca80b436a845470439d76 0xe8361c9d8018eb37f5294846727a4eced6717b87ac406701dbde70ecfca2ecde;
  Dbl 0xcca1713d5182336f9fc1235688c0ae920767fe1655d8e8ba19957d4e1f4eedf9 0x9e62a864478ca57a44d0a3a084d8ab86fbe9149fe9e1e20791bc34e9cf5efc8d 0x25f1f6ce66b50f74ce4367f7c125a4a623b12bec307791de7789bbcefd83a2a4;
  Sub 0x8921907f6f3eb4b23d04842f42234a43b2568a5ac2c56d0aac87bafccb6a153f 0xfadbda762ff31e9b51a4682bd7da4c1945aa72ee1b3ceeb563877f717f45a901 0x8467d1753764a7b6e0c57e3448f32348f23882c8e325b55cf02daca842fbd18b;
  Dbl 0x8828d7446be6266cc05ec1a34230e8fd4a4b3a8cbd181dbef181e8d27ee0cbfa 0x572baba0e49aef768e4a0a097b21f4fa4ea20cf6b531c87b2bd444b91d0b134e 0x7ea3bbd23d161129abac93c09d6b928f833cdc9867e3f739a08e83f98bc0eb4b;
  Dbl 0xac523f46bc9f2911ca3ad11d3c68edc8b4ab2352dbd87b3b89ecaf6afdd2dfcc 0x35e62566995d0626702cff9bbdbe1c6e46f1065fbf76d1a234ef9f4a114ac39b 0xde658a430299703f30057ab5636b068f4d879e5c4bffc2214fee01a5f61225ed;
  Dbl 0x2cdd2d3b5833c7003d1bfdad0c2fff5a9fa816d59618a097e5e3b42cc3d969fb 0x62097f21d1642307a29af92c54c7b318f061c100b30416a1b92c8ac8a4b1c176 0xc1bc66e7c01894e39f04efe9397034caeaf9f8480b0542e5985c959e33b4b80d;
  Add 0xb6303b0a6c2976cae417805cad6ac98e397bf4d1cef413831bdb7d7301260198 0x7d0538b6fbcbcc8bce19420f6f70266f2435e3d1e234b139c9e679379ff4c7af 0xefb7549ed6ae65dd0c07a30f94ac068d69c2769f367a560cfb6115202d16fd3d;
  Dbl 0xb3414f30379625a4cc486a9ef197b3ae572fb269794abe69597a76b9753137be 0xffd90062044ed7a96baf997ccd1e7580b8c56f40bcdaa8ae73338622e8714cb8 0xc494fd6092cdeec81513976d12c0be160ee1611f938b697b1962ccdd0a6a5b69;
  Dbl 0xd8f5af687ab25a6f6fabb8e123b5a762e3d3f3f98e02bcfd034b67de101d0f65 0x6485e917449b4db7eaaca10d58296160c168e1979afb6fe1e2740c81b6ffe00d 0xafd45704dc2481d2f5f7bd13557c08a4bc0e2564eac478ab8f63cce1fa8a6ec9;
  Dbl 0x164198884262855fb08d6d52443a4c912b47f5c7c5b636569138c916dffe8016 0x67013f00d8eb0450be4b26b7e5facf21f742ddb04c6900f8ab7e38ca0282f37b 0x7e219809f35919fac868d7c010be9259ce0eaf0217260431128df513555698e7;
  Sub 0x79bc87db348747091374ce3151dd93fb599c8c6ce367579752079b5ea6a0422a 0x967580917184316baf53fe0875f239b87e1bc586ec259755e0f6e760a5f6e530 0x27b4add99df17d61eec072bb6b346950c901b2a3c2a5b45176221d850754b0a;
  Dbl 0xff80137a435dc7df2eb8c5774a00129e6891cca2050c5e9fc3bf531d9a5e3bff 0x23a9dc028c13acb83213770204ef3006ce968527f74ea2a79433741cc629f1a6 0x4f043c6b89e5446495b3366e65dad712ef037b6586a10aaf8b5de8980b28c060;
  Dbl 0xc9dafc4ff2355d0f013ad4baf6644d3e0d9a033dfd183cbcd6d36559be648a58 0xdca57bcaef5d7a20dbc3148833736588564a9d32f2af43e0979a66cc4916af4a 0xfac320dcc587746fd518ba444a79497d360981f51ec1f56f49547ae33e97240b;
  Dbl 0xbd5961e7761335d5414c7fdff426693168f7f4a489cc4e86c5c60c7906ae2647 0xa56b467c584b2c15bda508d9badf8b0a15e4f6ca74796762b6d4aba695ac37c5 0x21ee88640ed3716b0be50d285b6c775436e8c18fac494d872404a743abe46b43;
  Dbl 0xf5fe86e92b49387307d747a9a91f3763b9344a7121d64b17b079f852b71facc3 0x9d8cf10f1c3b3f1d76c0b8347343916ad3fc5b47b411f19cc1ee4d532e6b3f27 0x7fa3a3e943431728300242f96b54f5a1816bcfcf3b9ba08f31bacfe79758d1e;
  Dbl 0xb4fd9fde2296f3442ece6dc9b68eef6085f7865c512cf33a92bcb66f3abc3ded 0x4a78696ed54fd535978d13fd275a18486a1557aa2bed020cf4aaad8d99cfd180 0x7e6270180edaa02d5b12802d467ed38636cc087dca2875d27ac38182ab7d7a8b;
  Sub 0xbbc08b167285b62c8710fa4c8b79c54cd11002e84f1f28a40551e454f813d7f5 0x15a1d83366adc9dbf954b02bfcf84d05179713f410db667df343210d5c10cacf 0xced1511167cf15040bac1ed074d659cbe101bbeb8f216d73a2d14c8e76402213;
  Dbl 0x2b5b97e85af6daf1df2bbcc6a857d9b40daefc738be8465e8f9e3679d50fc6ff 0x81ebb4e10172df725b7e18b277e2d75ad4f5df4973d5c5a68a868c7f707c56e1 0x6991b11dea2911c4474399dfa1e9346d694a042add05dbc44e8472deb64e9ca9;
  Dbl 0x8bf602c6e063ad397403cbf5e8ce525452c39140d279d8c5665efb03d8d2449b 0xc82e003108016076459dbf89782a0e8ad03377c6d90ff650b20c2d87a590f68 0xeee8cd98176f884538e483fb4d09f227c742e05ef60756052924c5bd3527826e;
  Dbl 0x26566a9a8b896d85c038d514e4ca82811cf9148e95ef3b5310ee0d02889a1058 0x3278b4372d700d6b02d98b4a07b84dfac663b6524d614f80fac264620385a001 0x47bf9b4957dbf09f7a1801975dac3216ada1f0caa90a19280cdbf853bdcf1487;
  Dbl 0xcb6aa009211e1ffd397eb75e02f369d9b0c763c553e81b2cd1bb3791707389f9 0x278de3f7f4606142fda80e3a21ae47acccda5fcf613c51e077b61ef9ebc4fb4a 0xc4b082f53bf336e21a75da972e05f43ec7e9594aa61499f43d4f6620cfbcee77;
  Dbl 0xda9d2d79d3f7fae1b7d16822783f6b40e30beb9d1157327703ad0af839b2f26d 0x32c212d6e884501f99a8a3caac5bbc9a9a50a8589ee6efa5e683423924434f08 0xd111e875e0ae5391990f0ad41a90da3059eed7f02e14511b8aedea406f1f6c82;
  Dbl 0x75b5f287d98580732660264fe727362a3ed9670ffe1fe58523dbcdab2000212c 0xc8f1b2f43d5672143b00a10424ca78129b2e9e9a9c26fe57811927903b4731ce 0xe886cf82e482d1c85c02d5e64e143d74c6e0d469a2dc56a10b8f48aa8d9deec2;
  Dbl 0x2e497f5726a1893f914dba1d3ee5b33bd0894c24189694b544828106544c9faf 0x164bb4df2dd40ea31a7fba468eaac5d1955e4ca58bba8d04d852678bf3c0f088 0xc7fd972f77d3a2e337fb06ab70a7ee26311c9cd0de55a3c2c4ffb2e7657e8862;
  Add 0xcd174d2b31bffa040a24b13353c03f3fb7ee1e164177ab6f1dbe399e446ba595 0xd474f42fabe0633c2a304bfdbf62380b184cc51cebba55151410d3d94ac3a0c 0x5cb613a1763a8dfa3a5bfbc506bcbfa88d45389f74a3e05675eeb381f3b78d19;
  Dbl 0x946fa82713cf441f053fd3347e50ecc4483818142fa4e5b9917637d76ef006e3 0xe5bd8184d2320252d024cd9a23cde85d123d42386492f626fe276e1e2a36dead 0x2217d3bbd464725afc09542b5101764a27421c509b85e31717d94327e4e1f6ec;
  Dbl 0x376d459e63bad7a759d75a4c4d0e65b7dd361d0983dc3d4c7c40974aebd57d1c 0x7ab39e17d06598cc864ff861fbfa58514caedfafdb7ce6f40097130d1236f5a2 0xea68ae1c5e12311267ab8b2bc66c5be2db447046f7ec62586844c4b74c66d515;
  Add 0x138e539be297535f75d701df510632daf1121dcfa66c851ebd39a80c148d3ebb 0xcbaf882ed4f457cfc698ac4c858216522b9cf55eb517d489009107968e4d7198 0x1e14e695c2ad2ee490057687680d9356a7c72210c1c06bdaaa8df1378977375b;
  Dbl 0xe21eb96e9e6bda8b2e6607223bdba93cf5c0d895af1bffeaf2c7419d72afcd4a 0x45df82d30d3f0d6a4b4c6612a38d1f686acf8430c8da1a0c492773b466f3f450 0x465bc453932797850f0407cfe05dd926f6b2624f96618819bdcac3fa3b20f024;
  Dbl 0xe04057a379b7bf9568bb9a27bc910ec788aa726afd1ab32a1968fce148587a43 0xe78482a657e858f12c787d5e8fa763676280b4838ed6153664e18bff629684df 0x4eeae2dabee66f45f4b7a1974e3abce0684274ad197a943550c4484b8b4e2404;
  Add 0xdfb3db270f7615c6614e6b3f514d3fe230d71b2d5b41eb50679ff702d49b271d 0x7c2598ac0fdfc14dc095823766f2a5ed6259fbcc25076f496af5b51f01811602 0x4bd059f01bee3f8210c210b76afeb0ddc204963bb4203892e2e90ee36c9c267f;
  Dbl 0xae5b02565003866ebf1766c77eff1fa7d43063842a076cccbbf592e8d3dd17f3 0xdbac1b73d5fd6f59a1af4acbef27a7479e8366062ecf0e62b6d05d0741b6feb2 0x295eae2c4a48f6839eca88897ebb034b97fcdf5caf21edfb1ab58e9eb335d1f3;
  Dbl 0x54bd5f92024f4f577f909ae337f7e1e9b9503ff13f6b5c2202f27658f8149970 0xcd98a12d7f1879bf47c15875000d7e9fad4f8f7758dcb2beffffd9fe188af273 0xd4f81d7558ae149186cd347dcc66fa22f184da84a2853aa3edd37bd8bd051d47;
  Sub 0x55c4d1218c0ac74478d9776ebe1cfa17a5e27351ea5123ba1fcf37f721398aea 0x1c9ee901319ca744bd878c69e1d557c5aeed1dc55cba48fe24b6abff039e0fd3 0x6e14ac68e8dd49f58ff7c226fcaca4ca097809029684d334bd628961154a5120;
  Dbl 0x3c6338cac04061da6ef36a834e6b8054f251581dca97f1bc1e72bf99915cffc 0xb8d3ad0153177c2096121294698934e27948fc3868d574581b0160dde7aba1ed 0xeed04ef4470e8839413d1c836de3152c12e6d1ee469d2dc24254facd61bf7964;
  Dbl 0x2d1256039bb1ea1ee9cf1aa3794f19bbcb748ed4cf99d1ee19af8a076583c75b 0x7f97bff9b37759dd4e72ea33bf6e7f4b44539852b0d535c5ed6e92200aed8ec2 0xb6910c833a73cb9030dd57fbaa73d666c51d02f494bf0f3d1deea002a80b76e3;
  Sub 0x812103686e8adb1f3be59988873ba66071fd0037f842f5e3396e528f6197efcb 0x47336cbb3ae6d4ecaf9a7beacaff77eca4676db63882f3800d1ade272c822cb3 0xd46080189bcffec51ca8288ca9fd1354deb8de9c96f2bbc39c8c9ae3294dd0fe;
  Dbl 0x7988a18c74bfba261fbf4a388eb661bab226d1066f02a40a1adbbfdc150a737b 0x10b1094b2a88557d7210891361d77ba76c751fad44d1497cc495a71cd9be6d0a 0x4aff65100d723193341182fe1fa46649787ee4c0bed579eceb9f911012825f25;
  Dbl 0x36ae84995ac3be9fd1e4777149351274ff043323b7fd1135ba15282a9020f810 0xe43710834a6cb69f507fb937a4e50266203c8d977a7501d507573f9e72b98d4b 0x5b17c876c12c20b6191d1661f791071797b10942e2dee478fb67006f2d2e8f7f;
  Add 0x184a50c7ff3e8341044aa24e35e27ec510f5faa768bc2e3c5124bb0f7bcb9dbe 0x3ff58613e2afef4f293f8c19d8768036631b6cdfe31ec3b44a54ff14dbbfc989 0xe339c6a2a20eb5ca13d5b0964ae05e5e9ea2e060254f62a6d30ad37ea6a930ea;
  Dbl 0x664f2f253d20fb012c740d01b98040e3a07b6dc332de6b207845023d5e6a0267 0x660aacb0cc8cf0b7b6e0a2c7ba5db8315fbc419a2c2affa74fdfa78163542ff 0xca195f050efcb504ded588201704fd32e0a85a6e49e6d0bba9cbf90f449e73dd;
  Dbl 0x268ecebf009cacf77e3b53b45e8adbd23c004502c0550aa3bb786815be418431 0xd708babd60bbc505962da4439d011216a8a28dfe7aeca1f3ab4951c8f3e2de19 0xf0df4f6648d7c0c4665771b322a51a06042e8968685b0fbda2f937bf06df0d29;
  Dbl 0xc98d54c815dadae36fd84f77aaf0350e5eb2d9901a6e550ebd68394c85e1d5ef 0x62f04eb37fa552a1375313d1bb1a9eb129ced04ba7a48cf468060ce60fa65ad4 0x7669ec7c10d9df0ffb0e6093588f39b14e09ecad64afe27e7a268bbea37c1c50;
  Dbl 0xc4a2dea768c6ef18068d7d4df3b4101a5bf2ed2309d1ebfca93206dd75ed4c4b 0xeed59cfb868632378022e90d50bab792178388ecf8006a1690fca4738a115d1b 0xe663e980caa9c0074fa8d1c3ae20fbed5eb6c25b9dbdc095ad75335c59cdc5af;
  Dbl 0x72d68f510892ad02bcc2a3ace2ae898affd949bac27f7f485af12ef5b4b2f295 0xf49db5f52d6681ed9d93bb91191c6e0cde3a34a05002eb6233015a116d1e3328 0x375b772d7ceac5ee965dd923a8215f2cdb3fc47bc39b279c4f6af1de5ebbd483;
  Sub 0xbd349c3ac92e995a84d91fc00b48a9425189d3dd7b02d9841f3f7d267bb7d390 0x5f76de05d19db8d7fbb7b17093e79603a8e7d35d96d4c26af233ebdc188007fd 0x225206e82b3d5f0bbc48429fad4625d7a48299518ae0b1c35730955b2726175d;
  Dbl 0x80971cda2d822cd7cc4c2254dcbffcefc5d306ae4a5d21c5cae84f1e74430b09 0x348469f9dc6d617d1743c45d34e27793b67d9db1b4753706e7e6126b3238b60d 0xa029e3b9346281332d0fd1b921b6f6831e93e61185f0c281d8cfbf19de09ec0a;
  Dbl 0xbe1c11da458ef5ba99ff49311018271bce09197684263cca2dfe35ecf9889a59 0xe87b9b0c299b5c157ea92eab41929cf24612e9c089ce77873d46abe0256f07ab 0x3cf1b8a2216c0307c2d387f7e111d7b200832420106af955bd0b9bbf4b3b074d;
  Dbl 0x6d04ec23ba31a3c12b44a0ed541edc57141570e619fdda32b8d0a08375bd6586 0xe1c7f3f141335e60b52ca6c90d4d35a13328516d3733a4c0272d7f2e7f5a2976 0x6efa85afcdb1eb46273f692abe3dd60cf4cb2221b81699004133f5b1d5a69a8c;
  Dbl 0xbfa4b74f664c54d56a7da7b127139b6ff30f2f48dd576e4dd4152450855b72fb 0xa569ad7751e7213a6a7a36af01c63529c996cfbe4e8e89d48159744adea3d3c0 0xbbfcfa44bfd1a0131f7561cceaf537a010db1a842e5007b71616ff97f9e34c1a;
  Dbl 0x6dbde114dd6222df400359859c27e813ac6b9fc4edb6d833b42ebffde335d58e 0xbed0e582249376547520cb3cc8dbd5057ae765e1e1ea7c2d00f56a7815ece6c 0x583d4f5c137ddfdc82fc71b8c13cc28540def0d0718962b0e7b6b97658a6423d;
  Add 0x98d70a8aaaf3b5860d3609ea3cbdf2f716bffb5f3cdd4c64c1bbc01c8cdb8da1 0x1ae34882c0fb76737ebdd11c0418a07e9ecd8eefefb9d6b5ef3f9c53e6c1b5e2 0x36c80509441480d695d0c7de6fc62a5c5400d5c701fae8f02165fd5c7c71cc6f;
  Dbl 0xdbb34ef90cb4604ca723d7d6457ce83efe4180918af75d1bf56d42f5e03177b5 0xe11dfe9108b1d7e468a048cfd2a85ff53448d19a1146d38ecf516b9db0549c93 0x49e2ec4a78bacd34c7813e002abfc098914fee0e61760d5fb892423f6a48a415;
  Dbl 0x3d480b8c39ec2ae6d8e804fba484b481b19d74c7e2556c96c2c21a18b76203da 0x88c1d5f29c010b8daa66c8113452fe5758f6855b305b322380971a8057ec6491 0x6c03cb89cddf18d240ff6b933802072bb7a0da84114dd0f649c968002997424;
  Dbl 0xc84a846edf6a8237dccc1f5db8a3eb36d6c3a634bef9d8c7951d559b49f86216 0xeb68ed38e781a98dab54796b6782830ea33a37a91bf14e73fd8d2b04543045a6 0xf70eee169d89c2c45cb6ff4d5cfb8c4b8ce36232f6bf4f633f46e6fee0b75f20;
  Sub 0xd430d9ae87d8ff2964082f0d2072fd74f36cad28516cb6ea526337613b8a4ec1 0x327284f12a905f685c4f1f5e04391bb34ff79b3f5e7bae1e67f842226e80a554 0xfea9670bd5a2ed91f5b86c88414a26beacec04244edf3610a7886c1d2e710851;
  Dbl 0x15dfebf0d49901132c617c7beb4601dba4ea9ac98c7af4130d3f49ae914b049b 0x2029c680ad78d2e48312ad0caac98af56b53c645beda1fd3385fd17fb2046f1b 0x963a850544d9b97ea8edd138851898adbfa2de30d43e8108d86cf23b6c1cede;
  Dbl 0xb5cf2982ff3e33b27dcefc7c4c5ee67ee1f68e272c083be5aabfd39b4cb3c420 0x5f3d87c5f17f1a1aeaf341edd1056931eb6bd968f8d859e768765cc4b47ee7d 0xdb12600bfa5702f4d3cc988b264ad8d857b3c63056b15b4c7dddb802587ccf24;
  Sub 0xe1cfc41f32f1b4a0c87e188c9b4e2be39ecd251ae70fa92eae4a39f0d4c49e50 0x2ac66a58e9619a455a867c7c9202fb9f2364d2bd35a5d68874485250797cc867 0x6fd229978850e435a1f0b814bc0ee23613e7383a33a8f6789962185949161b6c;
  Dbl 0x4a21613edde7ef93090ca6132697b094484cf85d057d7974bfe731e714b50ba8 0xde693c3c1424d3da77f4c47730fbe1b8131bbfba2c466581f16e3ca4d6ce368b 0x750dd41c8d3d880fe6206a3adb3f2e1493e825a5f2315dd29e598b110b959a31;
  Dbl 0xebaefc4d37d502ab6730d04ec770d56cd78d13c110627fbd348f81a37993cf4f 0x734d911dfc130aa4b69f2c6741bb2b886ce21ed9ab6c982d1cb6b7b70932c829 0xacd103b722c9f637b4f939651a29379226bed40c40170ff127cce73aa0c3aebc;
  Dbl 0xaa03df9af07f73497666e9f36b416e6a0d630d49c6f3856d3a07e763ef4ac9e5 0xa67a8cf57f2c6231ae81c46704c6960cc9702c7b8a4b9d237f2d0692034bd172 0xe2d1121dfa3db4af7527559f370cf35814f28942fb889b49d20075869151d375;
  Add 0x76676f01b2003926dee1e460d598776a93f538e80f6953194bf1f4894f1a469c 0xeb24d16330110faad9b03e473d420f30e2d3e8c98bb5e246769e8d273bbe99d6 0x5000b1c6f9c72043dc11aef1949da081411775c08e497fde8172238f67b79b50;
  Dbl 0x1e30b209453f486edddc9cce08a531ffefd2a6783cafd7de9348fbf6434b2883 0x64255685665050f0e43cc6c3f0b5dfbe7d7fb5d44489ec198325c49465bd9221 0x8541efd3bd8f170b83b418d779399cd987616cc4ef18cffec070772de127cc26;
  Dbl 0xeb715eb2a9b7db0a766f9208f7b1a5625d34ecc8a5e70a4bfae85c2325817f2 0x6393b77a818b8658404c0d4c945581cb23b27aa957c70c9b8761ebf620dfb1a1 0xdcb6947642d1c7ac8988c1e2f0cd67952274b0ea408511631aba09f602eb6ca2;
  Dbl 0x4ccfb89d1b60456f3124f6aab340a192098a6a2b38467633e61b4965580649e6 0x124b2529a56434c3ecb5f320c80e5166396825891e5c2cddc9667c1b823d01c0 0xa08bf90cc8c3395f734fe6c80480fe4d0473ca0cfcdfa002c61d6d6fbc790528;
  Add 0xdfce10546725c6fca0c549a9864d77c4acb818e168427c1bc6c4d6bca272666b 0xa6475e83722073211dd6dbd0800439687425bad13f314f029ece4ad128e5a9c8 0xba36a1137abfba4f8856bf3fb9e51994682217bd1b42e3422994fbeda689f124;
  Dbl 0xe2692ae46bd18f562fda31ddafc411083fe8ac10a58c34571a2d02cd60fc9904 0x98e6089a0b441a0715022445302aa195f1585afd319b0cf95fc986b811ed8612 0xd5d31c2def45b8a9ac8ba248d2e03a3875bffcf2dac64bd1f72b93d3c25358ca;
  Dbl 0x72a6266a158869a04d9b34f9e273d44cc4aaed4e578a7f9812bb77e719348669 0x6c4544d2dfbb2c1e5e555a2a6192bf5cd525ebad3c86e24deea6bb1b2dbbe5db 0xcda896206e79c8f67cee53522960cb4d922eaabe07b9c22238a8cb9116b71925;
  Dbl 0x815dd7e1da04c7f92818ce1d79b862b58c9a4ced03d2765fd844fc990270c363 0x54296c09da4d43f8bc339e07e76c5d4f8e8935a38d67999f8655bb7975617440 0x484246c80085e35af733cda5351739d1a52ca79004f9e3178559c06ec650ee1c;
  Dbl 0xccd6322c52928111942388c59e0631e72fa00900d9f937ffdb325a29a1ead88d 0x12c898cb8f0a03678354347322125d3e16f7217335f9658b96a8fa912de6d3dd 0x6ab3e401bf24777994c6be5d52fff0beca8644c50ec08ec3e4a353013fa73e57;
  Sub 0x9e1e2ae72820d0dbb2ea42d898338fedbeb4efdf7a3671cc764fbcde841926a3 0xabec7b14ecc9b6c3906d33a1a7bec37c2d79013fe4e3f000053e5a6177fad499 0x637da79a9bd32706033eaf37bc59a93fd9cdd3ab1fc6d80edee8a0c68a0294f9;
  Dbl 0x1aec81d0e4266a3530160ef230fab73111ac7906b8041fd5ed3f682bd5f6142b 0x2983ea7bd8ca5a7a5343d4246059b61f7f36753aa80ead5cbec9e69f6e6cf24d 0x7674c85d2628139ede2f8a22dc694035566c7285cef540f9e4ddcbdb74e3d0bb;
  Dbl 0xdbcf4b9a16e68f0f01ecd8dd48fb3dd8ec7d3094f2205e975068181f4472c385 0x9f7b4345bb332041d391448989e89fbfe80d0f16e6decbd6ecd8c8ec25f66f2c 0x816edffa33e273ad7e8ede9716506524a64c5dc360953dc520f977ddf80e1bb8;
  Dbl 0x9a5634b98aa6f97727b2934480db9f72dbfe2fe55922965c917577436ff08b2f 0x5339e2bf09cd724e75098588a55de91333c510d584d04b43e2d737e32f6506de 0x90b14a56508ce4cc201fa61422fbf30110d5719573664efa47d6b4b8291fa866;
  Dbl 0x70f124385b50375ea2bc46971ea33c79f8aa378a2256136c05be57bd744d2f2d 0x15305c2f357e608f7667c0e33839cbef86e3a68303ee5205cda9cfb3a2f7b338 0xc4e0262d047425d17fc0300f4a2eb12436c16b5de57f4b8162fa3bf2fad46d24;
  Dbl 0x6520e8cd4ee782cc56e9ccf248f7ec84c6bd71c65545e10e77b4118abf67ab8 0x2b3d4849225a806e410e20c443ea35d50ab7fe11612ba09e4637da5f3561ca3d 0xa3b4a320e66498855501b050ea1fcc8ae26cb9e869b57d879049b82d2ee9e6c7;
  Sub 0x70f9e70586ca4bd99f9b6184fb15b8c6bd445d59188af211fcea04a8eb9ff348 0x98b3acb7790f919fca0d92136d4527dbaa01ae9516d1063d7369b2e93b652c98 0xf7b6e663b3525d6dd997cf64c4efbcffb50918241e61297a672001cd94ffd862;
  Dbl 0x3c1782f0a81d21591f6073b8baf6639551046b63cad046cfe4f62100c7746d70 0x22afffe6c91233c1ff1c9d07da126b58730d0d5be8c1e227d1d7c4232aa608ea 0xce5d214310c9078a99440866fec25898553596190ec447bc5e4b8525a49d2eee;
  Dbl 0xe3c6aeaf3fe689c475e2851c5acbda4991d0ac10e82f73447fbf0511b9f0387b 0xb0a72c1dbaadc0724d0cbdb6fda9740edd420ddb6c73aec769cf4ede44431672 0xdb7807300611f84c9dff2665b65415b864d169c9ce8fb87bb61479ff0f879558;
  Sub 0xf4a11969a0fd6b497d24ec60a4d1e9430a183a88db0138963bd655edb56033b5 0xa9e39eaf081346c4122f3193c87516cc0942130d26ab597f09a2fde0d1d1e2f2 0x239d5ac5e3adc3e44d68d5c18b83b01b45ca2e8a893cacfaac641c5d4a406164;
  Dbl 0xb409ca9206d3ee5fb4559167ff982cd6ed4a31e74ba950638543091c43fc7f16 0xa6b6e4fde554c0baadd0b5d7faa067b210dafc3522f091ad38666d9b9c17e4c 0x9eb061eba403c7bb188b5b84501cd64d06ec9fdb2fbebe5e287d5e9c10b5c4c7;
  Dbl 0xf48d70ca7dffc5daaf85f505b5a0e138df7ac855434e01fc40f13a6cbdbdbe14 0x96bc4d28db704901a703a30524de2cbd032a6b76e99653475b4c16c5b64cb170 0x59887339f6ca7d4a3db8ecfac3fb0e99bcc41f0366cd448b68cef497403f395e;
  Dbl 0x1f942684775804b9639a94cb1b0cbd3b527e723818624db42ec709fefd3709e0 0xc83157affdc675b431591474c808e883eae90a797bd33d164e3d4d9ea4672012 0x17110a87d8d7a4a6127217ea538b22fb00c8ec4662431d0bdc6bc67c87911d7a;
  Sub 0x4688196e2eeda3e7ee293fde35cf9c62ebc2b854949baf82a653ea50f69116 0x3488969cc861a1246acfb9052d1a74ff69c87f1cb3513b801695f986c1911346 0x8e291ed2e8ddaca1bbaeb59e4cb7caa77bf1a22c89d0b89abfb23f85b49be8b2;
  Dbl 0xa16f605f47cefbb38cb2a3594ab74ccb0c6e51af5fbb414bf9a61acfc3ec65a 0xc8a502a06615cbcb3494d807f58f3301031c1842e3937f91ea194e2d41cec9cb 0xefcadfb5f7949c87791128f827ff0095f6370ef2e4d6c4aac5026922e10b8253;
  Dbl 0x8e7cf7bdb2d9c4b6ee9d108ae2127334083a475397b4270fe0fc163f1f9e74da 0x3b5621e7787a8234b934858f75593fde16e2427f8ba7a2a2a66fd3c45425b25a 0xfa4b83b533a6dfb4286541028cd71893e1121e4b13d837ffce5aa2171cd66230;
  Dbl 0x36142ee62a35e7ddc17bcca9cee654dbf73d13aa024fbc746082703f04c4c6cf 0x2005a14a3d7cf9ea70c99df0a09e05034689080e4378438dd8b9dc726863c71e 0x7921ca90df720d2a003c1e095eec9b7e933d48419fb200285ecb4b2765809da8;
  Add 0x9c39a824fcb64ff7ac6dea21fa990beaf7051cc423727f4ed43575f9bd093153 0x1b7b24bfec17f17cfad4ed5d26f3ba3f2ecde9516100d16dbfa3986c27223893 0xc0c686408d517dfd67c2367651380d00d126e4229631fd03f8ff35eef1a61e3c;
  Dbl 0xa5120fd8de5d617af8c2980c032cb8cdf26b963651ca151e6790afa3e62c25a8 0xbcace2e99da01887ab0102b696902325872844067f15e98da7bba04400b88fcb 0x483ada7726a3c4655da4fbfc0e1108a8fd17b448a68554199c47d08ffb10d4b8 ].
Lemma lambda_check :
  match chain secp_gx secp_gy 1 lambda_chain with
  | Some (x, y, k) => zero_p (x - beta * secp_gx) && (y =? secp_gy) && (k =? lambda)
  | None => false
  end = true.
Proof. vm_compute. reflexivity. Qed.
Lemma lambda_G : turn Gg = mulG lambda.
Proof.
  pose proof lambda_check as C. destruct (chain secp_gx secp_gy 1 lambda_chain) as [((x & y) & k)|] eqn:E; [|discriminate].
  destruct (chain_ok lambda_chain secp_gx secp_gy 1 x y k eq_refl start_G E) as (K & H). clear E.
  rewrite !andb_true_iff, !Z.eqb_eq in C. destruct C as ((CX & CY) & CK). apply zero_p_sub in CX. rewrite of_mul in CX. subst y k.
  rewrite <- H, CX. reflexivity.
Qed.

(** ** Secrets *)
Notation zS := (zG secp256k1 secp_gx secp_gy key_max).
Notation SV := (dg_valid secp256k1 secp_gx secp_gy key_max SG).
Notation SO := (dg_order secp256k1 secp_gx secp_gy key_max SG).
Lemma key_prime : prime key_max. Proof. exact (proj1 (proj2 (proj2 (proj2 SG)))). Qed.
Lemma turn_zG k : turn (zS k) = zS (lambda * k).
Proof.
  unfold zG at 1. rewrite <- turn_mul by exact G_on. change (emb secp256k1 (PAff secp_gx secp_gy (Some key_max))) with Gg. rewrite lambda_G.
  change (mulG lambda) with (gmul secp256k1 (Z.to_nat lambda) (emb secp256k1 (PAff secp_gx secp_gy (Some key_max)))).
  rewrite (gmul_zG secp256k1 PRp ODp secp_no_two secp_gx secp_gy key_max key_prime SV SO lambda) by discriminate.
  rewrite (zG_mul secp256k1 PRp ODp secp_no_two secp_gx secp_gy key_max key_prime SV SO); [|apply Z.mod_pos_bound; reflexivity].
  apply (zG_mod secp256k1 secp_gx secp_gy key_max).
  rewrite Zmult_mod_idemp_l, Z.mul_comm. reflexivity.
Qed.

Lemma point_emb d x y : public_point d x y -> GAff (of pS x) (of pS y) = zS d /\ 0 <= x < secp_p /\ 0 <= y < secp_p.
Proof.
  intros PP. destruct (pp_pair _ _ _ PP) as (E & X & Y & _). destruct (pair_emb secp256k1 secp_gx secp_gy key_max SG d x y E) as (_ & K & _). auto.
Qed.
Lemma emb_point e x y : GAff (of pS x) (of pS y) = zS e -> public_point (e mod curve_order) (x mod secp_p) (y mod secp_p).
Proof.
  intros E. assert (M : multiple secp_p 0 (EA secp_gx secp_gy) (e mod curve_order) (EA (x mod secp_p) (y mod secp_p))).
  { exact (proj2 (zG_multiple secp256k1 secp_gx secp_gy key_max SG e (GAff (of pS x) (of pS y))) E). }
  split; [|exact M]. pose proof (Z.mod_pos_bound e curve_order eq_refl) as B.
  destruct (Z.eq_dec (e mod curve_order) 0) as [Z|Z]; [|split; [clear -B Z; revert B Z; generalize (e mod curve_order); intros; lia|exact (proj2 B)]].
  exfalso. rewrite Z in M. pose proof (proj2 (dg_order_spec secp256k1 secp_gx secp_gy key_max SG 0 _ M) eq_refl). discriminate.
Qed.
Lemma turn_point d x y : public_point d x y -> public_point ((lambda * d) mod curve_order) ((beta * x) mod secp_p) y.
Proof.
  intros PP. destruct (point_emb _ _ _ PP) as (E & X & Y). rewrite <- (Z.mod_small y secp_p Y). apply emb_point.
  rewrite <- turn_zG, <- E. cbn [turn]. rewrite of_mul. reflexivity.
Qed.
Lemma turn_point2 d x y : public_point d x y -> public_point ((lambda * lambda * d) mod curve_order) ((beta * beta * x) mod secp_p) y.
Proof.
  intros PP. pose proof (turn_point _ _ _ (turn_point _ _ _ PP)) as T. rewrite !Zmult_mod_idemp_r, !Z.mul_assoc in T. exact T.
Qed.
Lemma neg_point d x y : public_point d x y -> public_point (curve_order - d) x (secp_p - y).
Proof.
  intros PP. destruct (pp_pair _ _ _ PP) as (E & _). pose proof (proj2 (pairs_neg secp256k1 secp_gx secp_gy key_max SG _ x y E)) as N.
  apply pps_pp; [|exact N]. destruct PP as (B & _). clear -B. revert B. generalize curve_order. intros. lia.
Qed.
Lemma point_secret d d' x y : public_point d x y -> public_point d' x y -> d' = d.
Proof.
  intros A B. destruct (pp_pair _ _ _ A) as (_ & O). destruct (secp_whole x y O) as (e & _ & U). rewrite (U _ A), (U _ B). reflexivity.
Qed.

(** same ordinate: the cubes of the abscissas agree *)
Lemma beta_sum : fadd (fadd (of pS 1) bF) (fmul bF bF) = of pS 0.
Proof. rewrite <- of_mul, <- !of_add. apply of_eq. vm_compute. reflexivity. Qed.
Lemma cubes (x x' : Fp) : fmul (fmul x x) x = fmul (fmul x' x') x' -> x' = x \/ x' = fmul bF x \/ x' = fmul (fmul bF bF) x.
Proof.
  intros E. assert (Z : fmul (fmul (fsub x' x) (fsub x' (fmul bF x))) (fsub x' (fmul (fmul bF bF) x)) = of pS 0).
  { transitivity (fadd (fsub (fmul (fmul x' x') x') (fmul (fmul bF (fmul bF bF)) (fmul (fmul x x) x)))
      (fmul (fadd (fadd (of pS 1) bF) (fmul bF bF)) (fsub (fmul (fmul bF x') (fmul x x)) (fmul (fmul x' x') x)))).
    - ring.
    - rewrite beta_cube, beta_sum, E. ring. }
  apply (fmul_zero PRp) in Z. destruct Z as [Z|Z]; [apply (fmul_zero PRp) in Z; destruct Z as [Z|Z]|]; apply (P_Group.sub0 PRp) in Z; auto.
Qed.
Lemma on_cubes d d' x y x' y' : public_point d x y -> public_point d' x' y' -> of pS (y * y) = of pS (y' * y') ->
  x' = x \/ x' = (beta * x) mod secp_p \/ x' = (beta * beta * x) mod secp_p.
Proof.
  intros A B Y. destruct (pp_pair _ _ _ A) as (_ & X1 & _ & O1). destruct (pp_pair _ _ _ B) as (_ & X2 & _ & O2).
  rewrite Z.mul_0_l, Z.add_0_r in O1, O2. change secp_p with pS in O1, O2. apply of_eq in O1, O2. rewrite Y, O2 in O1. rewrite !of_add, !of_mul in O1.
  assert (C : fmul (fmul (of pS x) (of pS x)) (of pS x) = fmul (fmul (of pS x') (of pS x')) (of pS x')).
  { transitivity (fsub (fadd (fmul (fmul (of pS x) (of pS x)) (of pS x)) (of pS 7)) (of pS 7)); [ring|]. rewrite <- O1. ring. }
  apply cubes in C. rewrite <- !of_mul in C. destruct C as [C|[C|C]]; apply of_eq in C; change pS with secp_p in C; rewrite (Z.mod_small x' secp_p X2) in C; auto.
  rewrite (Z.mod_small x secp_p X1) in C. auto.
Qed.
Lemma same_ordinate d d' x y x' : public_point d x y -> public_point d' x' y -> In d' (three d).
Proof.
  intros A B. destruct (on_cubes d d' x y x' y A B eq_refl) as [-> |[-> | ->]].
  - left. symmetry. exact (point_secret d d' x y A B).
  - right. left. symmetry. exact (point_secret _ _ _ _ (turn_point _ _ _ A) B).
  - right. right. left. symmetry. exact (point_secret _ _ _ _ (turn_point2 _ _ _ A) B).
Qed.
Lemma three_points d x y e : public_point d x y -> In e (three d) -> exists x', public_point e x' y.
Proof.
  intros A [<-|[<-|[<-|[]]]]; [exists x; exact A|eexists; exact (turn_point _ _ _ A)|eexists; exact (turn_point2 _ _ _ A)].
Qed.
Lemma ordinate_iff d d' x y x' y' : public_point d x y -> public_point d' x' y' -> (y' = y <-> In d' (three d)).
Proof.
  intros A B. split; [intros ->; exact (same_ordinate _ _ _ _ _ A B)|].
  intros I. destruct (three_points _ _ _ _ A I) as (x2 & C). destruct (pp_pair _ _ _ B) as (E1 & _). destruct (pp_pair _ _ _ C) as (E2 & _). congruence.
Qed.
Lemma opposite_y y y' : 0 <= y < secp_p -> 0 <= y' < secp_p -> of pS (y * y) = of pS (y' * y') -> y' = y \/ y' = secp_p - y \/ (y = 0 /\ y' = 0).
Proof.
  intros B B' E. rewrite !of_mul in E.
  assert (Z : fmul (fsub (of pS y') (of pS y)) (fadd (of pS y') (of pS y)) = of pS 0).
  { transitivity (fsub (fmul (of pS y') (of pS y')) (fmul (of pS y) (of pS y))); [ring|]. rewrite E. ring. }
  apply (fmul_zero PRp) in Z. destruct Z as [Z|Z].
  - left. apply (P_Group.sub0 PRp), of_eq in Z. rewrite !Z.mod_small in Z by assumption. exact Z.
  - rewrite <- of_add in Z. apply of_eq in Z. rewrite Zmod_0_l in Z. apply Z.mod_divide in Z; [|discriminate]. destruct Z as (q & Z). change pS with secp_p in Z.
    clear E. revert B B' Z. generalize secp_p. intros p B B' Z. right. assert (q = 0 \/ q = 1) as [-> | ->] by nia; [right|left]; lia.
Qed.
Lemma six_iff d d' x y x' y' : public_point d x y -> public_point d' x' y' ->
  ((x' * x' * x') mod secp_p = (x * x * x) mod secp_p <-> In d' (six d)).
Proof.
  intros A B. destruct (pp_pair _ _ _ A) as (_ & X1 & Y1 & O1). destruct (pp_pair _ _ _ B) as (_ & X2 & Y2 & O2).
  rewrite Z.mul_0_l, Z.add_0_r in O1, O2.
  assert (YY : (x' * x' * x') mod secp_p = (x * x * x) mod secp_p <-> of pS (y * y) = of pS (y' * y')).
  { rewrite of_eq. change pS with secp_p. rewrite O1, O2. split; intros H.
    - rewrite <- (Zplus_mod_idemp_l (x * x * x)), <- (Zplus_mod_idemp_l (x' * x' * x')), H. reflexivity.
    - replace (x' * x' * x') with (x' * x' * x' + 7 - 7) by ring. replace (x * x * x) with (x * x * x + 7 - 7) by ring.
      rewrite <- (Zminus_mod_idemp_l (x * x * x + 7)), <- (Zminus_mod_idemp_l (x' * x' * x' + 7)), H. reflexivity. }
  rewrite YY. clear YY. unfold six. rewrite in_app_iff. split.
  - intros H. destruct (opposite_y y y' Y1 Y2 H) as [-> |[-> |[-> ->]]].
    + left. exact (same_ordinate _ _ _ _ _ A B).
    + right. apply in_map_iff. pose proof (neg_point _ _ _ B) as N. replace (secp_p - (secp_p - y)) with y in N by (clear; lia).
      exists (curve_order - d'). split; [clear; lia|exact (same_ordinate _ _ _ _ _ A N)].
    + left. exact (same_ordinate _ _ _ _ _ A B).
  - intros [I|I].
    + apply (ordinate_iff _ _ _ _ _ _ A B) in I. subst. reflexivity.
    + apply in_map_iff in I. destruct I as (e & <- & I). destruct (three_points _ _ _ _ A I) as (x2 & C). pose proof (neg_point _ _ _ C) as N.
      destruct (pp_pair _ _ _ N) as (E1 & _). destruct (pp_pair _ _ _ B) as (E2 & _). assert (y' = secp_p - y) as -> by congruence.
      apply of_eq. change pS with secp_p. replace ((secp_p - y) * (secp_p - y)) with (y * y + (secp_p - 2 * y) * secp_p) by ring. symmetry. apply Z_mod_plus_full.
Qed.
