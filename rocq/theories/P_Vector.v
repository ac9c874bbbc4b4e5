(** A signature of secp256k1 computed step by step: the private key 1 and the SHA-256 of
    "Satoshi Nakamoto", a published vector for RFC 6979. *)
From Coq Require Import ZArith Znumtheory Lia Bool List.
From Verif Require Import Base M_Hash M_Codec S_Codec M_Keys M_EC S_EC P_Field P_NumTheory P_Group P_EC P_ECProps P_SecpPrime P_SecpOrder P_ECDSA P_DSA P_RFC6979 P_Mall.
Import ListNotations.
Open Scope Z_scope.

Definition vec_hash : Z := 0xa0dc65ffca799873cbea0ac274015b9526505daaaed385155425f7337704883e.
Definition vec_k : Z := 0x8f8a276c19f4149656b280621e358cce24f5f52542772691ee69063b74f15d15.
Definition vec_r : Z := 0x934b1ea10a4b3c1757e2b0c017d0b6143ce3c9a7e6a4a49860d7a6ab210ee3d8.
Definition vec_y : Z := 0xd2831840679da4a3dcd420fb04daa9ff5df5d05ee36a365dd6a9e3ea87f0bc0.
Definition vec_s : Z := 0xdbbd3162d46e9f9bef7feb87c16dc13b4f6568a87f4e83f728e2443ba586675c.
(** for the hash plus 2^256 *)
Definition vec_s2 : Z := 0xa009757e9e6d412d7e93fedf99e456fd61f2a480cb05dc2ce11e839be07d8e73.
(** the inverse of [vec_r * (vec_s2 - vec_s)] *)
Definition vec_i : Z := 0xf8f88f70f4fbeab280bcd16097c5118f250bb118230b50bbaf9f9824d084bc18.
Definition vec_chain : list step :=
  [ Dbl 0xcb35b28428101a303eb9d1235992ac63f58857c2f631ee6936d3aebbeddcd1b1 0xc6047f9441ed7d6d3045406e95c07cd85c778e4b8cef3ca7abac09b95c709ee5 0x1ae168fea63dc339a3c58419466ceaeef7f632653266d0e1236431a950cfe52a;
  Dbl 0x6ad2cb95963c033328d4857d4f8711deff557dd9faaa673b400442833f0efb64 0xe493dbf1c10d80f3581e4904930b1404cc6c13900ee0758474fa94abe8c4cd13 0x51ed993ea0d455b75642e2098ea51448d967ae33bfbdfe40cfe97bdc47739922;
  Dbl 0x9693023fb325cc6c7bc993eb684358ea623d5feea8ff351df662beabd0efdc6d 0x2f01e5e15cca351daff3843fb70f3c2f0a1bdd05e5af888a67784ef3e10a2a01 0x5c4da8a741539949293d082a132d13b4c2e213d6ba5b7617b5da2cb76cbde904;
  Dbl 0xbc380350880ab969e653d334691ca8c2da83b2acde59e7439ed92d96a9654a07 0xe60fce93b59e9ec53011aabc21c23e97b2a31369b87a5ae9c44ee89e2a6dec0a 0xf7e3507399e595929db99f34f57937101296891e44d23f0be1f32cce69616821;
  Add 0xbb5d5c9a52a61f61a82b39acaacbfb34a445701cbbcc4235810b4eaf26917369 0xdefdea4cdb677750a420fee807eacf21eb9898ae79b9768766e4faa04a2d4a34 0x4211ab0694635168e997b0ead2a93daeced1f4a04a95c0f6cfb199f69e56eb77;
  Dbl 0x7653ea8ae2f7ea675c092a07265e0f87a87c6e705a70a002f1f3f07c8c9d177f 0x1be68a5a028f2601d0e80d468c344ba331d611b96c358b6032e8b4da0547fc11 0xbebc47511ade7308b3ca6265f9400779c076329c75146bc6ff1822f5d1f30e79;
  Add 0x466629ec0d60453ff9b276da340ebbdf23bbd0ae5a7043f71930283d720dc137 0x605bdb019981718b986d0f07e834cb0d9deb8360ffb7f61df982345ef27a7479 0x2972d2de4f8d20681a78d93ec96fe23c26bfae84fb14db43b01e1e9056b8c49;
  Dbl 0x43100a107ba260ae9c5424678130625b9ba50e5f73c33129ec74a8c4d80b4fb1 0xc00be8830995d1e44f1420dd3b90d3441fb66f6861c84a35f959c495a3be5440 0xecf9665e6eba45720de652a340600c7356efe24d228bfe6ea2043e7791c51bb7;
  Add 0x2b2c88f41dd8c89802fd82a8feb0c9a6a0ed0c99954325e8f7449eba3d39b748 0x290798c2b6476830da12fe02287e9e777aa3fba1c355b17a722d362f84614fba 0xe38da76dcd440621988d00bcf79af25d5b29c094db2a23146d003afd41943e7a;
  Dbl 0x88e021b9a60fe5c3738b82f797e64976447322606f10eee0f48acaddc1f52db8 0xef68a2c7ad33241d6adc31b4e7830036b5e571af914fe014c9f81b66ff472adb 0x202632e371066766e8842c4bfd67c46c2abe221a176d0e2e786ef55ebe29887e;
  Add 0xc54ee00a45c4c0e80bdcdf62545983ddb1bd6d4757fb64ed176845c43001434c 0xa0b1cae06b0a847a3fea6e671aaf8adfdfe58ca2f768105c8082b2e449fce252 0xae434102edde0958ec4b19d917a6a28e6b72da1834aff0e650f049503a296cf2;
  Dbl 0x11dd7c15283a99203dc1f092bc5b974520cb64d56a10cba06046b9e61df21e 0x4b8b2d95c98777ba4663785ce387c4ac220c57cb0d48496c241dd1f60f2ce57b 0x3cd961a34d4043d0dfd0c1bd2999fd38150334d56c3759dd4e66febd43ff0440;
  Add 0x14e5fd240c75367cb327c18f0e1a3505919d1d79d11fbf40d100b8fd400e2c94 0x8c050fc34d83b279b6000816e18fca389767b7960e92677255b84a39d93a6807 0x986314ef75b68fb2827c2965041981395d699fcd81cf23ce7019bc4135174870;
  Dbl 0xff8eee4da529a3fda611825d338999fe92b4cb4490ecd686a87b6f48274c852f 0x3373695d3221a0267b087b4d377956c3daf985e95ea9a33381668aa8ad046bf 0x3fd2c9b429d77d978f5ca067c189221a728c697426f9da2e6249d685efe231c9;
  Dbl 0xc528b3fb9186c2b3bb769f488a523fb923cc83df466ef732ccac1905bb92ae61 0x97683a9bdbe85fd63af4751912bcc33dd4781b80a731e7bb5ca6d0678426221 0x91d3150e80eb707df6276bab5a26dc2266b576e70d1a4e3b9e1c76038ac508ef;
  Dbl 0x90e145e17614738b2a4aa4b1a5a9645ba87d1e11e1b631dd6185670c342a2a5 0x2c331311cde91a3ccfd23b12848e595f3cb6763b2225f92bdbe49f7811ee7378 0xfd06f2c4c4285f23937eaf469cc0cf6a7dd182536a6087eccbd4055c74ec6754;
  Dbl 0x5f5379ed5befa3d26297eeb4f5f12f595fae9cf74088d7cde5dfbaaeaa421683 0xe6bcd838da1b21ac69eaa6ef8b6dc1bff7193a0eb5caf2927d14f32a754c0f72 0xe260b0335d67112965fa01983c2af9220e7f86cdc2aa68b62c2530978f5db707;
  Add 0x4fc0334489a8a528cfb1e9c20bb1564296d75522c809ed79065f834acbd39521 0xb0bbc2d2753bd89ab2bf1664e6cf212ca590d65f5664e6947ccdf9773ea8d09a 0x9057b6c1a1078baba14190654cc67052072257411f34d47e47f09bdc8f993c23;
  Dbl 0x15282eab4fd4d232cb8f8b4402c9fe1e9e5b1d018144d80a3b5bc60fb29a3e14 0x199aa60b0f13f740217c4bd41f787d945c09a92a89890902e9e09aa93d925b97 0x96d4cfbdb1210eba73e27ae31d19dbe4015ef3265c4f5cb2b31437ad5b3ecd15;
  Dbl 0x11bff8fc6b110c1f4a2ced6133c16a161dc8ffbb9a7f0dcd833af6cf5eff829f 0xdc89faff35c071fb7ab2111a0c62960fde6c0f9d745846ad3517117f0a21e733 0x8da3a38ede7967b9d12a8903a7d1bf91853c6128120e3b5cc9776f7deefba601;
  Add 0xd8abdb2d6ece1dbfac4c659b2142d14e3f01cf30cc68d966db507642da2d0f4d 0x8fb13c7dadcfc8b99473ac6e13a988ffbac0f369079e3e34d4f80b87e7c4eaa7 0xcf13ae9ce3f8e7dbad4cce8e9f91dc4868679fca456319a88e0459b175a199f2;
  Dbl 0x9912a9cd80ae41d415725408b87b76114efcd902f13d505de68222649ec6c785 0xe60e1b67c134e4504ff1ee8b8e6f2c4b95ce0b352cb3edebc59f5158d63bf887 0xbfbe7537873b9ae48dfef97572d6851447d7afa2e223cba5517f8894bcc000ab;
  Dbl 0xaeb2e002076011766d3a4dcf0903b456fb1dc46826f5952545c5eb317d54c54b 0x138ce8e442aab1af14654ccdfbb3c10022071f7b29a9643d97c414111f288fc5 0x7e29162dbf7fd630d26ee8376b13915a1ce910388fa7b4b9f29523eb7d970810;
  Dbl 0xccdf802cc312dd203a4f9a97b429725379672e91c01bbe39bb0daf57cc1e36ea 0x8d10e547fa81ad77d96be10306df377625f05ea1017021df8901e07d42605e9e 0x766b0d0d50512e403b2e609010fa14ab06dffede1fae24db742dcf655feaad4;
  Dbl 0xff2fd8bbc75b32b8b680999425ac57b8e15f7107f67749d71700cc1b096de197 0x80f7b0140fdc99f1aec28dc6ed04af0909f742e7eb498c822ac799e4e19c0d5a 0xb0cfd83a59f66e16436f95ee8fdd3d98022fee89936ee08a6e4717febaac8e49;
  Add 0x5cba3dfaf213fba4a37ad96844f9e51c3db10f09ec3e9fcb245b7faf8f986e64 0xebb5278f04b66db87ae174c7849d5e7263f6c4bb7ed23f6ac8bb49a681f266f9 0xb2177f96dea94267459c87b5db4892a13dbb3f6fd7b60e3a2562d6c849901b3f;
  Dbl 0xceae5bcf8392543e6facac471d4b4937cee6f5b022b1b8ff5dc3671fde0ffe98 0x35c1876ae901d52ef91436977a645a26cc73e927458f53ba4ed900240c927cbd 0xa6774fe30c30c04b6ca10482dbfdcb22e212efaa63350a0b93c4bd802ceafcca;
  Dbl 0xf5d18d6137d49c7bc788d540e2b52afcf638920d8392d9e945588ecfce2212b9 0x6ce8f1a8523fe26fd9b11b391a471b09bcafd4eda729acc4e67292d59aef369d 0x6eab872f73ff94fdd427965a5f245f1c346630b5f1a2d82c7b279c24af73f6cf;
  Dbl 0xa2baa4a6133a0199911a65e633277e345709b2a96e401027e18a6796e68b194f 0xd5ea80c868110d644212e65a58a018a837573264f0dbbf0e7e86ee2c00e9bb80 0x54eb146f77e06468fae669721be36510a9d31eb58429d6f9847e9db404fa5958;
  Add 0x3289c6a7a93e407146f8806df7176e9ec1ae3540077c1e631eae5ed006574d66 0x650899337ee0d98e438ebcb4a6fbd95d0e04f84eac555964876bed21d74da4f1 0x39459da87df34f7e844a066d41d168249542770e115006ab7dcf119cc9e72889;
  Dbl 0x3c49680db1cc0523c19257c3a913eef3af8a4e94f16ac4f5ecae15cb7c74a0fe 0x424064fc63e587a8a1421b4c668ce457f91856be622f9d85c7bd53dc28364d48 0x5f91423f9a8810b9a6eb3ae9987587f0bbd2f10e19ac0e0633289d80083be971;
  Add 0x80b89e6abde6a34863b49cbb8392673f4300a7810e1d7712748f9c0abd8e7b34 0xbc03728c74ea55623962a57ea18fc9c82cd3e7c14fbc7e25a097764ea42aec8f 0xb928baf304e1a9729610c4ca9f94a629c75c8d0512c95ab29e139700645a9728;
  Dbl 0x1cadfc38af219e9e48833621803321c57d91940e6fc18db64e48a07c2df9dfdb 0x82bd84ecbbdb40a376480046995c264586f8669aa05e7be25a4f5a8c1059b84c 0x5046d0316da24b627d3ba0a0dfc62c5fa4c19a652098d064b6b0e0f604646dcc;
  Add 0x54e505a13bee5132218f5de18ea53613e7dc28646524464232809bf90a095b91 0x7b23bd62ed9db8951703b05eb5ba9e9025b6ca2a782e117083b2ade9506462ee 0xa421867bd15ceccc5b1223ef538f09df2a92817aae7cd0f69260e4a77bab109b;
  Dbl 0x446f36ef8617b01b744ec01a054aa4298e3fcb35c8193b125602bca8e7d09ff6 0xf8b2011b73d568f67a8b92635bb965d34e5b10491f15412a02d8156238384a8c 0x4d92583799ac093a64272c1fd709dcef84627ac1953a4753b760a2c16897b800;
  Dbl 0xfa6ccb10c3b11c1d7749ab978f431b4211cb533e64b14755b3e4cd1d06f49aa3 0x4b30fbfb9cf753a65dee8db9f1e6acfd67a7be8a3ff8566dcefde45640aefafa 0x7081af5087c165a373c9ca8e52bfce1a67ae825aee7601b972aa00b0954c63af;
  Add 0x5a950e7785470ea4d81f6c8e58ec1055a4731bb95114f3426801bcbb7ab5cd41 0x196f7624ec7860b026d24568d0581dc57cff0e329b091e934db705bbaf9aff12 0x8ea98888c56e3ec0a49d0437b6268b54cedcd63d1a564f0175c9aa38269f9f71;
  Dbl 0x7c56171e8da1a6e91f9439e340ed32e16679ad9b91731b2565302d02b900791a 0x64d0ce69797d99c867e0e592f1eb82f6adb60c986aa477a284cbd1f96e55bb57 0x17b1af83026892e082935aa2d40746731b7983c8da619f57bb1fc6cbb6b936d5;
  Add 0xf9b06df785b3dad61d6cef33baca6422222db34d7c30df640b36188f25a87299 0xf96be24fd5949d8943debc2652ed4ff770ff3b51c08f1fba4d6b679d3440a30a 0x994ec342ffd56e9c50f6ce5f08f3fa3c5e5e2be3fa7ceb05a6f60325107e3683;
  Dbl 0xcf2183c1d9d37ad5a8e1e13798d896243046a5a2265f668918dc91e62d805ba4 0x58b94dc28bd65458d0e1d1217a3b418e0b43fd4aeb8310c262a6c153d19e0a82 0xfe6055e62a55093c1d2883a0b51435fe722db186cf17b03aa7a596ac1a620c2;
  Dbl 0x69eb694589f806ea0e607a7a8376484073da4173691056081b7db91207f915d9 0x484ecbe1adf9041e63cc0372ee225e2d5de42c7773f581ec40b126e6913aee80 0xd04643e1ab48ab8c4209aab0e9979f67c751f470511fa3ae4aa5937447df7cd4;
  Add 0xa3f6c2946af479b2242840b8f4b192915452cdd7461c9fecc9191441bda0ab9e 0x89737e15fa2736bdae00c20eee309f9d1683b530f134bac4231f414d9530a547 0x5312a5d5ef1b0bbc7056a31e7be74f4663f3cc304dd3aac7aebc795d06d2bab7;
  Dbl 0x2b7901e0d90af43d79ab220248c1c46b6259279c09f295b73680065bbdac7d32 0xcbbf899f55351f51bf8131551128a49d54d55c2c2bace31e6ced390231d689f 0xb76ed27905a552c18f1091352fd7c12995ac9ebda781f18ced65ba1b468e99f9;
  Add 0xab3bbc9e49693cf5687e4fffefc34dab13dc8a64cb0466c37c5851900ee68775 0x1eeda8cd67c0851706361da25144e54687e24ee7c55f6ef61464a703d187cea3 0x2b0683688d7203c151bf5ab3bd96b597f943ce3b8caa989caf9ad1f6d83e5fe6;
  Dbl 0xe9a0a752c7de99bd688022571b0ff1846ae3cd39620b179bd9d0338d1a2c17dd 0xaf55f6b3e42313a13f30566d24be3da71c747205c11d40a25284d8c64ed10a95 0xfeeb235d1f487d33d2b14293536a27f18b2e86c77896d731273514ac1d05d0db;
  Dbl 0x698a1eedb45f6a62c92c497ba14af881d3382dd682d42c26efcba79d0768d364 0x7b1e05ef1011c881cc85a181125c91e1f5d100dc16c11f7422d572cf1e275f1f 0x75bbb4c18d74a776bd723934239bd0adf8c3b166f1be0e40005084295da78e53;
  Dbl 0xea18c40cf9e3062d4845c2cbdf13498006fa89bc1b8c9ab718f9f6feb024e354 0x73a51b061e8be869664d884cdfe88b3a19f9bf472fc19679fb68e954ec433e79 0x98c13dd811cecd3c9e3293ce4cd7a3b6331053481d76490b7f7aab24d8e0f56d;
  Dbl 0xec84acff1259489130ef7d7098af6dd718f5d59fa66f87be79007f4e28fc01ae 0x40081d1d06a8316d23bcf548adb6c99feef6987eba1f7f81f543ed695ad23cf9 0x37734af4bd1bcf74dd4513e7e81bf390969c2be593998431e55ae3e305089fdf;
  Dbl 0xc80d221b31e48858e54c77791265527c4ac69466c4579963b6619450cb32dbfc 0x89cbce16b979f302bf02bd397e78c4e9f21912b99c052eeaf492898abf9db2bb 0xaea1eb181bdea9d5b980e9e41ef89dadb1b3c3580fe29a96c691ed1a751491f5;
  Dbl 0x466264ce1ac05842a2bacf24701881a7b959e8601932b4b9f696bcfa7f8c8332 0x79aa1fd320251d0f4f1589e1522f817daa4883f5f1a02b7b0098b2d2a1e43311 0x4c7c74fb48e120eafb5b21343e49d8c873d75dfcf2d6e241008974cccb77f3ab;
  Add 0x7cdf70c3d191d55352f995ae9675fcc70d9798416d89035597429d5936feb724 0x7342bef3df9a3166ab52f5842732563e0514c9d42c95df0c68a0411469f5c8c3 0xb75cc3e08ee5ad6510ab4cba5e10a35296a49e222af93dca9926ced1de2c6ce3;
  Dbl 0xa212492adec78091ca3f00cd92f71a2db5bbec4fa7992e745e41f011fc4564ec 0xb9135558ce49e330bebbff1e69183be8a60398dfe5cf9c737df767ed44c020b 0xa79260b3fb88fb51991963c2a0f2666836afce8f75ba660991888224b46615f0;
  Add 0x214438425a8a28c3b0d76cb858af14da62c67d2ef3b72777b79ee772389239c 0x77626b84aa3139b0eb98600af2b9aebfb0a5f562371a370e8a25b0e27ae565c1 0x301ac8169352876b3462a71cb1f55582da038b1e3559be66915fb16fb7f8294b;
  Dbl 0x14bbbd4bde4d393b71f404742c07254ff6d09a5f5236814927e29692d44b369f 0xd4706990ede371eba46c981ce60986c3850d4256e169da7dcdb959ac78f511a 0x54195b6be34610aefd6d355c56af147f52241ad69635728b6cd5baebf3c3fe51;
  Dbl 0xc0d484d0a29ee418fe1613a43cedeb82a77dfe15fd0dc408c925524cc02287d2 0x214d7e5dd39b1491ff74aaa3be6b882229f75a5fe3efd48c4231b2cf361aa080 0x9fb179e32fd8298b4d125b317337330c15440bdfd29785a371eedda4813e1272;
  Dbl 0x8c4bc5ecb30364c34a3794f477cf213f91c4e0a0812754bf98d8fce9209f39 0x20f6fc9b8a914981770cb898139ff7c1db3525fa129ecea09d25b07adbcf42e6 0x764c4624b6f3ed4f4d09e0077b150790e6a4be634a56b323d421f1ea072aa8ac;
  Add 0x7ee1308991cf022d34cf47e62f1c384c964451d15ff6960be94b2e67017ad5d3 0x3bf8788b9e213ac4f1fab829bee82783312c2cc5645b47c0085ca0f180fa213b 0xfa395f1e9f12f1219c8ee1598f5d6852d1403138e6dacc949db0d43e7c33cecb;
  Dbl 0x9ffe5ce1c0ea53a92ee8de6d0871ed2f389d9b0c4be947950885a2ec112209c7 0xe1b8f00bc4fc3fa228e9826e8472ebd0e8e0792633d6e9b8a6187304163b22b1 0x8ef9612b4580d7c79313b8a1ae7abdaa210de2a673d47554fcfc5dc38c9fc9cd;
  Add 0x2f9dff4df22f03cfad9fe7470f7a4aacaa1980c1d8acc2e05b254ecd1bb04a17 0xd7f74046afc41447e34a7ceb0fdc502d245574b1741f4ffee8cee4a657e7e7e6 0x970b9a4eeb4c1c6c13e2c212de9e3853a53811d452b4e0f10ec8f1970620662a;
  Dbl 0x89c12b6b273819d2d38bcdf4ae91de37495438fb653890c1fba736e2002673ac 0xce34dbbe6af3997bc22bf4619496fa17de7dbebc909fa2cb4d7cbb10bd48b311 0x55c45b6cb7b8b1e4f6e5b7ff07aa676ba8252f7d451e7c86539037c5d8ea499;
  Add 0x8e208b280b2978be70be06fd5432b49ba50f314e748df7db1092d263b3b97202 0xddf621f1abeaa4507e2e6e442bcf0115dc1f06f101a68f5d6e94816367811a84 0x6b55815d55eaa0aa5e530381772c67178559aacaccb0a3e625145cbea2f924d2;
  Dbl 0xc2bd0fdf84c965eeb00f7a93dac6b860fdc5cea6c8bf6e47e6e2c1648d7a5cc5 0xfcf64a0a171b11269c03f033f7625729f9e059aa24451d33d9c8317f2345b7af 0xde9308b6f137d23ea9412b15705170dac84292bfc07f7f0feb9a48b0ef325ea0;
  Add 0xe917d27b2e32b39731bbe0897c28ad4acafae8c6573aa510268e009d86f73306 0xcccedd5a83fdce3bba0a4ada1cdbff2c0ffe85e601b92ff39cdb5b80c98b699a 0x80bcf8dc63c55a3c57b1a011d58646a45b759f8de67148dc5b4f42477b5ccfef;
  Dbl 0x43bd0ee8d78bb5186ad71907897d251bc033d82ba3a8ce1fd93285d73c818bfd 0x21a0bb35fc852c57e8e923ac735b345aa7eb30f14842676f764035db2551700e 0xa77a5e758d732a5d1d9802e1d8ff4719a7efe5b86ae70d1df27b3119f129268b;
  Add 0xa7cf51d1b7ab941b05145366bdd2d3684b174705089cf44ff1223d206cb12584 0x8591b346092dc4881ef06195afb58764f3c9b3024427fc77644d1b4259391cc4 0x2f07b5d4cb5f65b82f7998574390db4723bd098df2d669135a22b6a2cc018320;
  Dbl 0xaa320874120d61de7df55049a889215a287df84ea7e4dc2ed7c975581243ae44 0x970af079abb37305603e31a76666994a91af5cc8f9748328f78d582f61de6f54 0x27f5afe8e6645004a555ccfb81600950ccb1d927c6e8f92588dfbfd7229c8992;
  Dbl 0xaa4b5f3b761abedc16b8df5934c2da40944c6b3e4539ac83a8d47db9501bb7a 0xd76a1819865fda788e38020fad7abfd609bf61651b96cc7b8ab46af97eba3aa0 0xe72e813ff25168865d73167b0e75dbcf6a7054f8862928dab3d61637c0dfada8;
  Add 0x3fe22908510e0488d829fcf72b55d67182b7b9e9bd2f73dc733fed6af795220e 0xe1136471a81b4cb5e35be27e41f97168238a5bf073d0bcb8a2cb707d89b45a23 0x3bce8b494dcedb9d456f9938518ec5d38e8581069bf8f87f7f440f61e2f5e90c;
  Dbl 0xf2be2e8a2dea664ce7ab67453d16c4772e6ced6ffd2d3a38375930286ad9f621 0xc12e54acb5555996e9f757c5770c7816fc81386f7075f066e01dcbfb3a5390f6 0x34d3817027d6fc174472103c92600f52c9ae1a3d42224874442be65507e7e58b;
  Dbl 0x8ca07f7dda4ce44488bf41f8c448934cb0abaf30ba8f253f242ac18246ce6206 0x3ee9f254e55a3aaef0ca3c93e63b4e5ef6b6b1ebf7fcedb16d0beac15fbf9a4c 0x25dc5dc2a5bd8a87e46203902febd5e1436bb9cbf270b0ea2a94efddd9522fbc;
  Dbl 0x97c9d2f8dd2020015f3570c569fbe6f5ed9ef6f3e9ff91bd1f5156a25610a885 0xcce698c5cd75a646d66fd8b10b0dbedfe373837184a03d53bfc34cf0d3ecf247 0x101cd345fdc16f5e273f915105e65fd39c979b3ce6ebdb37510817519f907f8b;
  Dbl 0x67136c9f7789a8a0875fbd4a0f6ab31a6e13509d29d12386e467e0cff56ac11b 0xe2b31d2c7f5340345f2075ee13a7818fdc9b02cfebf58fd2264e8e749746d756 0x1fd450cd4c84ae8bda5cf9386fa9d240d19adebd6aa2bcf005b23e151975bf4;
  Dbl 0x5bf0b07036c6ddc1bd6669c463c00e2537b13f358b0fe3d9bb419cfa3135e51e 0x352fd3d6408b00acfe864800d4e509a9c7e02a11deefcfcc489815ccb894eae5 0x12cb05d0a1d24fcc84573f4b1c6122d720c7782d028cd2d33f076661f039f1c8;
  Dbl 0xee5886e328d00b4b7179c4590d297155a5d2c03edf231ca7db010fb9dec2e74d 0xf278d440880419a88bbdc1a14a20e9b3a3fceff1a943773edde2cc511f6099a5 0xaa3b962195f59f3e8e04ddbb2a8720e26bd09fed3d7451ad0a206a14110afe3f;
  Add 0xcb47f81abb9ee16082739f8710002d4cc752c78043a5c68f2d8aba23681186c2 0xc35e8ae4c6669fb704b9d92fe39d848eb26549bafb8208c6bf5426edad1ec1b7 0x702665419a9338c364e53e537b934f444b7f6dcbb900ebbf0704bc612f98f60d;
  Dbl 0xa97d24ec82499615907225cfb63f491ad4c142a5fd8026c87bdf559a350ccf93 0xca608ad5e8262c996400ecef8a3ec7ec6aa52e862e78174c105246bf4601c494 0x373226d429d0fa12e7bbd84c34f0579f70eda86943a7069faf7fe1f1b28e799a;
  Dbl 0xd6ad4969a79a3ff918b3c9410904ce37a05acc8168c806b99cc490fa0ac5557b 0xc172a9f17ee48dfcc275252d38da9486dbec90918b9fc9bae9d753fe05d50e45 0x782b9977021d5786ce838bcb62628ec3796b334b801ec30c556a676714c3d844;
  Add 0x851aef590f5df0006045c63e1a1afbc999c6821f0dd9d87249742334dbaa22b9 0x102e01a032d5faad702beee843f1d46157ea2f5fcae0b26483a69f8374bb9d45 0xb25c6dcd6b0e8cd975f69c6e492f513281a427d0c1238af67750d24c45a85dcf;
  Dbl 0xd192eecc4068ce7af822cf139f21970eabcdec9934980de5f4c07c4216438a11 0x2df58e4abc28792ca992e8a8809716bfb2cf2a1985f4f26ea6c8000e14897f7e 0x4426c277b6c44036cc732bf2b04fa73524ee7d80e50e343f7d156a4bf81aabe6;
  Dbl 0x2f4eac01e4d00664297c63edf46f308f0d33e2a95b745ad17a1d8e6e8667bde2 0x3ce85ded8152c6f0daff02220d68c393bb21380899e770746344c829191e3898 0x454c589d583daa235e48c40ad13066fffe84707cd6a3e121f287363c2eba719a;
  Dbl 0xf6250ac94f9a6803b6f494860eef13fd61fdff465138ae9ffd6b49f4f6848746 0xf1cc998da1167d3700e59cb5eab223837f9e8f95dbc6af2a83e6da165a0864dd 0x58b9d2b33ffed1c8e95e5683571bac06c6886c7c35c591a7de835c97e7259a18;
  Add 0x4d8fa71a95aecbd85798c3bdc69716b6e1e740192917bc229f6f4c020af9053b 0x20890fc3421bddcfa95612d1f0614ea9459e89db91eadced2f6126d3c4c4901e 0x98ce3f48a5f6eb520c52b2b66146c8057e458764cc9733a7b27128575b4ef6e1;
  Dbl 0x9821c271ec7c8897f041e5a07fb1b94abe3b273ba1b2b9e014c6269dfb6d3ba2 0x9ff58669a54bd0740ee3ad1ac2de6cb798422cc6fd8b47e745d2522aed1a384a 0x1ab37e908b366651a2d3bf708ac49b475d65189ae73b609302bd4f0fff07ddf1;
  Dbl 0x73bb7c625848c0367d8f8c2fbd66ea3eb22d7ff80845c89055463b1fbf44b4b9 0xef608b3e40f4e0ba2c11b4a4f8d1b616af9ce9f6653e5507d80aa136381a00ac 0x5804110616301d9f35dba295885b683c4049f3c15d2ad7e2d0fc966b6326f8e3;
  Dbl 0x467800b2e7abc176b2f1a8410335ee2a7ef58f7bbe966cd12bab887b65ee734e 0xdc99d2f762d22a3eb8d07bc60ad0e371f94ce5acdb4ab42a288a73f099424bcf 0xf9b370b03268ceb71ca90e021b724123f4c5778dd0f187b2fd29d2c988f79750;
  Add 0xce1aec3388c46695daa1d0bb76ff6e01acd0f18ff9585dbc7420997fceb93187 0xe98a1a9aa0123fd0cf19d3c6f68ebc94b126b04937bfbccb11a0b7221f26f1a3 0x3ccec66f6bb8b5822844c234966e64bf95891851eb7c52417e520b271e1185d4;
  Dbl 0x155902e2f8a301eb5cd1d8cf9682addcc60dbf6814e9929f89b475ff4d242a2e 0xfe7d4adbe369327e8f5e922c9b75bde988c4468906641f9921a74bb9bf1dace7 0xcc013919fd40515e9cd2359c929120a9d022badaf1513a46be1f6a2d149c01f;
  Dbl 0xeab1ee8cacdbcab83f37c2a4926b20f663ca9a9df00da0af87380a70059bb424 0x7b3d9cf01b906e86dd7f15d196f40568924e77fba2c2f4370d4c902fe4c150ef 0xbc48f4e8e8d7bdf124fb91297470d6919905448a483018126842867e234de731;
  Add 0x104da385cf0f456443a17344514ccced98cf6d1e467a0d50a457fa1e80753e0a 0x31f7f53a922dcd481bfab305cc4e5fcb4e225e4f88bb80c50ae2a0a26c0472b9 0xce6f722dacafded85ad17cdbb244846789a9791e3fc4ce724db1f5e59c863f32;
  Dbl 0xfce1034506f46fa296fa77d3aa64c19b1bc2b24fc7c40fe6a0ac0b0fa3f57aee 0x162ee6a21549fea285f353e43761164f9a290191f7c459c8d1ad0d203a829b01 0xae88e816233a444a5d7c0dc5abfd857cb2148b148892c2c47fb14d0d5dd9df44;
  Add 0x2935b75cbef5efdfc80404932489a501b9f9841cda07eed5cb4fb2eecbca271a 0x2d29cfc37cdb82c7d280dc42573d2c1fb4dbd3b0b8dc34d8014778a169f3d5d1 0xcce3cfb25d1969c83507be0945868d4b17fa5b1e5faf43875c9f004d6fa71fc8;
  Dbl 0x614448097c031df9225dd9b2ae6d1d20b42a17749d88f6a3dd3093517d25f132 0xa3b0e23e0d4f74ba4cc714f4858ca4e9068490b747d8ac0305d2ff2d732549b5 0xd975967510306d4d2da13037766df6528e3c0fb3d93df83a72d58417b349cb71;
  Dbl 0xa9b418c1f1cfa952478165dc2f0ae48f83a5cd57e848145069870a419f89e419 0x5981a077eb174394890523f3f526a6de254d404f174b3d5b2ac2da05d9330685 0x1793c959d99ef0e5648729392f5a4393f99035d79b85a05929892ca545a5e537;
  Dbl 0xbcb9ab22e19d740a56fbd2b03f053e08fd7fc10407a40de8598f37c197c2e7e4 0xc49fd9acd8db31e8a4d9047f2d5bca3e53e5f4b3032152c6fdf09ba2d60361f5 0x167bbf9773564ee28116baa1e123064a91121fd2656119a08b4bfa92b983089e;
  Add 0xa9ce6a8506433752eb524f15594b0d92cf59a08b527d481602ffe35a9a61e970 0xb0f9db59f20c06a9207c511c34fc9147cf270397ab1a90465a3dde3b30724a3b 0x9ae48d68da996e8f2beac3dadc4884ff8a8de6f9e34b9181d82942fb9ecf69e3;
  Dbl 0x761f9c2f2fc16642c2db1906601e756b9c6d5479667666808e438c90ba2fc72c 0xeb345a46ad5291b4b394acf59e48fb8871cea223847b17bec215ebfc074709c 0x732f44f708bb11cab1c1769286f5695a9a78cc19927149220bd55378d399a70a;
  Dbl 0x7cbcbfbde75aaa75a7d854c2f02659dbf541857e3b3e296f39ab1ea63314c0b7 0x362909d823eae1b776e9b540e6f56884026023f8522f79fc0af24048ed9fa3b8 0xdf100ba78d6991b1cccd32bdb79cce2ae7aa81904cfeffd100d2437d4c7646bf;
  Add 0xa2ea0d5791c4b53dfdfa0c6a8abcf3b12d4fe6ab0bb4537cd4f982778754cf1 0xfad922305c722d32118b54ad2a07e883e2ba2627919f40240a0dfb11e5946921 0xcff96e4a812f30b283027c6ed4cdeee5ec7fd790685e2023c2ff2b6e9ec73ab7;
  Dbl 0x38304f89d685a87ef7a4c6544e543ed812b1333880be0e70fd7caf50bc8e3bf8 0xaf8a44d67690d4985a5b8caca12061efcbd33108379c8513ede208f1adea9230 0xe1ba85e48a8130ddab6f258716c68d953b7abfbe6325d1bc89df6bcc83671502;
  Dbl 0xdf15991b4f21f567719a92e9ffb43a8933395f4409e94d4d043eab809ab962ac 0x26a6f55e2e963fc15e4e95ce9e4febe80f569e672286d977f18c2f4055268070 0xcf537c9cfcd7859c13546eed3d453ac35aeb307653d59ae81a3715d6cf36a3ff;
  Add 0xe0b5168acf049705f1b54e9a6dc9cfd43a337c3dfcc344b589bef130e515260 0xc364b8d4f7cfc7f7bbaa74bc7499a43e6151b4baceff5bc74a612d5c57fff1ca 0x32224a38d4a6d8bcd8bf1600f852cfd34814ba7424005612bb36ca07dee2ed43;
  Dbl 0x713140181466529d02fdfd8a8009b0f97966b835b31b116c4bab2d53c73e878d 0x509a43aad67ffc46ca11a670e12d0ced54216f57fddbc8d7fe70e6076e160f4 0x1658dba601b414424664a16d027992b0e69bd99ba77c496e3cc9ad26e58f9c70;
  Add 0x5bc8807ad5c92a6706f06ec7a5db10f5f573e2e9c849147f75b4a52cf752425c 0x194a5d3decf759c5b817316803f137ab5bd7f4bb60ef43938883f73657b58183 0x6e4e68aee8f7e6994bc0c6a21a782391c6b7cf605e788ca711c91639ed9d7b26;
  Dbl 0x5eafbe20c9143d69435416bf2e1f43dd814c010c5923b3ed54abb811573a8dfb 0xe66ccfc16e627262132fa0444bb1373e170c12c4f602de2ff9e19e9fa9e76934 0x2be7a7cbc5fc9eee0be0b2bb957a7042344107287933af66601882cf5b14f0;
  Dbl 0x521ffea73d9096195240e4b6984f131b4ef4b6bb34eb32344ff47f9692ee2ec4 0x2c9e4ea4bd94b7de7b3e75136b293a683befddbeda103f19e77061e534801fbc 0xe372a43fccaeab1252889038b930183e6c37f34700ef5e2c2ac61e4b3b1e25fd;
  Add 0xefd0fdc9403d160d61739c0ae4a1a51359437dfe7c63721a7527f6c022934ff 0x42b9dcda0767c5c2637fe6205adf9183792f438d4a69a85491cf23ac4116ed73 0x64164222bb17248a0e886d73653cd40a4342ca043ce261170e81d39d83f63581;
  Dbl 0xec3dd9ee76874af4896746d417f04378f491141141d7276992fc15fcc10f2f53 0x70991c2f3587fade72c240bc76ccd30d858433e8ba62761ae9cf1bb133e8c3a4 0x243a8ebe419af89704aed872b309dfd09cc4ffb841a70a92a13b862c4b8f6e3b;
  Dbl 0x922e046ad21251af8a75e6a7fddc9697f655ed339e8d9b3bed933736dd0384c3 0xe0979c1f664db93423772cb51db84b331ce5be1080a40c629c9b6a351fdd5bfb 0x2f1e70648e9aed159a2ce3b01ca92a285daa93b8e7e7d4b72a3570831a0f965e;
  Add 0xd91e0d92a8896a9cd212ac1da62d2c68ad492aa60f2596363db7bc7c9b0b6bbb 0xf715199a2b567b71add564d224bd4412a5c6874b279513adbe465fe40890e41a 0x223fc7b66356a102667681147938474876f95f6c334508087f6af1cf30bd7e3b;
  Dbl 0x1f36df60e4987ef1c29e97da79338f7429a295ddb171d022a4f8000866e02b1b 0xcc0a15cf0902b436909b9684d68e020fa17454cd46de2c2b0b319a8bb1202cda 0xa27f8ff8c2f5fe1bf216253a89211f710f96e4720300968e29e0959aafb29f3;
  Add 0xfde1c637abaff641fb95ed8b76bbca69feb9bd1684f84fa0c5a65edaf746e3e5 0x56dc95fb2e7f6eaac7e6d839229098a96df5de2728c775c0418ab67605de4f69 0x6e8a88a5002177a532b06efb7ccbddbd549edde0a7c7b0931bfd8478569dfd30;
  Dbl 0x9e2d15547ae4ded97964d40ddd7460e6a78446554c5a9719ff7bc9b4fdb3cd2 0x495886a22a51de667c547bd160eaa472071d25f5480fed542cc9dee3d3284d09 0xb86d40453f6b32e1c768dfdc2187d9c1887829491850593c956204e7355b6232;
  Dbl 0xb0d0f870708e53e93b0199011bddaf959043c098a79b334b9f0f86560c89d80e 0xc49fd532d55d111fe371e4f0817642e8846595742403a23d243c9a06a10db997 0xdd045c47166f8ab7d87cc23bf0f1a434f3ccaeb20cb988ab684c838c7c1e90e1;
  Dbl 0x8e39353549effbcbe01efb3bbd8824840f5fe3a8d74f44ed38639b7151a6a736 0xaa55670d8523194b492518a705100c9bdf020522c6ec37e3e87a53864bef8368 0x5a919900279851db4877c59e67ba0f8b753d56d9f2c63ca0ea35aee2ffb867e9;
  Add 0x4d2a8166eba9c9dbccec4241cc959922a12c25d6b823e8071b7ccade26c0f0e0 0x75350431466845895f68a3c6cfaec88d6f279eb616432e7c4642a5639b43b7c7 0x943af80d70b7bc0dedb34bf63c15b5f44653a4df3f62a705ea7c3ded984b3b4f;
  Dbl 0xe12db50f5d45754547fbeed414d1c86f151596d673a2301dab9c1647f399bf93 0xc064260f19c06ed50a864c382b07fb8ef1add883f22cb2f99190079b90b58b2 0x4c0e3c497e96fa22eb28b7671987d1f5d6449bed47a3bd5f148071d1966d668e;
  Dbl 0x3e9c44202ded3f57bd827d257548a51c57435af606c876569e63ba0b2d4014ae 0xe6cdbe2b79ff55fb5c3cb20855f6be0c41fbad7508d3bb6b6fd04536a21e47cc 0x67340c1065e72040a87152e6aac88f2a3a2d16bad9ecac8cd90402336862e37c;
  Add 0xa7adca27068176a470eb732f26db014b86f392782cb86cb992ffd28afe35410a 0x80070d3b2af9e402b9854ab614ef0d53b621d91f2674ec702e2e060b33376055 0xe702bf706a23a12f4ab149b74a609adf2b9cfffa414c14cf7b851a20a0bd06a7;
  Dbl 0xaf21f1423a237c092a1b58062adeb9282898821a33463b94d14fd8d373d71790 0x2b941ffbaa5bcdcd8856d2ea1ac7d5157fc2f74568eb4df27cb631ef531b8d09 0x5a2e62cf52e53297b492dc6ee4fdac03d367c7c39abbc35719ebf5c233cbfd6b;
  Dbl 0x27c09c9f6551436169bcbdebf52dddd95fa246970a41a2508873fe258d45c6c3 0x52ed192d112ddfc13c1d80e450f102e2e934d3ee84e6471d775ff98ede9a548c 0x9b1775176e5f94f16b8e130b7d016734280e1743cddc809dbefe62b249487cc;
  Dbl 0xe1b32085476cecbac262463f518d6346007adc5021f1ea0a32555026d6610447 0x446a85775513fb00bc212b9e3082b96614da183b666a0be8483ba3cd1f66f9a8 0x17ac8f3cae2a768ae3291a6c36fc088da56cb288b093bc34491ce9f44f1110cd;
  Dbl 0xab0e04b11b8e5ad5dcf14be91c238107751e38f6cbce15cdce57cad1a92f48f2 0xf856f295e7437fd527540b012b7838e9c9489cf11d00a5dc8e8e4a7a101de413 0xec104d07f6b697c5bc1e61f4b539a870ebd6934746b9627f0c84e87b8483b183;
  Dbl 0xd189cc7b7c48dec5039a46627417a7dacdfc88f1c36bc395cf2b18899614688b 0xa4622af1760e6018e8d23f35f6a475fd0ae9f390268a63333a8841f7eba48a6 0x17270eba54b00b4fba2ed2730f52a45b5755f4875b83f3b3686139bd58b0e348;
  Dbl 0x389d2a8515d9e3676bca5a5fd92e07bf06f03283b7e93de2ad19c91ba53cfe6e 0x1a1e729ecffc4f167ba47caf7c298d75052ff12d831946d447ee078e2abbe1df 0x72a16f8fc646d865b7c3ef8bdfdbc1337f143df4705f669ee1fae70c6c914a6f;
  Dbl 0xdce532eda1e9dfbb1acef5ccbc0ba26491e94dc91a7b72e603d725d83d962520 0xa53854d6cca1399d4c7116178da3f390b136886077c0cc26381684466fb5ab 0x98e548bde824858a6725ea2ffc74195596203dcc37423c8c5a4946e7db71fa76;
  Dbl 0xffcb3e627b408f81aa410245b0481389eb0facc6e5c8c8a738970dcf6eb28bf2 0x58b1cca72b3271060c54e34170623aed39749ba326d0ad38f02f982dcce5f36a 0xf468c74ffe04895957d3b1ecef7ba42b954e39f0876347b014778487e4fe3dd2;
  Dbl 0xc31c527f1ac590660aa843700941bf43ceb79e969b6123936c758c05ede21c18 0x8e3f8b7189a0ca71860b3961f68e5c9333b9df9d631addc4c6a5dd65756dda99 0x7a61bd857cdbba553f29b8c98491edc77396b1e9c6c2b2dfee7fd8110b03adea;
  Add 0x9b62d49ad5d9c8aaa1c6e85eb5cb15f6c08edc74bd5e4f7c133f4e7c0b6f8dba 0xe5e355d67968250da9e70c301d5a1fd6be1ce2ea0fc18d9a93b444eb0ff6a154 0x57ae69888f392040699d494d93985504bd3a7a446fd5889dd02a09a6c14191b1;
  Dbl 0x7a4456b0806683fa0339880e65c82abe93bf9a9517a0b597ae6fc34dbf62322f 0xf5586cbce78c22ccbdf4fb26c0295f0f18750953585eeeeceb9464d6f722e2d6 0x16d7777da85fc53b1f75dd6766183ef1d39d414e58aa85b57635eefd5ddcd7d;
  Add 0x10656d0818231125d82e3083d67a00c33543e3c3738599f2cf74d35b6282eacf 0x73401b104b6b8bbf2c82b9b8ea8334ec43811103988c523a1dbc0fe2ed7e70e8 0x179ddaf64f4e627217d8d0886153b65b37a137e055860ed3564f8d280e2032e5;
  Dbl 0xae80cd4ec89d88c584fbdeca23808504f8388191f3d378fe2fce6dc76a046411 0xe7e581b44ec568647f6e74199860e250aa15907ba626adb877705d51cd10bc40 0x1d3e7b46dff0439d26d984a07853c4a9140d232ff7ee8a2ecc049165a1306b1d;
  Dbl 0xa86b66b6c7f2382c2bad7265ea11283f3eeb9322555bf49ba7c1c7079d064e2e 0xaa9b5c97070a34eea4a306b6b2546feec15e5bbfe9b72f2b7ab2a9a3e1aacb0e 0xaa3b1ddbdb082cc53b1ea542b8b12141cc6870598e8f1da68d1f7f89629a0c58;
  Dbl 0xc123ef84cec12ac43c5e51e30ba78e87c6165a1c0ac2c7de3ccdc20cae5951c5 0x922e4d5012298a763a09a1d1c143ab1841ebe3c84b7bbd15097b710b4a696a4b 0x8b05980bcee62b3fde2d3f467016b248daf2b0e53b1b6e51bcc8a22b66bea84e;
  Dbl 0xc3e1ad20f4aa220ba230b01831c13ce4d8d7bd6ecaaaebcb406b3128539aa476 0x9c42b57a9188581c9266b9e899dff5d60a8063bf314f3f8ed89eccb5bd53b7b4 0x4e59075a988d312f12fd7adeb8632e6bd14969ed9f2996c50ab0dc007eca637;
  Add 0x287fa9a632d01a82c8af177c6b485072582546aaa285f76afb5dfb19e5b4baa0 0x8b46ab1d136ee4cae8b501171afa1b84ff51521bcac616c4365da494116606f4 0x8cea41f25e7fedde91328b4d312bc5a09be99fe6696a95f718fddc08ce81eade;
  Dbl 0x2dd26cc31060c5e59da84a5b98493d2daaf8f174691897816ddfd2a9734e1406 0xce17ab2ccd0fe9cfe9c336f80a835ff8ca4b606c98cdaff3d30abc3875331d30 0x4c8c9dad2cb2f300ea1d49fccc2b11468f22f38b7b85c01c06bdc3b4f5e0b9e8;
  Dbl 0x2f8477fcd08b42a7b9823a79b5167f85e0441ab3d688ac1b5ca6079c02bb0e2 0xca74f527b31969be1585da7b70d7846120145cee6005c2663ff0848f0674726b 0x8d546bd39950c0a5033056bd6279f854f0a6ccfac1d17018b38fea2903487b20;
  Dbl 0xdd956122bdb83bed6c1607caae839cca6ea478aff20d3ffadf08d964addb2ead 0x68edcfdde57a4b00af196497a1e89e16d409d2d6ca1b64fb6784bd636d0aa454 0x448ee102b8a451f3bb61e61916fae1ab92048ccaf87eed1d1dd98f7a35e26069;
  Dbl 0x4a2d64b03f48510bd04cabca51094f852e5cde79751375ba28e09e3139eb9faf 0xbed8425755557a6d8ef5a3954a8f62e694c54b437a7cfb2b94838a9e5269c2ee 0x963eb5667e6ed71a38e6cb3caad0498e8f76deb0b84b09a233ebf8b004966985;
  Dbl 0xb78f71820d386dcd0adaf50ddc379d4620f644ab441310f7a45a13123edbcd11 0xcb37223a04d6dcda518b66496e8ba8f79d02c875b899fd88714f8f93650028f8 0x2a4138e148d80ed402a12ec30b3e95ff89756981dffbee003b2da62d69d36002;
  Add 0x801bcccded370767b6317447accc6b5e57e9714153cca917c18bc1270ee6f5e 0x3d9196b0944630063ba7f7d9da03bcb7dbb731d7aacfb948e4f35f72e717a1b9 0xedf3a032292a5ebc832d35ff00f6b65964ddde1ca6ead127e7270e5748ab2824;
  Dbl 0x7f24643636469872124aaca278de6f8489606edc109c39bce662c4639c91b8ec 0xa75f6a841a194db22d172367f166d8bf03ac16c580aeccc1ed4eb90875d257eb 0x4a03fdf753f59e15a529b6c6803ab7ce0782fb94404005753f88026ebed65e16;
  Add 0xc1b9b42069ec8693456eb2a3cfb9bf91ac3231876551723abea86e0d4874d4b8 0x84eff19fce94aeff5da978b986895bfa90235329a095ed09abff24af3877f738 0x13437e5b9c439c9e15fc71b6a66495f54b1d060e8e0a3e44a4db82a9682d820a;
  Dbl 0x832f0d25ddf6f2a2a2e4771e7271d3282bb22d21c79be05bd61d18a8842c000f 0x61b17d56a83714cf64338cbe5cd349ad0f8d8746408ffb08a73ca0b501369eaa 0x5bd4b211fe02409c62d3b74d895bcb521be50788ad97e7995a3b520a10c8688e;
  Add 0x80168c2610d0c2db09f81084669feb53bb0ac54c501c643a105e8b68704dbe7f 0x1cc03c7d22fda98c7835d40002cbc747fda1a61f514d7cdc202237ffe30d35c5 0xef586fca61faaec5396ae08c80399052490ee1f59a884897949533a53a88aba7;
  Dbl 0x96e810e6672761037ba9c2b1e4bc3800fdcdee6ff220c7f4e2b577f89e512730 0xc384c753517fc5e09213e57d7a27d0260d47c2a8151d83869f4e064e670f095b 0x328259d396072c9187d9f12c5aea5869c760268457b55990f9b64064717953f8;
  Add 0x98d410ffda2e678dd639122e23eeb080a9896570ef2c8fe6ba4fca7764d5da36 0x13e55f17e8fca6d64d9c2e8ef4ebeba82c9548f05a62c7576f1e662420614887 0x47b5ecf3829d4e664bd64a14cc0e65d5e8364c6f635ff420470c5622e1970868;
  Dbl 0xe1c770192988621519ecc15e5bf9edcf8f843625dfc9c933883167b05782baa4 0x5669413e59db5056023ba1726a7ea9738feec4b728fc88138145722a60157b14 0x1b913e6eb107d02de8e9df76b14cd05a94d547e5071837dc34e8398b234875d2;
  Dbl 0x781577b1ce47aca791fbb54217371f7e587ee719edfb70fdef65dece5a6886b 0xdf53f4417a88b282d4f21c93fcda1f342587c781b7142f9c2ddc927066f64f2a 0xf88e701ef6f81c0367c17573c590118d7d4cceb9ebd39b01a7310ac697a2becd;
  Dbl 0x4ee268378845f94384908b7c529dc930efc37eb374581776d0c7ea5ec2ea20d5 0x6ec4269ed623160c5aaef7a58bfa7d7242632c0f94c323c568057e7a9e5c2114 0xf46661454a63f30f650922ce62f691abeae48fde591100c80c192d3446183196;
  Dbl 0x9b92e652b9b32f8c146d0c31cc05cd9e08a20ee259f2a35bbd966dbe9ce97cf7 0x149171d7ed60288fecc21f9271a460680d573d43e4e93a7641c37be1c56e3204 0x44eb978723bcf4fefa2b5a0c5c2009332ada23389ee9bca63a04e7f492a1b82e;
  Add 0x115581052e5a67294872af350d026ea2151548fa54f419b95d4bab536567e30 0x20073ccd86faef4615d9fcf3c0b947f55080f0b6b252e1047f7b0087cab0083b 0xc6424263e3698f3350b6d3212e1e85cf7a7c400907b908bcda823cfb369487f9;
  Dbl 0xce0d9f8192ef6816e7121f67b93508683b32c2390770f8a03b1c472e412abb5a 0xe7c050e236f28e28c86e101cb4520433706377c9ea8105ee9fdb3d928cdd5343 0x56a768e3568366d6ae89681ca79326295d52620ddd9189ac1f413ca6f6a5fe82;
  Add 0x5b484a485d9bd2a5523db63d0feaf43b6144ce8233261566d034b3ca051c3c5e 0xffa16a090c6fdeeaf2326580bcf52bab7ee5e9383c2d1cb005495b60eac95e72 0xfb0087c0b5b7aa222ea9a33075115decd8dc42c9eca4e9c48f7d46f41e226037;
  Dbl 0x2927267712197e516f898b307800f24967e0041cb458ca53644d508f10ee8bf8 0xf95d4928a3f3a2d8f7907fb2c90a59c52107c2c6899500f1c1403f7a56d67eb1 0x8951531856a5351778ad3a1e352bf10bf8971900277c3649794c2a6cc51035d6;
  Dbl 0x3eee56b4f4efdcc0c117d0dacb4d1df9d9c3d070f1d8539138beae62c439d8a4 0x80ba1213026b1c7fdd3368cfc89df477217382f26fba7b83b63d27420d77dd11 0x5ea3b9ceac86038270d8109909637d25cbf6e9be8ac4191053077bd67679c023;
  Add 0xd731e941d7aa83250b0d05ce0e1ffaef8d449768f4cc0df3610b7ca6b92e6cd0 0x8d95b4c9d169f2e8281d8e1c08e628ff5b4ef58b0085f7315a940076dc75947e 0xe1dbe9a5431bc146465a9398beaeb811f46e5ed57f0a1b80080e548e0011636f;
  Dbl 0xa09633b8ccb21c22cd95ba4f3e13560371b6efaa534199457784ac7f11dc4f22 0x12b40bb70e0b1d9d4b6fd04723ac94f95e3e8e4c7149bb8267098a5bfcfa8072 0x916fd2ef505b48a9cbd6d15782f62446d73c10803a3a57cfcbc592c0212e3420;
  Dbl 0x7bede4a450a83d99a4ccfd794898b6045b09d7f2736f6d1803f870396bfa5512 0x67a8a7e909f7cd7001e479a46d8403dd23203d17284491b5ee43ac39e53b75b 0xc0e402021503ccd0ea3915bc03018cdae3546395931ea95e42caf8ca804579d3;
  Add 0x12f712fd3cc1456bf9899ea5058af78cf617700de88472080e757ee4c6c8b2f3 0x57582b6500daa3265e232b8ad805033fed412c3334186e01aa6e828b4258c12c 0x13307e6a14b488b3c84cee4691e3f555e22f3490bd1d0ef585e5dc802d1e20ec;
  Dbl 0x71c0cf6e3f7fe59e83da07312aa7e39a5a8bafa78c0806472d5166e2ca0d1c0e 0x6e186491b2bfb50f19799ec21d7c6baeef76995fbea4ff41011468be9c6982ba 0x2f6350a1a4e94325412f862d3f986d1b66f9211decfa0cd358bd4fd3ee150e05;
  Add 0x24738605ad7684a3795e007d32a9e09efbd83c24944e5d28ce8be5440237f911 0xbf6b9c00aaf3fcdadbf3b98ed38c2af706a2958663abeff96147acb32edf1f2c 0x6f6390826f37c9a8f1289db9402ca2285531fe852abbc9198c2d374e891a4966;
  Dbl 0xb61c66f2e654bba69800b9fd6806f8e3da0f74cc355354bc96ebcaa0a89f209a 0x1b836a0d04e67e77b829a494fba33a15d64e4b71e74338039dea1e5895ec812c 0xba9e84edd4276340714b73f5e26d925c6ed01d22e4708191aab578f70c036c72;
  Dbl 0x2889ae347f2930ae02da7b90790bbb5840047ff23bd49c6eca27f7eee4baa39 0x4521034d6c9d38c81be79ecab4efc7d0ccff2b6285d25b95ee49eaac1768683b 0xf22f1d09633d1d9d1a9fe0ed9fa7da312623e3386b5476afcfea97687a85c516;
  Dbl 0xdfb899b8d1ba0a86815857d8268383115cdfdf5526c17ea37517f5e55189b43a 0x3996c9d06d805264cce475924540962a77d0c143c04ef713cb28331e7ce61b7e 0xe62775d217eec0010ae279d77c43f851219316182344fb75bccb7b2847fc565a;
  Dbl 0x1a39fe9cf97ba7d5903fd2d1e72a81a5607f27fc6928824d7199b8833140cfce 0xf03354cbc19100cd4a55fa2e5cb19602f07a6df383865ace3734b2832dc4b9d5 0x51e2cecf011a11bdd5a07eb89543dd2e7ee3dc581e47e3102915de17af807bda;
  Add 0x6ac3f889886c95d8ea7e09abd079fa073e13abf3d78a08056d2ba034a26c5124 0x5c46f154a216e7c3b6c81dae201919390be2235fffc6ae39191a778582acdf7e 0x681f202c91c34b67ffa7f8ff72fa557821d948a2929893dee5e2866f3bce70ab;
  Dbl 0x86a2c4fa2474e891974a20989c7b37bfbb26c47baf1d7ec7327d601851b89037 0x91f41f8d4fdd115170e915605d7f8ad394a029e7370b2931852a9e4e9d14fe37 0x6a647293da372965ac1de604d7c49a5f125cf86d554eda628a7356b39319c3be;
  Add 0x3b1afb142805b13290e888330df3512783f15ac5782030a0dbc76fef1eaee44e 0xd75bbab8f85d6498a39382dd470143acbaf41198a0789622bbb75e0ba3d70d29 0x75dc4fd80bb05d8acda42299fef18764be833ceb54f24059d69665f37e1471df;
  Dbl 0x9b96eea572b7df46bb3da170460d3d7cecf0466cb0ff9a14bc93e7d1ccabc708 0xecbbeba9bd438631cda0174dfaaa29e8e9cae8d56aea4b03403d36909abd32de 0x5f145756fdae9fb821ce7c9581814f0ad0f4d783dadfa3a8e5ae409b8f805663;
  Dbl 0x6a31528afc8ddd4bd78a444e0eb0220170af7d5b967305e577ba7ce3bdb59c52 0x69a43248af8c8129655a4b3fb6409dd9f794986f01adef3afa3514d75a757028 0x7d14e241d18ddeaa6700f12164a9f6c9d56a49932018a5c0ad7a730b6a4042b9;
  Dbl 0xb144865f4254e87576c76df53e51bf21fc470775c8f61be426840ca54c83cf97 0xa78d88e76cdb625b626a7ae3102545bc50a2ba74edbba50c0ab19e3ac03d8dc0 0x9fe19a0d1c8f4f9794a0689978c4799ba10c603c235a935ba6371e043bbda0c4;
  Add 0xe98a60e4ac66f259ca732370a3ede7dfd45bd49428c3f46d3b4633c644d94be7 0x454b96894003859cae010ba011afc513c8eb2cb18e8dd9d02e41cc3f290968a8 0x9ec384ae25a2a2d3f29c76bcdd10f78e62f93f906bfa97c3b02d25d0c44c6be;
  Dbl 0x7597da653fc8986a0ca34ccdaa202af5b085515c1a986e2c2084c4921599e8 0x5bccaa662dc06bce595f00209aa569d1a2262ac620ea84a5fe2234938d837355 0xcce6f7db40fe1332517789ed3f73c8405b135fb38c86ce7ce4ded7bf078695a1;
  Add 0x8c9e5213bf4b845f86f8d37c25702dce5904bd253e6025afb13578ffaf5a6fb3 0xdd04720732d7de3de2778721412a23119eb901d2f93b9024c67d93c5995c45c4 0xa3b07984aafe83a2d7eebbd6c6f960f2b56329d729f4806c76f07752cb5ae3ee;
  Dbl 0xcb25197acd1515eb1af9fa8668ef3c9b5cf49a08be5360dfb5c8e4fe41fa369f 0xdcc6e33d193249770d5a740e1c78b8f4e3b83d3bc784dab94e1c26bfba5ee7d1 0x9d983d88dd6524f19652a923daec246a9679444ecd10bc722f5cb526b6f79dcc;
  Dbl 0x3ac0a9a91aa1065e6a32431589210a998e0ebc13d1b4043224f219ab19fcd59 0xfe77ff3586270cccc7e03bb6ad70b8b725c70467193e852a76f4825c47b70460 0x25415c85c8d1aa813fe2ff70b2e6efe9474e9cd574548f36ff4e3fa9f852c896;
  Dbl 0x84264246e10cc6b6880834490920b3280b0b864f2319e9edf34d0a903283c3d 0x20b8542e74bf8c885b2b50fde4a5f11f2df1b91dc63c155437a24dcd1f9ec134 0x976cf8423fd4e4b894481347345deaeb0aa162dfbd7204001d3e89780ce150e;
  Add 0x32857a0dbbece1e3008a1edec5082229e83da0d9f31e35715b2f37927ed58164 0x5e42a2d6349e8bbb8a45783c766527d369523eb08993e97c778daeb09c2e83ca 0x421413bc275107ac3a1b9b7b06e9d2673398f3d07db16672220ff4f756b9f9d0;
  Dbl 0x7d227212160ce40b60ac0106d3afb78d3efc5113b02effa964e4de812fd07cec 0x63b675e6be22971d8bb7096aea222927ac3140c45fbea44365c4297f15accb2 0x6a0a44283d63600c5bba9ec9c170d9caf8f58a0b1fba972c206bc340fc63cc22;
  Add 0x75308eb5f973b8494d4941d156783716476204454515c3ebe4e336c85e4daf8a 0x8f7c8490f1f2a91f41a4466fb8266b9494bc26495b21ae639ca5ca8d5e4c4c10 0x4e7efd6c1f8654fabb99e6edd2be74d42205dbf1a7e8c1ab6d74925555c2fefa;
  Dbl 0x6e7955eaf28cf9e674703013ee64135e8df27990ae7f96a4f275a1e947b359cc 0xa6eb6b74489b7738336f3f362e4e7cf75e69640f71339e16e0e530a3c525a513 0x38149c4a0c812c84193928988987472f239c1fce51af9236819e33f2b070f81f;
  Add 0xa0f88d6605c57cd49038e246f5a1071bbced5c81d8f85709e6f3107e3d5172d5 0x2fc681f33b35239a43839f974b5f53d0613c8b82c96a11a0421fce343c9a817c 0xf741bec950e5915ffd9dd10cee931f8677f1a21bcc98f3aefbb3854dc9003136;
  Dbl 0x1ed26b8a46d603ccea83055692dd6050b26c7f206a3f188bb496bf31391e2c88 0xaaed5e2356a171dc7540b6b9d390e80ffbbb22c4ce9b6e218f734e26a3b36330 0xf932a2a90d51d10c92617eb62d24ec5aaf511fcc647de461cacf03df1dda8587;
  Dbl 0x46e12faf4134a84e55d6e30ff0faea3aea3693534d5526d2053fa7aecce7094 0xb8612b8dfb90cdca37a2ee4db9fac7eb78341c985b399479f52e878f86f074 0xe03f03c417f7ced6209df64513ecb754e31c5dd40870a0c5abbd2c937e5fc822;
  Dbl 0x847f21d73f20f961992dfcf1597ced14eed6685731136e62f812cf138cbb1df5 0xe5bbf1a59cb78183488d6fb726f661f00393925e14062cbbc95bc8417d1773ce 0x94e5d7ccdcbdc1b17f82bc7d64e2ec60a66d044d1bb4b296de1a52b37dce12e3;
  Dbl 0xbdeff913879adaf2d012ebcbcae94fe0b959ba12420afe4b692b2d704d6b5563 0x470e90ca8478f3fa9377b781161de2c9a93b059316f54d612b3a90f44fbcd3b1 0xddbe735de6cc366153fb5f969d7c02d4cd3cae68901dfe406ebe15450fdbbbb8;
  Add 0x9bd3ef4189f28a105e24e84bffcac8fe53abcc10f12f38f9842cbd154707f1bb 0x42f6ec7e976a03fd279467b5146d94a0ce438860abc5059f0e5a43d099c45f6e 0x31d021f8c97cab5fb90b9789a863074c1089111497251378e4cd81f764da1ddd;
  Dbl 0xf599e8b9599a0bdc2b59bf22f22611d43c4104348df540166f2b00e0cd3e5ebd 0x2b33defe8102774bf4b3d97d9f3dd8924bf402c78ed8ed2b911713b1c9f4e80a 0x75d1fa67c6700820008f4ebdbdc205941886485af237714cc289774701e9872f;
  Dbl 0x89d6d8faf9d52a270bafdaeedd6fc23385fe81f2b5445b1e120b182e9f37cee8 0x3a7428c39864a56e9f1a88c0b297bb33e14488f8f013c4a8d7cd99e0cb89c649 0xdf50558ef2947ce3474addaa514b0c6aae658874d1d86bc284725350b4925c89;
  Dbl 0xdd68d97cd8be168469dbacb424266d3658ff71221b8cd6518e8434ebaa1416df 0xa739801336a4ce0ae191424d8f0cc906d1ff1f8c13be07b799b510364efd6c20 0xbd0409dc974c9650af4ba28351fba976ebff9c7e31655b2dec48d19f9726d3c8;
  Add 0x6866428d115782c7049499ec904d3e0c563d131454da67b14871ecbe8032601e 0xdb65cd21f8751ab4fef2bc83b6448ab9fae141a8cedad62d0afca055b31ae3dc 0x458112639f0d922404b9f6e232c6b808911f5719b34d5d05ba6a11ac17ab9822;
  Dbl 0x9263bfa4e257a493effc313e9c886df6864e908c37d0cc2cf914ff22d1f5fecc 0xfcb4ad6ac669d827730b254c9d778c58a2c7c4a89627b7d626ba43ac45d42b31 0x5df018956ba9ea64d5d66088a371bc37623c821f493291eb6ab83c9a600d462d;
  Dbl 0x7d29b9c0bcc4a22a7c189c8a5730e1f39e93eb8759e2635b05d2229ad947fd82 0x9e34e32435de59a84acf6b0ce591a207f42165fc2539ac0bb7acc6a70adf2501 0x109bf4710171916a5019dbaf1f94b6e55fc3a771988868c3e895e699f47e189e;
  Dbl 0xa085946906c875b9360c27cd3ac3e14e75f597c3865e012870cba96aa51090dc 0x4e987d9933312f8feea4e6c0a7d5b65844bf2773bd45d06c5f368ff657747dfd 0xb0744c8b001425cb954d08a2a032848c0857747824dfd4f52e752ecd99fc517d;
  Add 0x2b9ee50c27beb4df612e20a84cd6e4767508e0267ed4036ab1a15b855cf00566 0x2d85efdfe80fc60c368e61539dc4adbf5fbe79d37d644d30e56f5421ced424c5 0x78aba3ed4e417e27cb092db5bb150bc7d355cf12075b8fe19053b55c97b864fc;
  Dbl 0x3ca227e658a9e555fd9bf4e92bceee0bda1908e6ae277f922a0fb051ee9deb8b 0xbff7d56dba6e03aa54acfd9f890d7cbac821d067c0fd20d77da8d5ee24e1689d 0xfe293e77575dcef9d72d7e041c784d15d27a672a928a0fe09694c183626634b8;
  Add 0x6081cc40f91ae91f05299f268a18bb0d2f167b6d7cfec0b848aa357a04088642 0x3b75d64f3e3a08c46c5a2a3831856b2095bceacc1fd68068e820ee6b8dff6ffb 0xb9ce7467ef33b169ca708695c9c1f570094f3076f5ef4465c1190a7b9d1f5c81;
  Dbl 0x2b544479769dec0ab7f67da4e80387c8e6ecd5d39ed0a5cd7084432a71913cb5 0x40d2957a4c9ab3dadf52fcd3785d1541b923e07808aa63cc6cf6e01bcc78eae5 0x2066d59c8ca71447095143ef43ea3705a295b3f5ce67710600c5495baaa45c89;
  Add 0x6b49f2bab2142857e4c2ef6838a33d69cd3d08c3360de571f5bdf241762a87f9 0x9e9cbd7dec30930ec46be334a043666fcd6e329f834ff734303d444a88f481cc 0xc1d17c8d966937e1c1b053bfce49652c0dee37367c5aa0d84030506d1475ea02;
  Dbl 0x1ebf08816d019f193d168222efc36cf5a1f2541895053a52d1ce590c61b20528 0x50e7970b282bdba17ae6dfea837a7e3cd2bf599123d6efcd88cfdfa7acf6e0c4 0x1ee8791eb88cc867c5159f1aab124b960510bb6332ab8da78bf578a3cdb8d030;
  Add 0xb915a1f5790dac4c8a89cd73df074582687c34ce79f4ff7ca5c97c77929ea9a1 0xe0772fc79779b348d9da241cd3eda95d98edf5dd796846467cc97886e199b9ec 0xacff9c995332495b74cf1889312d099061313c9fee6a54635d54174bbff84a1;
  Dbl 0x5b5d98dd00f7dd714abbdeb93deeed5b1c123d8e43e833e3185b20cd2eb3fc3a 0x31857fd63cd2fa3902a1e8cca63f25ec666d1c5959b46e40a13f7aeb233ad0a4 0x827b7432b554c72be8eba1354fdbe392edcae756a7df4b382bc22a09eecd5fbe;
  Dbl 0x2403992aa3059815380e51e8f6f082a65a7f9f739f586c082a99f6b5fe05839e 0x3aad08cddd21d9f4b09a671566dbb4af71d0d9c213b5071ad2e5780e9de8bd3 0x88dda2f5fc524355f2bfef4e59ee0f08d0802f8de32cc3f3acb280f928aa1132;
  Add 0xd71d8962f093fdfbb8af74dfec366d24db2687fa43d918eafb2ceb66a3d6beac 0x3f8d1cee15fbc0ae2281c838da797f607df33836af745d1bae90c0554ee886fb 0xd046e4bc97dc8ff2b83c79982630af586271028f6d32139cf66c5655001e6e17;
  Dbl 0x306c486f1cf3792059bdb0537896108cd77de7b586b8a6093dfce341bc1d3809 0x9af8d89fe7fa22d3bdf8da785dfa7babce97a2434aeff3fb9c7639975b298d63 0x6179d38d27d1cc73f61b818ba6313e35f85def0a2ace4f3039f3f6d3225bdd03;
  Dbl 0xe4b0b82a4481fa7c5cab1418b7c3a62b8e9a040f1ed1e1be088ab1107fb33eab 0xaec2373cbeab86611266262581cd3d39de382fdca69ba288dd2e835768ed60fa 0xdfaaa138c851391c3d89b8e3e3a84dce6f48f0765a288295a768232004f0540c;
  Add 0xb73c29246df4082b07caf2984aaaec823c2be0a161961b7b30613c91be194219 0x6f8209faf872b9151cafa7961568996d6e7c3cb20197d9d316079aa0a88aaa15 0x45304053fd66c0e52f3a74df5038a20439c687586b4f7d2b9c2d37f09e20ddae;
  Dbl 0xfc09149f5f2d95df0d68c5880507e624ea0a5a3115c56d06a5d5189287b6a92b 0xb542698e5ada3db1111440906b09cab6e2908c0a2ab5fe5231f05368219eeac9 0x752fe1ff5aa1c03f754405164f2f6464b5233fe3c8c10e32c9a23610c93a2c59;
  Add 0x4162d865c50094df6a2e909b29c42e866ac53eb6fe7e034e87232aa485f11a2e 0x866a94b8eb9e973860cc11f6a934b77a695efbd903ce2ed88584279f0cec334a 0x13b616ea5c58a96a4187d5c993ad6f1f6ebeb1193cd618c09d9f9d8b153ec7f4;
  Dbl 0x6637b2a26aadad489b07889ede8d0fa11aa60c42170cd3d415c2aca817ec9beb 0x79e456c4c75f708ba5aeac57248d57df3017bd5aad66402ac1dd7f5095a7f829 0x951e7db8b61ee177988a93981a120cfae3ba693264a88dfe6483c6c30162e11e;
  Add 0x3a43f1e6fbe597d043d7216593b854cd1102e3836be11ced1cb03c2b682b3afd 0x32dc952d110c3b04f654343ee68cbe8e6d284b8631ec3e5f0d7b3a160ebac48e 0xcae4ea9351e4d05c8be231cbfe1ffa03fc9cc20626068e842db0fc273b9c50c7;
  Dbl 0xb401b50c491384e527a1401b36cbb0d53efb7709026146283034977de4baf7d6 0x26c1b6a7789e00866b5abd87bf5b158b26140123125f2e006a00a0a79aad7424 0x774a6bd5a2915db4836c45b1221a4288e25d1b0b2e806d7e38351ebfaa9e4e00;
  Add 0x6c86f554d57c0d2f3f3166d82723bf2d48e914cbb33c37a61ee276972ec12e28 0x6101c1e5cdb1681468d8a82268ed67fc83022f044bb6daae792578ca6c1ee7ab 0xcf993bee70f5e2c3a9390bd0be0db07ffffa6909f09f4256ab6ea580a7e2a230;
  Dbl 0x73d462a413293c8a4c268a4decbec81d1a2f8fba51dfad36da582cdc5a9523d6 0x63a557ceaa16155cfba45519504e6503c4988505d878bab2df65c635b816e33c 0xc50e8327425e864ec149d489f7985e1129b953d1e9f381e5a94a322479686311;
  Add 0xd67fc3491bcabafb12120cbeafa40c84c0699e692e4fbc7abd10c5d2c2dd8ff8 0x2907f0c454fe48b6ce8b7696a4fe0b4b002789575d95da9d49f2464ae325a348 0xcf284f2a9c1d150519623e87ecd2a4f235f47c04ed2cb7cffd03832e815f4ea9;
  Dbl 0xa4501e510b5e75df96d855e910e52e5838b4d1e39490ca5fa6f98e0308456a1 0xf93c7eec25b39e68aff44266a8d8e3e06beab628a83e49869198edd8e72369b6 0x690b96dc6c02254e57e1bdbefcec810d123d28029f85f93359569d51be05e8c2;
  Dbl 0x1fafd5090b99559096ee7b67571799a44971c27b22781743c6f0ecc4b730f42c 0x53edc81ee00c4f11f57d1714e04543caebdb2495bdadf3322a55e72c90f92907 0x22c25939529797dc07ce5913c17d8a51aba413a5283dd83d5ac397a8bee96396;
  Add 0xe4ba3b690e3ec925f7f974de039e8457429f2e6346b11287c5b432d273647608 0x54390322a9b3826e9d7442f33bb40f667a82f78edf084e9df5c391e4f741866f 0x4ee60b57804889261a04cbacc931c86ee81f05a34a19b7594028db8ddb0d8063;
  Dbl 0xaf08860f3b30149b9e80d15e2a7a1ceca9ac627374ed2ebd607b7e9fa36967ff 0xb86fb67e0946a182d3fabe44cfc374b2a0bc085d42cca951fbc8032f69622e04 0x6201cf25a9ff17ca334124423b149b979a02779bcd6ef429ee79a1fe19e646d0;
  Dbl 0xcadd4d8bc661902fd260af9c6c21577c5632e95a7fe566d7d3f18279d968fec5 0x4dce40772eaa69cc17d7bff6312688add01981f7f64e52c9bc666c7daa5624d 0x40982c37deb8dd8b23d350bd75e0a22035983e9542f4467e2e734f52d04f0bde;
  Add 0xa542a41a586cc10817dd6fbcf86d7e031dd8f908df5a8e212afc2df852cf26b7 0xa8c02c264b69f310d846f78899d2d9df06a97d83908586833b4c791b36443af8 0xb9757bd847e0beb2cce1fad70468fe3783b1e1996e03e76b2910b8e4195a053c;
  Dbl 0x1ca69e950d6b7ee0060f8621ff756da81c48ddefb0df212a4b98e1880463eeb5 0xf31e9f56ad4e1dda5ceecb8f20bb26bd6e6e1b5b3ca20b2131510db91b50e10d 0x1b3f8aadeda5b7f00bbcbcd5bcd2610b4295ddaaf231e021861a66b667ebc8ff;
  Dbl 0x9e35a7eee7bc085df4e73d195d44a1fd41e3ccb3767aff1c81290db8a89a6307 0xf34d7c98c12a890fb077e1d89efe4f77a6ca64197d03e2771d98cd2758ad4f3d 0xc035d4e21700032bdefcccccd08bed08c91bed69fa5fb5bbcfc303deefcdd8dc;
  Dbl 0x55f05facc730ea9ee9702c0b9576d310f1266022edf46bb4571abd101602a02d 0x13278b69b12879ae15784ecdd82b62c5827cf626ae1c81d2058fc6024d2685ba 0xc70bcc192101eeffc22c10c337d5046d672bcf02894fefef58654f95bcf4bf78;
  Add 0xe814efa1acb3e69e5494027999a1e4237d8456c75dff19d93fb1b121c57f90f0 0x1194b8a06cb0c0df1bf2e619cb7347d7677aec112fbff34495c415329312f3b7 0x23ca2ac879871bdb98982bb309e25b84e5382cfe68b89aa5a31034495fdf0f3e;
  Dbl 0xd05f01ec1a42d9f4b8b06c50a72f79636533e1fad0feed935edec9da3a2b8634 0xcbef65a7a781d3266899d670f222888416e496550a5b221d2e5fea8cec21d308 0x2dbf11212eb14f53cafcccff532bcdbff591f136e1927e78757e7f79b21e7ad1;
  Dbl 0xb23b2689d19d53293adc333b3b0ae16226e9a0fb47cd73a0b355fdab17eda768 0x79c7eb8947e18f282d0fdab2bb09e68885ff1d431546982756bc837a7eb72a09 0xf829b9698ecd841e61cc24574594911f78b107e97d72ddc59e30c81ead438eb0;
  Dbl 0x95d5df00d56e457265b955a11bdb47bc45491006c88df61c04651e9f06eeb7a5 0xb751e058a8e494bcc67d5658b4e6177241b880fae52465886960f28085254bb 0x26f6960a6b275ce955c6f5c3a08399082d923a7a90ff3c4313544fdd52726fa9;
  Add 0x3fd1938fcd647dbd351f38c0d20c73bb2317b74e156f67b5727e5044c527965 0x76614b1863d0930dea2dd5e1177167dd1033d8f1eeb7f0de0a3490640eaf26c6 0xe5308ecfbad8d11154458132193f3063474861a6a2a0e7fbf1155adbede3eebf;
  Dbl 0x34e0bf4009c5583411bc92ff168c324652418b5f31ad1fb7e9292e7feff4b73f 0xf72942b38d87463fcc1b09276fb0a5edf45fb187f6ae2fd7a44c65e681830694 0xf794112285dcc8af9b587f4d890d6d9617c8d96c2c5d13e562a84c1a9de3f116;
  Dbl 0xbdb5626b6a0d030f05c9d062646fcca396677868cf26750d6db8690b2c0fd11f 0x8c8923a698efea66e496fa10713511cc7213e95d6b1881e63234c0c5a1030a79 0x56252da45f3c1708b2644c724ea25a907fbf5eb51e20c900778d0d630c0221fa;
  Add 0xb1b1304d07b6413742b0e095f05594d0c9138eb715da37b714d957c89a96e8d1 0xb2b81745c1557031273a31b1496e911b0f7bc798b66927cc89372e25cb5860e 0xd1dffbd0dfadb9a238d1f047cac8ae4414b0f1477713f4e76bb756fe21d95f2a;
  Dbl 0x4e0cc2268b745745e04518e17fdbfc54eb55cf1268e1cc0d3f259557cc8cc425 0xece5a1dba2b242f148b2ea6b7474dea1179ff0ab224827d451882cf62a2c6c9b 0xc78d9f72a63ec33c8c8dcaaf493d2d27df088cd76e893072c2a651b5f48bb4e2;
  Dbl 0xcf8bc399da8d575627191d574df4192ea967549369a2b0d364e792884e1804a8 0x8ca89fe24437a67986e2e3b45f636ffe33d510abcb61b25d9cd03c9db728e5fb 0x633355030b534463bd4acb10a49f0b6d4829d8f5f7d1881f023e94d4ae1ee303;
  Add 0xdee6e6796613f25f3ecdd24886e9af459046641fce9aae02045c64c0f1ef7932 0xd4237ba8cd32cdc9400712565ce5bc76265c5d3cb1c7c2ffaeaab76ad8fafa18 0x4945f743a7d9f6c404dac72328017eb06d87bcb2894e24edfce018320736;
  Dbl 0xffaff1fa4844a484a7d2bcde6efb3a66c4a640e6fba3595a18a8d1d589ac92f2 0x55065936f6d85ae3cf985ff013fe99e26ff06bc4b710c6cba4ce552fdf0c582b 0x4e89e428555e7538c4e1db8e84c803d130ec56b9fa4de89ef9f29ec0565755f8;
  Dbl 0xe93b85f05c107858269ca556b396c004e8bcbbe3057b9eab84ffedee3d7ac16e 0x94f9d932340715eacce7a1cc9b6cfb50dc6037dd2aa71ddf104fa296330648ab 0xabe038b4365cc9000a8e73908de75fef7b0371eb1aa4f6ccb9735d5a1aca6fea;
  Dbl 0xf39a5b20a3e4f259dab0d1421ff02555d17cd71b0893731f4a82d5e848cf57 0x8a5a79e9d00099af51d72beadaf0c2e641ffafbe9024c99dcf43809711361de5 0xa39f8bf82d5913e866e3f7dbfc22afaa9a8fead7e83abe3ab21d93cbc3bb1696;
  Dbl 0xf54d353b457c4da82e87ac80f6b501ece475de5389968e0dc1f628f36beb7778 0x5c30b7395a1b8dd62fdb4c59454854ea1acf76e733e9724d3ffee70f3e60cb05 0xa9254762970c53dc659114e6fd389b9fd1e887e6599f4ec07048d0d46a65d1ba;
  Dbl 0x3616ef829a6bd1e7dc2a8dbba6e6750b7789b57e6c9cfa52ffba8f3465dddd01 0xdf5847c69fa01b21a515c7e9c596770fd9802ea876049bf8ec828a9b1b941a2d 0x1ca2a9c65096d1e4c3e3b3d37e467bf8235221346e0741e7e2797bacb2575985;
  Add 0xd5b706eb36602358cc18dfefbc8afcf6817ef55b4856c51bb0a220e16a470155 0x2e54a7d2410add24ba82a0d1ec2f798626d09451483ee25c90409f26a8b59de6 0x3b78c8e099b55a3149c20f6defb2c1eba13160df5c79409367c8d38693d775c9;
  Dbl 0xf7fb0f13658dbb8215ff8ecce23a973a04b43e7a93954f313c0c6f67ea0f5d6c 0x96d53c6d2c1c60c9f82616c34b8421378fc6c159a18fc5bdadb3c91be6036274 0xb23bb03b3eb21e5e9f9b9f082c0c748af9729db3baf2ad5de9010636014e5f9e;
  Dbl 0x4be01a89449453043c2e8554835b38b0aade12661f207aa9c50cc727687699cd 0x52697c2a58048aaff5d366684c6bccb02face7a9e76357e32f91f21aa0030493 0xd360abb60fb3da15d8a2e58fbba4eafaa9187290ef3d923cff9aa4aea6579034;
  Dbl 0x2276c9b992d6982b6c448063cccae249654350cf26f852ba7268939f9ef6daf1 0xd91e218a5ed10f119f09ae92596a4a7ae1be544aa2c929c9bc3391d294ac8369 0x322e0b57a2652fe45388bba3ae504a010f613600335faecd2f21a7961d444b5b;
  Add 0x2c49a00c770443e27528833ba5f6e601dde8cee6eaf7d276b12a6a757736bd0 0x6d94d008fbd7e40561894199935a7560fc57279bf398dbdf929c2ca28e775b3a 0x4266c65d240297b291a54d53a03773dbadd7422f99cf6c4c47914de3e834f613;
  Dbl 0x6693ca2bead74524cb45f9790c6d18e5a068dd965f0bc9a957a8285e0b838e03 0xaee40ce028c2f54b387b6d709c0499c123caf7b7739ae6e475621b9f90a5c088 0xb4b34a9431810040a05708989e3cd1f63b9a605719128623103c697037c7b435;
  Add 0x560d9bcad6b7d4032e04c9e6ab3653f414972106f3a09e626f8c8832d3dc4d64 0xbb6b99555188b49147052f03f7d564744865145437801f696f7e524220847866 0xd922e356882594ff50dc52570f61d56de55c5b8de9b0516d520e42f2b3cce452;
  Dbl 0xaa907fc96280c3642cf0430a4a51bf49b0eb90a1486142f0e8bbcb530b10d558 0x9e0203b2bd8be8fd027e1d8f149872657fa5b609ed97111f77d8ce2e95b1443 0xa60fd5f3c90e3524aee611a085c37b00d4eacf768ce0e747df909be46daa52d;
  Add 0xff986af3070c98ea76fbaf87fd5ecfda82fc695e4b97f95601f8fa955b30f054 0x12b9000876c80e58db1938f8e9e462d21ced790da4d5566e170ba51912ba469a 0xbbdc2523e2492c7eee9db99e7d1632e069541331682ca6e90499dc75e51704a9;
  Dbl 0x88b68e15645d47d86fa2967bb3ca3e2b32b804d0f08851ebe6bbbc8919c78207 0x28ed3a8be96904130417f0a757c950fe64c03023a1cb27bd08bb94849f337290 0x64bbe8ec1c4d9fcd8c32dfcae8d82abc0b41d91b5ed83620a56ac71a46d270b4;
  Dbl 0x27ff95997f6ecaf379ef7f2eea1e80f6b318a93556125fa33df8d529117c34c3 0x845d2fdc2f816a07bb644cf321d03f877edebc7ad0631d3b83bc8f0a8483a41b 0xa384319cd4d89e8e111164db47611a321be1a82bf4f9bc850de6e9818aef189b;
  Add 0x1cd3478475d9965846bdd30e758c8d09de5a097d26279b48f8afaabc1bd1531 0xa3aaca377b698c00e6f40981044e7abeadd1f2c654acb4387a0e664b0b9f5b17 0x1b66c7a8397a21ab83fe2f5db17eee7df8d7659a0fdfa9c572540e674ae26c0b;
  Dbl 0xbd806a335b315a515c12ac9cef5f7b8938739f302b6cca5ceb4d0f8cff438dbd 0x853d90e3843acd8bfedf5dec924e51793d5db4de61a71867de6757a29679418 0x45192f77bfd1d8a5d1fada153d46ed8f1968153df2148be27840a7f5fb3df660;
  Add 0xaefefe89ffbba2b25544fd4092301797442b500a7168bb7792b69d084dba6202 0xf70f4c8e8f00f74d37d883b7c0a4f0167821528413909503438d3c669a0ee9d8 0xf23279c0d01e2149ee72be60d2abea2dfac655375203138f59519bb227525f2;
  Dbl 0x57d454d930b42f64e322c54a98e5b60370d294273f4c05fd9500c5a625787106 0xed3fd611a209d66ea229170f98dfb9bd9fabf43314c8e8de4f6c6719dd54d183 0x43e0cf72edf494e0e885c8c35a25911559f47156fd8b2e5ccdf898bb8b82708d;
  Add 0x152b6e9a400ad4b9dab2e6475570023c67f6b35f83e708433a27263ba964c13e 0x88320525499cdc7abf113066c5c864dcb2805183e0723c2660d5b2a169f8b624 0xe56547ef2e70ade6a26c86ab915adbb1b489d3626f13797505016daa5734503b;
  Dbl 0x8211e057d5a5c89e245ebfc887ccfc8d7ed32ee304344997835f36af1f1d779c 0xebbb469bf1c6fa1403799daff0efa9bc10d912565d782d190988bdfe0a411311 0xdd2850298e25e79a2075865aa9760cfefc6bfcb5f0ba4199d09d35a502de9bd3;
  Dbl 0x5a53c7d31e10cf44efd0ab70e0b8ddb08605466d40b523b06727b1f4c1069ca2 0x9945ad78d5f2f626495a1901722e3c6be4e8e09f342f2751d7586e2fa897eae 0x2e8d59dbe94f984fb7b13e6c479c68c5e6af79defbe4f4b279529c63da3702ae;
  Dbl 0xc197b810512a80bea01db9a116bdd376e86f0fc8b1d5230ceb38bca27184f73e 0xc3bbe83386dba84a87031f81bcc7a8029933e27da7dfe8a99a0e7a1dae5624d6 0x4fb25c596c5673c44bb20e6c072058daf223b002b5df152e3bdb463fd2070af4;
  Add 0x50c73f1a5146a19eb130c9fdb1882277fb73b685516139699c822beaba2b3d7f 0xe86a3eaf66470e244bdc1f5dda9782eec8c5004240421c18120d9557806f896 0x2de8b226fa4767d428855a70f4d529b47ea011f1f47a97f288290c216709d3b3;
  Dbl 0xb35100b94f19dd2c2b4d23e02e81531b3421f501e16121b7ac641e6514e44d7a 0xbad98f4bf7467c8351029e75caa253d3cd7c2642734a57ab93cfd993f58de942 0xdfecb8f962f44f2f7ed489c29e290051a24da7ecfb19c7bf0491e2ef8400edb6;
  Dbl 0x27c68bad955713b88c477192e6041fedb28ad3d7d7d2e0440bbd360e182ae146 0xd3918aad61e93227457876405640b878b3e7261c8d8d444f5d7cb69cfa602f37 0x8fe0154c6db595a6d48ba59b14eaedc8ec49f44e7a105b9e840c2a885d892d0b;
  Dbl 0xbb331aba24e2abcce1f918f0ee5f2482fae5a57fc51c6838c79d871894d0b02f 0x226b17f4dfade19b668983fb29cdce13031f4e905ec3f6bd95f7adad909c8561 0x109bac5c8fae75bd6a9d69984c914cbc9bdc120a40a3f56cba08ce1f920a510d;
  Add 0xf4c922131be4dcdaa1ae8805d97de39c53a9f9cec00508edd1a76a243391cc7c 0x15f2a0952e94ee04ad61a104df2d9f50af79b4c3639c60e2355de84fe1c8044a 0xb7d2d4a16cca15d7c42af4d4f78d0140213e1ab172b611597a8eef015eddb761;
  Dbl 0x9ea24dcd6850abc33df99154a9591daf28ed789677c167189737b4f38e9e5baf 0xd73815a50ab53fe94a27639a8e9931c8e024c5ac1e4f9341b289e1b9bdf17282 0xdeea1ae940bdab67015cb4c91ceb7fcac36145a48e847b19206df2b80977635e;
  Add 0x72bc00d4a8bf3ad27616f34a9f84d89e64465bed30d7cf35973ed742936a707c 0x9bf487d76237964b9503f6889ece0708936f81913a765b0c34f81e347109b7ad 0x7f9aaa63932ef86648e6247b44151b005478b98f1f550f7a9eb0ec6044973047;
  Dbl 0x2333919d21025c81f896fed6eedb16cfe1e4dbf42a2dd4110b520bf4299812c6 0xbae1be62f2b8ef7c3986cafa2999a442e4cc0889d43311ac7c6f6c6bdea2158b 0x218335a57e9173c30000627bbd6ed99c88eca3fb28b7c0f1422ca091a143bbc7;
  Dbl 0xeb77d9098e1fb606b0cdf988382830f45c04b987eed8da150c8ba48c3e76d70c 0x23c15ee9cca4efd8347b82a45c9e44456dbd3555f497b6f73fc4b4d2dd825e15 0x1dc2e16a6ddeb8b9a2bd491647b827a01baf5797ff0893ac22737a1548511140;
  Add 0xb61c99cfe06441f9512bfba1d644989840004d2f7964e46f9079e38cc748765b 0x4f3d9bb232ca5067163f12acd4eaf316764a06db3a580fc09714934150bb641d 0xa3813fc38fc6653063935bb2a84571fcb11c920e44a75afc1914fa4cbee54462;
  Dbl 0x9dc535698baf5add41a83ae40f459a9c5c07c3ecd5fc584460795ec38bd37bc4 0x39711b82fd52ff3983ba8e82cce7e553fcce59252044ec8a90204c28ba706675 0xd51f7afa86e6e43fc05d8691bb2d971dd1fe00395634844b86172859d4ca3750;
  Dbl 0xaa1ad98c2df3e57cf8010a680d1de2c1712f30223d51091881bb12bcd6b775c1 0xb4412c4577d148eaaad2c663eade44f9b5a8a89b4c3dbce8da3a39a713d86832 0x11d6139caab95492aef7b84a7860a238665f983d8956de2ecc4d4eb816c9c532;
  Dbl 0xe2faa8c0acbe8de49cc13a1915f6cdce3c495c4a5e0221d42f66029911d67c5 0xdf7e6b8129da82181d7e1f2ab6643a60a99470d58becc173123dd361403d361c 0x4013f4f5ce7b35055e704ffe3f5734fa7eeee47a634783eee4bef921cce0f37d;
  Add 0xd446b093f348ea0b3e6b8622c9de083c135e9e07c2a28870bb521e47e076aed7 0xab1d7acfe916bccb2754c82976c84f431ed00ae5544d2f47cce4266d92711e67 0xf4e23fb89c634dba0cd581f1f7b5edb42ae15dc3ef7e10e530e92628261dbae4;
  Dbl 0x68e85a06ff234534640f6e60ce9d3143f63e906dde35579f21a269effa97de17 0x8fb141f4f29bbe02f3cec0f8be47ecc84a3a245c1a5f48b03b6e5c66e660dd70 0xc11022d6270063b4700e77bff43b477e1ce6631e4749a30d2b8dfa9103ffbaf5;
  Dbl 0x24a3493e3143337398cf4818c3e7e8ac25f2ebc9931e69189ad408cdf500167c 0xc9aacf1919accc0d2062221d6c002406f478286b00ee57d0eb01aa5d1cff1d33 0xa19b295c1bf67e6e70b00cdbfe60ff283efbf5c98c60b82053062459c62c1ee3;
  Dbl 0x589f38ffef80a1d6b5c64bb64c1cfed0fe7daedec58531e4ad0d7a930e0d2ad5 0xa49ffaa21dc0c9784f7c03eb7436e6777223d9644251672e13887732c1de3c3 0x63ac40881555e4e2579b85b033f8f09aeae82e7f3a43ce51ac57cd86779e01d1;
  Dbl 0x332d5833c69459a6167659c121ba045cf6e483d7b1cd09aa21b1ffafbfe63d0a 0x66d3e3b4ad4894ca11114d3ebf018d0d4c88f9fd41363615062e3dfe13d1d1de 0xc3b3604e78d4fd3d4b5a0a245e9e24ae601a661aa79723ce85bb39fd9f0b968c;
  Add 0x874c4fb51f5bc195159876b1a069a692d78dc20ae56fed9e7410ce6a0699dd1 0xffe98a982240209adf26f480fb80d70e615135a608ca3ff1432779037c8b4046 0x6fdffe00f5583cf9d4ed2397b7e114cddba30d852c2a7c08aae68436481f65ba;
  Dbl 0x70bf3f12839c8e66b2d2c84e8ae42ea185685b11c178083379313b3fb55a7b16 0xdb4656afae811dccd5a9877261a2fe65b82d87eee860a5d571c20b376af1752a 0xe2093c14f8dafdb15d4100e573714106ae2cf638ab1b812450e00a17a8860e80;
  Add 0xf96e9e80463e949f839ea10795c03f038c06e4c6818d1b00ff8097a14bd2c382 0xdc0913f613cd2902e326660f0c86577a61d2109799406a55f7f945687a3fcb6 0xf10c33761403bd273ed9c57c0b37df3887b0c3e7cac16425338049cff287dd51;
  Dbl 0x99fefa9af60a51ca568cedc0946a91786ccb005112850bc1641b1ecd878d7c58 0xdec38cb462d569e269589e3d00e15deb1cb87356a5ce5b397263866c720f259f 0x98aca0f4dd1c0992c8f231c56eeb77eae6b5e52a6c409334fc2071d062448330;
  Add 0xb6a3206ac2e597177872c8eb1e8aba3101d8a7c60883883f70902a2ab9b9cde7 0x39cb6337b2ff915f1320cbbc630b125b2311f8ccec01047c8632e5fca5118b73 0x5dda3f98be3aa5c7053f6c21813d3185bbb5a18042651dd614e86c7a141743e4;
  Dbl 0x59a589c535b8a7c8ef2d92b6684f99c536a226ba83971fac79e3272e25f1b920 0xab07d717727cd447863ec3879f6ac1231d5fff32157f9b9702ecf5b6ae7a6258 0xe57bedd8f9cdec26c043b2f937f804eb36311f648cf9d20a85266fd8b571060b;
  Add 0xa944ef823960433f5521dd08b0957e2ffaa0791394d0f2b9190c1dc8bf97c764 0xc4a44f8b254e8eebc8a32623d40551c157b42c9aca08e3d84bf5e137f450bacb 0x79d8843ca60d330659e9c1578ffa2fb7283280f1de4bc94a61584a52938f64be;
  Dbl 0xd4c93b33a243df11b9035851873b19361329dcb27f35ab87ae68d5b8f51772f2 0x4e888ba267d2e2dbf875e75e9d42276e7853aa293fdca59dfa5a5459c839a276 0xe143c3ca7c6be42d9f9fd7366bbab221b65e8ad5d0455731e1287bf21fc67d6e;
  Dbl 0x21458053140d7013b45d0fed5e3237707461fc39c4fe8abd4bfb01e89d4ccd39 0xfb070589db63f2c1aad4a9ec8a2747210e2634b92e5326b723ca587c3327b3aa 0xf2d4aa88d1cb57a87ff9f1cf1b816f2e4b63789723eed46b8118f05394420484;
  Add 0x1b9633f62d39679820acae2a86cf0a71a7bcfc0be1e6cff3e850e5360f8f0ae1 0x858dea0d486eab756053e215f527c206fe17c3a7ea4d172ada168c7b7302a2a1 0xd050b725ebdbedbbac56ebd7e2523cf47752ca348764d87035ca982279237855;
  Dbl 0x53524a28ee8aec208f04d25fac2bc839fb62674beaf171c56b38d24cdc566a1b 0x13c5b26c857c2b08da8a4e8e04b3d3e5683d398923ea5179e3f4c8bba01ed878 0xeed2a0700ceffa804439b022d876caa61d63e537914cee70505f2f989cfd4407;
  Add 0xd85ff5b804780062585ad12976ef505fd4df14bedcf187917a2bce1626462d3c 0x19555b2e009f06a7e22dca35f3f2f463fe12cbd04f83e495e67a777ab9cd3540 0x591bd2ff1e3a72417df83910891c52976bfe1e63eb3a7f32ddb49ccf502aa92c;
  Dbl 0x8d02b41994ca4ab67fcbaa0c23e6a7dfee31b2984236b384938c9b9670992b86 0x4b7daad8836ff67418e16ec6703298a2d059a2cc23b60c17b52eda2b030597af 0x5be25a3704975c9ddc7ac3366d9ecc6992dde27b9a6eaee8640cd2401f606e70;
  Add 0x1822459caefd7a0378a65d0def5113ea76b25db3e27a6908de8c5ba97c3314de 0xd28b4f468acf64995d2942b65285ba07bcb9c44464ae2171dc42302cb0b1ccac 0x74ea57ed4a250cdb4a53d5b9c122ea9231dc802a4ff9263fd3639b8a8396305;
  Dbl 0xf65ff69e87aaa0adbc27391d9176d8534f674cb34f35db5e05225aa5dbb52fe1 0x157b26f900cc884ac50b12b91703c0672e39585416b8deab6ab1945d1a7550de 0xae39d844770f2dc6d3e40851e5d6eeb6c06e526965f001bf75c25158af90d6a0;
  Dbl 0x69a9008d1cd32e51a28408cbd5408749b3cc3d2ed6005864f9d640679949394b 0x9904a7dfb12f3ce5add1aea02fd175f4ae77148b0c4d6402590f414951ae033 0x2895286fe1955a696ef4de9cbe4ca605b0aec64eb1de1d089e4fe8dc4742ef89;
  Dbl 0x4e829d72e24e92b1f538bd540c54ba6e1fcbec148e12207705c8d62a2b960809 0x2d5f13b118adf52b0fec71cd7ef96638406c4b5b771203944356762b40ef92ea 0x12215828092a8366ce05de42a485302133fa1287c369eabb0c317689d0d7bf86;
  Add 0xdae7fd4af8a2f06ae12a1621b285e76c8ab83b9754ac95dd043417bdb4851847 0xca0e0562f11393225108604ea0de35a35f56c698639197f2ea0b57d2e08855bf 0x44cf59917aeae5c63d7fc54375fc440fd5097f2f6c393bec0cbec01bfd5407b3;
  Dbl 0xc0a96a065c79d89a89454ed6cc7834c3974405159f6d24c3529db64dfa4a5ed8 0x84a5caf330c0a1954faf1c0580d24da1104bccda3febdb4796cd4e6d10b4f1e9 0x5dc8a9c4fecdb6bf1684102e0d85a7046d80d6300a39e3a37afdb50de7442f82;
  Add 0x6b4f7208aad7ade722fdf9305e33339e8dd9164042d6ef1c2a0c120764b72c8d 0xd39ad3a69632b71bb707236b2a1a1123d85d68a258bc310c7e7d7c39fe011557 0x61842060b1ef4cbb3eb019d134832020df43c560ec49348babd694ab93c9fb24;
  Dbl 0x474e802797b0db27611b74de34ea9c50dd232fdbaf0f1933ee3321d85a18014e 0x583799613a54119bd8f1c19a1a4ea67b21c2f2754ba4b46ee7f36b24fb1699a4 0xd6a87154551121430c50a23f59a039b1612eaf830478c735149bc55a6ba12d30;
  Dbl 0x86c1239cc2c2e0bd803f5bb902f0c47badae69c6565f604cd59fc2c475d365b4 0xba4f219c74a03961ef43d6bf169d16c4b82efc999d8586d9bff991932cd50b73 0x862372f809b02d054c765d9c7f9c911b200316b00512f7efdbb4d37ebfd6bfb9;
  Add 0x977d173c626eb8bf30f2dfa6e2fc06fde6f1c2ad4bb7738f947c6790f8fce931 0xedb695eedc641a7301753b107275bdbec4c604587c6e02bcfafa155e3ab6704a 0xf9a93e754c270f73c2274144f008ed25b90805d7160d9e857a6a6896a2b9665c;
  Dbl 0xd3fb5b18a5615fdd281ea4f1c447fda32163b89e82701a40ada71599bc197250 0x8d9710b8b1cd180ebcad9ec61fa0f45b4b94877560f1d0dabccbb0f729643ed7 0x95a59b571fd9c7a61f75f1c8641133d676e4fc2b8c82d8ce66eceac38ac637b0;
  Dbl 0x75d317800b9ee7eac75b83d0f11b3ab2d1d6f3c483384f8bd9de29e5dc18e40f 0xb26222401852fef9d25bb7b62ae50752594882610fd40ef4fc3cc18a9311b9f2 0xbe2d68ad69a87c7fc8a09f4494228c430c6a219a02525a60e2ae220d47deb651;
  Dbl 0x63f5c9742773446b83110cf7e4257318e34a12b98b7b0d95678982ea0b9bc2e 0x426a14c2d64c5e16a80197009e1f6268a11779c7842eb226c4cd86508d55a0c6 0x9ac53e47e8f950baef2a9b9c5d2be791491c4818834d292516e9e02f561e6a3f;
  Add 0x18ad2a6646575225aa6dca128a188ce6e8a2305d598741cfe4f4a14cd0f61eb1 0x79e7addef7d74881064f37472a1603d99a6b138f93e481d0e61e3294dca30f75 0x926e8167c7c030888d5aed1f4c3340a6afe3120dd914259506b434fca55566f2;
  Dbl 0x9d465dd103481ad51d9a40d0bbb86012b996dcf4213aa9adf6101329b5172cca 0xd08b14aa6635564af8dd24ae7cfcbb573b16b8f469644cb45f0c550563d51f73 0xfc99a7847db559e154fc7175ba38351228626a2a5e8844020a4af75f59b4c3fe;
  Dbl 0x1b855a0c37f89a07553515d1fecf4dc8138497376c93d39624770ff4a41e2f8c 0x64c5e0d0feec2a14fa3e7641d5c6199c163c0908a30fc6e9b417a4e47c975b73 0xe1ac76d8f0e52bd6381819740f731283768b28f2d2009133f52bfaf19a2beca6;
  Dbl 0xf0781653150b5809b0e7ac88600478088d36da409427d17df3c4d9c7f423478c 0xe77ff196680eee6b200f33d5ca8b556a3e639a4a9c98ee0c79d9c2aca4a6aa67 0x7e18a79b049420c39956582f07d3d75af996ad72d7e82417f190221ed7f3b77b;
  Dbl 0x8ab423d562982de3be4826cbef61c4093e330df1c03f2135de33e8777b698837 0x39cca9c90e416a3cfb70280480d10a9389fbbcbefea9eeb06c59b3ac2bc4ecd5 0xec0f8e059126257fde0a153671e60baba99b8f0aa90e3cf60feabea9e9bbe470;
  Dbl 0x192472fe991d4b0c5c7a7b3f3b1be4bff7687444e1b0fc01892c65a6309eff98 0x5b6c10e6f9ab3140330145aefcaaf6141e40f9bd532fd7e81d4050c047ff61e1 0xad1062e1ab0b99dd8dfcea838763cd81a590ee406406981559b2a24f43b691cc;
  Dbl 0xd2699e850abf5b14bcd80183d52ece27dad4491fcc3d9f401b804652bdb5dc63 0x59b3b54aead9153e6d3df9577036256dafcfba97b98a986fe406f4148df4afa1 0x42ec343b691c2b59abb75ad4be37b674c60899b9a2e7768ff54e28fd3d87c161;
  Add 0xc530e5219c03a588fd466053452a55790a104977fd19e8a76a1b66a15bf36c5c 0xabeff3f95731a75cb2fb94ab6a62c18012a5134300821c6cd25ef5602993f2b4 0x354490aef5a9a72e7fa5f631b96c4c0512ba40fc42692fb845d882428cbbe0e4;
  Dbl 0x69366a2b153caa92ef5aea0967f29bb70744e9c7b2f9a929c64a1af4c2f08aff 0x5882d79c3d62fc8fecf09ee0fedfdfbe1d16a201e4d38beae105fc95d7acaeba 0xe22307aed9522d72f2b253b7c66a5a483ca41fcc40513c3e71c3109529e76d17;
  Add 0x42aa0b0206d44b19d10e3217b637c0a52b20e1f81b39165b41bd88fcce4a29dd 0x572bb89e5ce64e18e3a7a70ee493a122ec70141b3609582b54a927a104e9c1c0 0x234942a634d77496193a81ac9d1b00b1dd79331b7bb459b0e219864ef0f3590c;
  Dbl 0x644746b8ed0a866541b00768fadc75b081a3ff6e7af155a17738b986dc19dc5a 0xc872cf55db86c8cf73ee9f56662ce4e4da1f45adc7aa0958d641fd91e22bedb8 0x5d43550529ba7b88019b17ac0f734013666bcdd60e623e6f7c194045cd62be44;
  Dbl 0x18b19f136140b9532d5b2b72d3c27ae7813bc5f41cf3a72bd8efebbf16a592ac 0x83e4a1a44b81f5c3cb6ee5d0b6123ddb4a69815b1e97c72ec93da5fc90cf1b94 0xe4f5d1bf19d9c5ea3f6419e2bafc3447fc43094105ff935946ece89e22dfb515;
  Dbl 0x4c778a9d26d921e165958e48ecd0440cfa67bf65751f7fcc0ba0fee2d94b2e90 0x9b2552748707659fa5a15d9866c72820bc81342216964154938a2a622556efff 0xa7ec7651e8d5191cdb4ec725058e484f6fadf3614c1a1baf830b08ecf83d31b2;
  Dbl 0xf0950c0cea3facb94949e1763ba7aede210a19a5eb6e4e717620ae798776392e 0x8dcac828aca6d7fcb5cbaf28c876b4603b2a9fd68e3493eceea95d845bf6bf7d 0x9796cd257156686726492dcdbf06d32765373dad06024db64e3a4edf65a355ce;
  Add 0xb87fcbe9292f05ca41aa08df4f633cd0740344b0b65dbc50938f0400d5bcf13 0xaf4f1bab3a9215f7a9899f6b1e72c4885392e263274d4aa7d204a7a882a1ab99 0x2fe13e6eef12f693158e5ed640c2d91a263f87855c760b74630dc110d3fc588e;
  Dbl 0x94f6f7d03ecf04bd62958d4a7a7ab0c81e9b2d7295edbaecbd713e451e5c8105 0x9743cc6518cd5a8b6f0f3e58c0ab5a30452bb700b7bae7bcff1781c9c86874ac 0xf8e810d8e2e0b2ee746ed58392fc8af1d3d119bb1feff907a731243cab9db91a;
  Add 0x8736e717ff1dfb2e828c463507aa296cceead15e7c9efea7868d4228094a2236 0xf799edf9170b27afa776e9b6e1af9efa1d21ba7bee2e78a15c68f93d3b005222 0xe01bc4123d1ef496f340da08364fdabdb60e0f54f46578ebfa4402d4d8af49b;
  Dbl 0x209d8773fbcbd8bd1896273d0eaa947c6083f559c942ec6054ff45a0255213d7 0x854a80abc9eaeb4a28040c6625607f645bc5fb873a392446c05f366f7be4780d 0x95cbf8c9a8dce0a6e6bde460771d336f8c0592de902403d6611d86fac70b9901;
  Add 0x395fefae8038d79ecd85cc5a8302f63e267c5a73591bfc40d803b1cf4683a071 0xd3c1107a935f5ccd2803e9f5044b9af8986d3971af3b3b4d4ab97ac8af12e35e 0xeebaf5eda619fd1909943b694e80ca32f8e223586b2b2527a0612dd5034649bc;
  Dbl 0x24b86cf956bdca1b49049d9ff274b699edee0c7a518aa91b701bf3f1348f4f2a 0xcce1296f6193cd908305c794aeba1c02adc1e3903f5371fe24afbd081e9d71b1 0x6a6ead40b54e365f3aa6ddd7b30e440c4dc8b5d25b42cf9b54b12af81fd3307a;
  Dbl 0xededc210ef0276f268cb683554dfa08ba415461de6b741ebc5a84b1e197314db 0x49e974c97fc145be0d1325575a2f80e93f024843271d847b8a0f41c644a4cbc 0xbad2a83d329f33bee29c3dbe871413a7887e3e0bd0855c05f27c8d476da6d49c;
  Add 0x2d579ca3470aa222c65a18b71a814b8a2333a02b7c30a0f81186f52681abbc30 0xa403f793b7a8a2ed9c2b906e5c3900a98a8fff3a936792953e0c3afe3f1ce7e6 0x97582b4244784df68bddefee48420047078818104c896901ec424d26561bae4;
  Dbl 0x8e2e9fc4cee909c6f94c81fe5bf87f089d13720b262a02cd7e4d80e6ab760802 0xd0f179bcf4d7b2439ff001556aae11b7833af2871ef115f42fe86287a19b499 0xf8c408845792e9b8a1b47cc3e37498030a56fc08f84d58b9597518fcc6708b1a;
  Add 0xd7de49390a9197384f1b1934d5b6e1a942960772992b35e9e1edacac56bd814b 0xa716f7c034a385e604716085ee3acb6d0be31069444ec4ebc87c8611197f2d4a 0x47d2bd498b4bdb1e25d9bad5c31a82149a1b2d78d649cda0d53c2b89ccc4cf17;
  Dbl 0x6bf065bff55c74f4ad6b9293670729d2281ea3c93810d1ff7913e3bed06d2879 0xa8e7e6f3598a066fee39a14ca1ff2d50b1a424fbf5fa52d0168bb6151ceb5a7d 0xa3b541086fd0a3c4ce393328bf5c9b5c4d9ec6cc8eb35842a0497ee64f9401d6;
  Dbl 0x4a36bc505ca307e7886a0abdce6515790d39058b778c58878fe08e20eefe67bc 0xd4633279cb5662c1cc861ba04b372c592b7b456ac2531000f29d8fbf823867f3 0x50b8231e7b658cba71ca2e74bb0c86f988720f63fd6cad3ec03073538dddd69a;
  Add 0x7aa1e19ab2b1dd288c3e1a90336ef188baa081d169b7274e6eb6ca0af016dc8d 0x81116396916b1f03658846ef35f22d6561290f2c81febdbaea32b44318109746 0xc8c50cd3bc9d978ad18ca9cb94a61b9b88b4f9fdef9bb8a295598bf988b23c09;
  Dbl 0xc04496e9b8b1647e89418b11e83a269cadee2fa78ee84abcea65acf256a81af7 0x45081fc8c494eba26797b418794f143ef5e8cc56b3963f06f7fb0866926ed9bf 0x6c5a8ed458ed822b141ac9989da257698c0fa9aa78c04055c0899f5cc2a7f2ef;
  Add 0xac94fdcdb2e1378a916276448adec34e200b5c77886652162f781d70edadf683 0x2474e79a4e5dc164fe094abc1692a28258fcfc695cd16294677f2e6fe5f22442 0x5b61cef682f1aed2fbab64aa3a139933f87bc3abecf88e52a30d5749a2037de5;
  Dbl 0xcc673a7e82cbfb1999c8adeed5e7687120f03ad97233f686a8ad1911336686d1 0x9fd81309433be723a23d1e365e8c32f9ea0f71e3319a064aaeef6bbc16665e89 0xbd42d89d5d0246a449dedb2283c3e0ea2e7f1cfa022b6ce27f0b2b09ce3a460a;
  Add 0xa5a23a968207bc6b9316f33107d13268fbfb866ca50c0d4d45f7f57b921e44d0 0x5aef2bfcd0714114eaa553238873b9939e3cbf100cd75a66174e5a29c252e33d 0x501e8749394ccf0f15cbb253c308f927044c4349c1118810db0ee7d74f8c24;
  Dbl 0xd46619751670e6da5b835ebac9fc84355b5eb8691980454a064340a5bd7697d1 0xa102a784490b8ca9e111522e7dffef2a20aeec73ee1bdefe9c8894036883743a 0x474230114a19c753339549d830eb08c79b60e626b880bc4f48b6bbaca5d25ef5;
  Dbl 0x7994ab1991afd42e76b4a2245a2e2dcd5c83e973c03c46d39265e0d7ed08d4fc 0x723e125bc0952553e72b5f54635e91fdf0990e6690c1eda2ad697edd9f198217 0x3af96b904cceae17d45c9835497578aef13eab12cb789422436720a8aff6bec0;
  Add 0x65105f22178168617f0e69f7926b3be7abfd5b123fc6b2729f0c77289ff3f9d1 0xe5d820bbd311340be0737d3e63040c8bd9719f5f4c2ef467f8ef4c874f160520 0xa97cc08f2089c845553b0654460c599995c0df4ad6f80a83695152cd8e37139c;
  Dbl 0xa831617f0486d216c690e78ba503e99674f45c60fba8a3ac177a7e907fb82be7 0xa133814f287dad154de6a53c069c9dda19195fd8dbb940aa7e9dcc986823c447 0x805b28571b21ddb78b15b3b61e1f26714d76fc2158fbf30365045b2d5eada5ee;
  Dbl 0x28bac5882a4f1b6f702487feaa3fd83d4a072c72efc08edcc9653bcb395a3717 0x7ac40b246bb7ac175d704b43b2e8bfd62afe1bd6bd8e51e7cc59ab0f549c4578 0xccd904aa87ef32bc224a9008eee4645a03511cc8b130082f1e0be122737e520d;
  Dbl 0xd025e69ad60e98e8515a6690103e5d076e8d7c7ffa0b3685025b6ec758bc4d10 0xb84250394fdd613f7b61f87943700fb9358c92dbf15cce90d0595f9111fb82a3 0xc1895b4aa4a610b154cc7bba2af7b0e3c6f4c822816ddae3d363dd04d343e670;
  Add 0x972105c532819012b96d8148d58c4611e8bdaf866b226a9a1cfecc8d868e3c6b 0xa12e2a74368916fadb3b276ad881d8dd57d8087cd7c4d84fef2307c7997816bf 0x31f41693225b5379dc0f1f0c717732b173f2b2ff35416ef3217e966ecc7319f6;
  Dbl 0x6f47027547afa761d8ee568576e823588c03c69bac26982bc888c99b3e0f9c06 0x403e93d2ba30726143ae3e7011adf300c49b774858beb10d68d0b9c9a2f61cf 0x829698cab981b4824004e935512f20c9ffb18bea43d783a80d8639903414aea2;
  Add 0x467117d07b4a614ea31d59588499c00f11c60ed29c933dd6b9246231557aac4c 0x44470ff8219fb6186f60f12711567ba36478408c1e9a4aedaedf8426fc84786e 0x3c89bc615b6b954f207dbe99911b7dec919322cc441e7556d5eba981793eb105;
  Dbl 0x1c736e10cdec720cf0de60933f14ecd18351e0f1ee641f30e9a5edc44c12f9d9 0x9785a0e48d75ebbf4c42bb16f980de1ed49e8b24ff5f3fbbd0e30c565c6b554 0xd1a9fd13e8c28b1a7d3a1d508fc6913459917e098b59225cfca15781eb8c8ec1;
  Add 0x275e824445fccdeade8a6a1728e75245223818470481ae5062d4c9f637d13af7 0xcd18b3904056f24e07ddf726669b54a5bb7fe390b34b690e680a23d55df1a501 0x74115b8579ff9861629fc9f7a474d329d7897c1f4543f1d5d6fdacb258955900;
  Dbl 0x53a5d8dbf3f78bffc44946a741473fd4fdcad718718df96bfee7380f898893d2 0xfb18ef8477858c128a66a8bc6419e56d4457bbd669f9016daed80445821f158d 0x5cd4a3384057493fe6523df76a3d7656f2935bf807b2342cf3570c90526b44e0;
  Add 0x9f5caa1dae8fea9147877579a5430a71ac0be35ccfd2eea767f366b27e12919a 0xbd64bf93cb962cf2476c3d4dc78f8f29f2ab02cbd8c1d4c797a1702843ff6023 0x285366271d5a807ff1dd2b0bbd8375b51eb9a0e74511f3d4379d537828c993d0;
  Dbl 0xa79247a2927616687f5732d996613ca4e9b8b364d6de71fe0bca2b3f20054d5d 0xf599a0c5b44f35b9507e38a39834fc40c52b8da40ff20181b59d774204ed1e52 0x5d5bc3e004b629515fd7f03a482fb5ac585ec5fd55b838e26467887f622ca844;
  Dbl 0xc4ae714d2899f225e29054580f7537178a313eebc2cf4ca37470f9ae482057a4 0xb6b21a223f9129bbd44344712615e5e331d6bc9151785ed6c444be983722662e 0xef9c38ed2872af391a8819dded1d3ac910c27933039eb190c50c84d7b749f059;
  Dbl 0x6c864bd5bfe55a4c2208b7d6b40c93220b7682bd18b18959fe00f8b015ad6e7 0xb1e83e58ee57b6c2c0ee67f1f0d0cc7ba2ae72cc0bca67fa26791053c7c939a1 0x460a1854b347700ec4183aeae691c5d1876682d9be9b67b6d61c9cc529ec692a;
  Dbl 0xa4da818a311620ec595860b1ae3045516a6e2e6504ba80f226b53087752c30e0 0xbb4d6f2f481eb0fb1400453ff67ec8af680cb1c69236499645152016af22fc3f 0xf89ca87542d6ecd62b06cec501891618ffef9c697026f3f6f4d744c17bec063e;
  Add 0xdb577f214e831fdc9f66e44d40d4d64758fee18b105481f7e5aedcf890b8129c 0x752820afff3674089dc8f9a2b7c11ef46f24a357bc21b2f5e8a585adaab44d5f 0x7298aa3fb90147fea06cdfc370b43354aeaae4cf3fc12b77c4a9d4ae3807e47;
  Dbl 0x429e8c9247917f50370b86ff20a767fc9ede9b58183d95d3d1f97041a1e3129d 0x5f7814b9abaa10fb97e20cc9f3482cf5b3f2e3d96ef6aa716ce4562108682efa 0x641c0e156303cb7ddccd89dd85f5789c65dfbaa9afd783212a8b4e697b92445c;
  Dbl 0xd6500e7a61e379d2a3c0ba75e4954a6303a0af243aa29e17861f4461134d6785 0x16f1d8141984054d0c5d1d5ca84a7d9e6d7b5158b3683936da07838cf5d33ac5 0xf5a616281241ab2d597653b467324d3a96c7422019d78bc2d9dbba67ff960c5;
  Add 0xa6e71ba150fbf7ce10d41d0b1d41e679e3fb57a73f5974a288621bf0450d29fd 0xa02ddd9baccbb84cfb633a9fe974a40c26f9bf3149b60d5000d4f99058c57840 0x9aa698dade1c8d5351ec3d372bf906402e38b3236421d9e186ec3a50283d9f9b;
  Dbl 0xc7e6614412ace50858c2f1c19cfec3af937436afb54f0c2a9dfe06abd4d1d685 0x9734729a428a74ad12130f2131a5df152568217463d615dd40fa27b39956b26c 0x5e52bc8554e677efc1058ab19e065921c8f88c98e02d7ce8748ef9ce80fdd4eb;
  Dbl 0x7d2e915742bcda777d619bb91cc73769e8a828472c430f5d20fff4c0d970016e 0x38781d08824dbb043432600748b5d4ebe76093b70faf65b29cdf3db1cba7a1b3 0x5623564894336dd6e66efaa37e1a37fa2d374e7ee72df25e971327d30363ce34;
  Add 0x552172b2b7606dcf7a07f4e1951742219edcc3c017dab963bb209dcf0a478ae0 0x23d3f5564f8ae3e015e0f428b3a43acf795295daf90ab32361cec1d042d87c96 0x8f59d7a49bcb5ea4f79a81864bfb0cb0126001f8e69bf2d7d03d304d18a2c6b1;
  Dbl 0x4bde9c669b73ec513cf143fd7a08d25d4f4d537085b9f83436dc1a2303f8a9dc 0xed09f9dff545135cca2353deb70b9730db595adc26e700c7f72eb008dce70952 0x6732240c004ab63e4cdfe82cb7b17b3e3cb5793a668181ac91dfff79d007db5e;
  Add 0xbf130c216e133ad9e513dceddc1801d5164d8373c3053a44ec2a2cffb069b2ee 0xec0bdc3d54b41f4705fb799695c5c6d5c692664b27d3cec60b5cc91892ef5e1c 0xb1b05465252eb07a250529974bd9bf04a49a8acfa8cb37221d8d55fed9d6158d;
  Dbl 0xd99190d3ad408127eb506120dabc4bb296800da357c9127b85795d398f82e42c 0xe59c9f725e24fc9e2b6a68befcff88981fa750cad830ec5606e42defb0490101 0x660e452a97f86157ada9cb25ae7b702af01eb60b905bca19417838ba128e3ded;
  Add 0xea4391fa85292459e23b0208358a7d3a3d4e7fc3ffec21526bf8218a6c4b72e6 0x7a3a71e85ce52be7485e79cc119715938fc80d6014377b95b7e5c5e096a250a8 0xee132da9a009713e888ff2bf68fb1d7c46b1282d7bcdf971244a189f27ccebb;
  Dbl 0x64e8034f775eeef485c43f4361347c539b9ad7be396628dc2454262ebfa70307 0xc68b8c44afffd7ccafb35bbb0dfd8bc7d1a84907648dfcc14134ff7482c5d4 0xbae15f14f1847c47dbe18aa93f0fb141de569af6be1d384276bda021dc809d5f;
  Dbl 0xf960587d84032db1b8af275d516efd4e6318ec49cf3629bd2acacc2594e9a7aa 0xe1c0cad9a720c2d614077cf44eb99dfe76caed685aab3fa00ab2e2a0adb9b795 0x4f98f1063f3e064d545d4860f9c830a6e014253bb50058d4db7e7cde6c451387;
  Add 0x8f95f31ba39663d2f1775afbafd014657f22c211502915a4722cceda4e064eca 0xcf9ded3caee4604d7ea01bebf14cc0155d1f081f8176b0d68d800d8380994e82 0x560a29457c09423f7920bfe7af067d54ed97758c68021fded26b96b9a07a3888;
  Dbl 0x13869fc4e338ccc0ea2cb49f0c71f61c7c36a8f42093144d54f7e21b880069ab 0x1c5cf53397ef26d8d99528105ecd5bc55b5ae94c3ad0c84bee42cb6c9f06c185 0x2cd06bc0b83b6807e3e46ccba13a5716a9c27c0d9c909e1367fbc708f922e6fd;
  Dbl 0x668a4f3a176f2dff269b8118f9e4aa8d83a31b3ce9e49b25e9149c35d902d8b3 0xb3c62d99eaef6e8c7c1f81ee3686777d0c40de74389584cae71d898fdc343551 0x56fb4c6a45f2ff543dfda3019abbecd39b6a6e7c5c6b3ba1465819c041ae0f4e;
  Dbl 0xbf36b7f0980486aab55ea975ae00ed4c43ff02176b57a5a86c954e290aa35136 0xdd86c094951b2e96dd82d0f7320fa156af1e2265d2accc7ce65c67f937115b38 0x97b306abe093fa15e33361719c6ad77763bd3cc81cfcb4ffee127d1940074a9a;
  Dbl 0x99b5d28537a7b11dd9ccf4e421cb26d05b5691a9eb8adf16e1a0e14a827dae3e 0x9c4dbcaebf3b4b40ffdb9940c51ca2e40b189e06a69310003ed5940f8dedd55c 0xc61444574086c14eb7e4ea4a1f1edd2ac0300ca44cbc20bb03d71ddb89f5428e;
  Add 0x1be32d14610b860294170d83373f32a15322d3fd540317fb22a7fc009eaa19eb 0xe2eced09558aab9e0499874cf679a2a948e2e0811c3cb13f532446d6ef5beaac 0x88f8893af894c3419ef56b83cd3c354f583aad571eb1d9dfd5e34ecd40561555;
  Dbl 0x25be1939de9f375cb03dec8926b54775d8f792c5e7e5e88cc22a1b246ed34e0e 0xdc11b0ef7a472c320601c86fc9eb8a5742999de8246987de518b077395bee45a 0xe10a53d2636014b7c68f5480936d96525361646438844294b6d7dea4bc73455a;
  Dbl 0xbc37131ddaeeb0b089e09865ddcce76cddc1fcc8d4f272f454713caf8e9ab45 0x451e801d7612b54bcad3daed312ad9bde60f92003df63e07fb18445c8f5ee1b2 0x13d091cf5079d527e60d5afaaf3806890cce9617c9bcbcb38ee30760a590371c;
  Add 0x745a480f4923b21fbcf83b6e57bb3f4a47db753175dc86358c39dc398cf436fd 0xcbd0bba2bf424b0e385ac803f7313a270b4cddf4960c07bc80865d17e289b9c 0x78d5ec233fb630c9c04eb4db25ff7ca0f7e460c5a224cc4fd8aeb656f45f9d82;
  Dbl 0x65eef78109ddaf4bdbf4a46e2a0f728f890b7365a06555698770b386f2dc589 0x34082d3e72202c906d52d51952c3ca0bd3bfb8d28eb3e290354ae995069b6090 0x634675d78a77db1645d03f9cfda57b65ae35a125c5c99c38c3e529a2919c1300;
  Dbl 0xcba887070f859aaed52eb337fe403b419703444d104d9434f5fdeead554c542d 0x5b8bf59c1021aa807d10f51e7d810e29509216ea47cc548ba29d5d041b162e3e 0x62ab9f5d7ae0384dd641e0d1cee220d9387d7914e83751ceb8f6639acd97eb38;
  Add 0x92c773da44d1622981c7343285c9fa996637e06044b0cadd485807fd9624d16d 0x934b1ea10a4b3c1757e2b0c017d0b6143ce3c9a7e6a4a49860d7a6ab210ee3d8 0xd2831840679da4a3dcd420fb04daa9ff5df5d05ee36a365dd6a9e3ea87f0bc0 ].

Lemma vec_chain_ok : chain secp_gx secp_gy 1 vec_chain = Some (vec_r, vec_y, vec_k).
Proof. vm_compute. reflexivity. Qed.
Lemma vec_nonce : deterministic_generate_k 1 key_max 1 vec_hash = Some vec_k.
Proof. vm_compute. reflexivity. Qed.
(** signing with a nonce whose multiple of G is known *)
Lemma sign_by_chain secret val k r y s l : chain secp_gx secp_gy 1 l = Some (r, y, k) -> 1 <= k < key_max -> 0 <= r < secp_p ->
  1 <= s < key_max -> (s * k) mod key_max = (val + secret * r) mod key_max -> ecdsa_sign_k secp256k1 secp_G secret val k = Ok (r, s).
Proof.
  intros C K R S SK. destruct (chain_ok l secp_gx secp_gy 1 r y k ltac:(reflexivity)) as (_ & M); [|exact C|].
  { cbn [Z.to_nat Pos.to_nat Pos.iter_op gmul]. reflexivity. }
  assert (KN : Z.gcd k key_max = 1) by (apply (gcd_n key_max key_max_prime), K).
  destruct (secp_sign secret val k K) as (r' & y' & M' & R' & H).
  assert (r' = r) as ->.
  { pose proof (gmul_multiple secp256k1 PRp ODp (Z.to_nat k) (emb secp256k1 secp_G) (valid_on secp256k1 _ G_valid)) as M2.
    rewrite Z2Nat.id in M2 by (clear -K; lia). rewrite <- M in M2. rewrite <- stands_emb in M2.
    pose proof (multiple_fun secp256k1 PRp ODp secp_G k _ _ G_valid M' M2) as E.
    cbn [unemb] in E. assert (E1 : r' = fv (of (c_p secp256k1) r)) by (injection E; auto). rewrite E1. exact (Z.mod_small _ _ R). }
  assert (U : forall s', 1 <= s' < key_max -> (s' * k) mod key_max = (val + secret * r) mod key_max -> s' = s).
  { intros s' S' E. rewrite <- SK in E. pose proof (n_gt1 _ key_max_prime) as N1.
    assert (DV : (key_max | (s' - s) * k)) by (apply Z.mod_divide; [clear -N1; lia|]; rewrite Z.mul_sub_distr_r, Zminus_mod, E, Z.sub_diag; reflexivity).
    rewrite Z.mul_comm in DV. apply Z.gauss in DV; [|rewrite Z.gcd_comm; exact KN]. destruct DV as (q & Q).
    assert (q = 0) by (clear -Q S S' N1; nia). subst q. clear -Q. lia. }
  destruct H as [(_ & s' & E & S' & SK')|(Z0 & _)]; [rewrite E, (U s' S' SK'); reflexivity|exfalso].
  rewrite Z0 in SK. assert (DV : (key_max | s * k)) by (apply Z.mod_divide; [pose proof (n_gt1 _ key_max_prime) as N1; clear -N1; lia|exact SK]).
  rewrite Z.mul_comm in DV. apply Z.gauss in DV; [|rewrite Z.gcd_comm; exact KN]. apply Z.divide_pos_le in DV; [clear -DV S; lia|clear -S; lia].
Qed.
Lemma key_max_size : 2 ^ 255 <= key_max < 2 ^ 256.
Proof. split; vm_compute; congruence. Qed.
Lemma vec_sign : ecdsa_sign 1 secp256k1 secp_G 1 vec_hash = Ok (vec_r, vec_s).
Proof.
  unfold ecdsa_sign. change (point_order secp_G) with key_max. rewrite vec_nonce.
  apply (sign_by_chain 1 vec_hash vec_k vec_r vec_y vec_s vec_chain vec_chain_ok); try (split; vm_compute; congruence); vm_compute; reflexivity.
Qed.
Lemma vec_sign_long : ecdsa_sign 1 secp256k1 secp_G 1 (vec_hash + key_max) = Ok (vec_r, vec_s) /\
  ecdsa_sign 1 secp256k1 secp_G 1 (vec_hash + key_max + 2 ^ 256) = Ok (vec_r, vec_s2).
Proof.
  assert (N : deterministic_generate_k 1 key_max 1 (vec_hash + key_max) = Some vec_k).
  { rewrite (nonce_reduced 1 key_max 1 (vec_hash + key_max) key_max_size); [|split; vm_compute; congruence].
    replace (vec_hash + key_max - key_max) with vec_hash by (clear; ring). exact vec_nonce. }
  split; unfold ecdsa_sign; change (point_order secp_G) with key_max.
  - rewrite N. apply (sign_by_chain 1 (vec_hash + key_max) vec_k vec_r vec_y vec_s vec_chain vec_chain_ok); try (split; vm_compute; congruence); vm_compute; reflexivity.
  - rewrite <- (nonce_long 1 key_max 1 (vec_hash + key_max) (vec_hash + key_max + 2 ^ 256) key_max_size); [|vm_compute; reflexivity|vm_compute; reflexivity|vm_compute; reflexivity].
    rewrite N. apply (sign_by_chain 1 (vec_hash + key_max + 2 ^ 256) vec_k vec_r vec_y vec_s2 vec_chain vec_chain_ok); try (split; vm_compute; congruence); vm_compute; reflexivity.
Qed.

(** *** secp256k1 *)
Lemma secp_sign_reduced fuel secret val : key_max < val <= 2 * key_max ->
  ecdsa_sign fuel secp256k1 secp_G secret val = ecdsa_sign fuel secp256k1 secp_G secret (val - key_max).
Proof. exact (sign_reduced secp256k1 secp_gx secp_gy key_max secp_group fuel secret val key_max_size). Qed.
Lemma secp_long_leaks fuel fuel' secret val r s r' s' : 1 <= secret < key_max -> key_max < val ->
  ecdsa_sign fuel secp256k1 secp_G secret val = Ok (r, s) -> ecdsa_sign fuel' secp256k1 secp_G secret (val + 2 ^ 256) = Ok (r', s') -> r < key_max ->
  r' = r /\ (exists i, (r * (s' - s) * i) mod key_max = 1) /\
  forall i, (r * (s' - s) * i) mod key_max = 1 -> secret = ((s * (val + 2 ^ 256) - s' * val) * i) mod key_max.
Proof.
  intros X A S1 S2 RN. pose proof (n_gt1 _ key_max_prime) as N1.
  destruct (sign_uses_k _ _ _ _ _ _ _ _ S1) as (k & _ & KB & E1).
  assert (R0 : 1 <= r < key_max).
  { destruct (secp_sign secret val k KB) as (r0 & y0 & _ & RB & [(_ & s0 & E & _)|(_ & E)]); [|pose proof (eq_trans (eq_sym E1) E) as E2; discriminate E2].
    assert (Q : Ok (r, s) = Ok (r0, s0)) by (etransitivity; [symmetry; exact E1|exact E]). injection Q as -> _. clear -RB RN. lia. }
  destruct (sign_long_leaks secp256k1 secp_gx secp_gy key_max secp_group fuel fuel' secret val (val + 2 ^ 256) r s r' s') as (H1 & H2 & H3).
  - exact key_max_size.
  - exact A.
  - apply (Z.lt_trans _ val); [exact A|]. pose proof (eq_refl : (0 <? 2 ^ 256) = true) as P2. apply Z.ltb_lt in P2. generalize dependent (2 ^ 256). clear. intros. lia.
  - symmetry. rewrite <- (Z.mul_1_l (2 ^ 256)) at 1. apply Z_mod_plus_full.
  - intros E. assert (D : (val + 2 ^ 256 - val) mod key_max = 0) by (rewrite Zminus_mod, E, Z.sub_diag; reflexivity).
    replace (val + 2 ^ 256 - val) with (2 ^ 256) in D by (generalize (2 ^ 256); clear; intros; ring). vm_compute in D. discriminate D.
  - exact S1.
  - exact S2.
  - rewrite Z.mod_small by (clear -R0; lia). clear -R0. lia.
  - split; [exact H1|]. split; [exact H2|]. intros i I. rewrite <- (H3 i I). symmetry. apply Z.mod_small. clear -X. lia.
Qed.
Lemma secp_every_s secret k s : 1 <= k < key_max -> 1 <= s < key_max -> exists val r, ecdsa_sign_k secp256k1 secp_G secret val k = Ok (r, s).
Proof.
  intros K S. destruct (secp_sign secret 0 k K) as (r & y & M & RB & _). exists (s * k - secret * r), r.
  assert (NZ : (s * k) mod key_max <> 0).
  { intros E. pose proof (n_gt1 _ key_max_prime) as N1. assert (DV : (key_max | s * k)) by (apply Z.mod_divide; [clear -N1; lia|exact E]).
    rewrite Z.mul_comm in DV. apply Z.gauss in DV; [|rewrite Z.gcd_comm; exact (gcd_n key_max key_max_prime k K)]. apply Z.divide_pos_le in DV; [clear -DV S; lia|clear -S; lia]. }
  destruct (secp_sign secret (s * k - secret * r) k K) as (r' & y' & M' & RB' & H).
  pose proof (multiple_fun secp256k1 PRp ODp secp_G k _ _ G_valid M' M) as E. assert (r' = r) as -> by (injection E; auto).
  replace (s * k - secret * r + secret * r) with (s * k) in H by (clear; ring).
  destruct H as [(_ & s' & E' & S' & SK)|(Z0 & _)]; [|contradiction]. rewrite E'. f_equal. f_equal.
  pose proof (n_gt1 _ key_max_prime) as N1.
  assert (DV : (key_max | (s' - s) * k)) by (apply Z.mod_divide; [clear -N1; lia|]; rewrite Z.mul_sub_distr_r, Zminus_mod, SK, Z.sub_diag; reflexivity).
  rewrite Z.mul_comm in DV. apply Z.gauss in DV; [|rewrite Z.gcd_comm; exact (gcd_n key_max key_max_prime k K)]. destruct DV as (q & Q).
  assert (q = 0) by (clear -Q S S' N1; nia). subst q. clear -Q. lia.
Qed.
Lemma secp_low_s : ~ (forall fuel secret val r s, 1 <= secret < key_max -> 0 <= val < key_max ->
  ecdsa_sign fuel secp256k1 secp_G secret val = Ok (r, s) -> 2 * s < key_max).
Proof.
  intros H. specialize (H 1%nat 1 vec_hash vec_r vec_s ltac:(split; vm_compute; congruence) ltac:(split; vm_compute; congruence) vec_sign). vm_compute in H. discriminate H.
Qed.
