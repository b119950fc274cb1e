(** Certificate: the chain of doublings and additions from P2 to [n - 1]P2 on the SM9 twist over F_p^2, with slopes
    and quotients (format of ProofZops2). Generated. *)
From Verif Require Import Base ProofZops2.
Definition sm9_steps2 : list step2 := [
  Step2 0x0 (0x9733b0de9ce4808121584b0dd2a3a1f915efec3167cba64d2636c8be00395651, 0x9be3522f87a2848c619890eb1164c4213c32dcf80c58f83c4bf15b2efab7e794) (0x2a74f8561b91993205eb512576ad56221ea5963f3da078240d55594fb051ea86, 0x513f149ab53e94bb3a0367c61ff87670e025db30c57f84594e4ba4d7b3c656cf) (0x8e3d9ec4e63d5b9f83081fb97b715430c8bfc6f1a1321a89627b9a4e8961c7bd, 0x776de41db0511b8976d69c982dd4757d641487c68d13cbee7069396c20cd3459) (0x2e0fd14108b2cc7e7ec4b88b926517458d6b66d9a09514654c68bfe2c8bf1357d, 0x531ae38e340a476b1804b275d2c084d192546cb6cf130e4fb8740e3730e0238a) ((-0x8d3c30b1574ef6b0ef4248e31594ac688f407a113129564d5b0962668476b097), 0x102a96e856cad36b945a615346c510431b1dadd9079bee4986a82e2ed5c9a7f63) ((-0x4f2fb1c87bccb23916cc2cd7b8a742dd2f5ac58235269b2ea9398d7d2fe9f5db), 0x365904ec66a7a4c1e809bb0462fd3969e3eb0b87f5e35333c248f8410a230c13) (0x0, 0x0) (0x0, 0x0) (0x0, 0x0) (0x0, 0x0) (0x0, 0x0) (0x0, 0x0);
  Step2 (-0x1) (0x38ede1d5e273df7f07ffe0d11762ad562bad27985796458e0075f8dcad618dbc, 0x8b7b5888aa93e320a11557409897d8529c87c41cf84bd81d86c4a364d93d42a3) (0x644a96db82860a3a0b6787a841cbd32cf570087edc5ee85c424af8f9507e0843, 0x7b36e32056e5637c42dcdeb4ab6be8a61dd111cb2f4c59df41d98bd2a335f92a) (0x870f06507f45325978e1cefcb205754aeaf4137c901c669f6d35734d74ec23f1, 0xe4daf0d325b2389d33998697fa3573a4b699fa627fa9d7907333bcfe8b202d7) ((-0x591af1c9069d075d68463e94195ac692f7bf638179c06426eb7bc24eb4f28342), 0xb2c59d6e4d1a25224ac2272b44cd771e6a05f505f34d338290687bd4ce3c4492) ((-0xc3b78bd409df6b86ec14c17edb5f03c954a87d511e154765ea1923bb420002e5), 0x5723ba0f98a5f9d4c0d561af6afd5fcd395ea4429e4c6ea7800e23f9b82c2320) (0x2e2c59d90044982833bf451ea4c91e470e1383f4d2d5c5eb1d02a09a1c375e88, (-0x395f40047b59430373e204a1a3f15dc89282681e70f85571f40dc08b613f26b7)) (0x7f3fc12d88dce95683008c7ef46c383afee861c57fdfac4ebfa215d924685d87, 0x2e26f93c33965ef4c2e0836c0f7a9f416f91752c6ddc6e96da44ced843d7866a) (0x9e5437ea263653ea0617ca82c5ce5db4937dece2f762a6fbdae7fb3032f9b154, 0x4dd9b503b00f0e8334e5cbdc9ff80deb4b207a1b1fda2382f3812bd5687937c0) (0x3d491f4ffb2a4ab249e396fe8e58b6e8cb23ef935309e576bc5a9a3b4fd97090, 0xb1174c2d2b36cee03e1a7081eb71f60c35fac603f2b550218ec935c1e00bdd5b) ((-0x24d4cb225c87885bf6fe9c462bcdbdec3c58212be60b8ec5d3a4af598352571c), (-0x42030116116b7e35a5aaf1722917777072a9fa1dc4c75828ccf738cfe867e2a)) (0x4178d0a6b3596775017f168f3f980386837e6897354fb04542ede60fe0739903, 0x4072b34497b4132a79e9b3a24d6c6f622c851a56d8592d28db3e0c73312299f5) ((-0x3f7f83de60cfeb7bb2352d3773f68edeb0415e30d8ffc05a3a4045fb5a4ec640), 0x10f9f881b06c1c507a8c633587a5e0833d1819a16adf02d50128247109c26872);
  Step2 0x0 (0x713fad20593a5163bfae1af853618f50048c4c5f615e75ce7277a109d523ba26, 0x387461293a459735ab69a9e6adb927e52d95f035c1a2dce0ae0a52866daf4fa6) (0xbc11ddaad3bf2cb1bb8146d84f0ed697af16926a7aef77d6f173a2728163567, 0x55f2c957c11bee60473c4c9ffdfe3f0c627e996613e1230393e15dab374d224d) (0x6f8359f037d995093ba87d59a1a52cc2d8b5266d0f338ee1c1a174fde525dcf5, 0x7e7115ca467a899e1ae4a58b66d0b35e98bd148c93429330a7d3e1ba826fc530) ((-0x16460235efcb2c5a5b42e6eaa1dd5274141eb5845f134a0e295ba5eee7650b958), (-0x93bd41fc26f115a49c2782fbedd37a68c57393efbc4c5f15ee82b8c1eec809ec)) (0x236587af97f9eace5566f52bdaac7fcda42ffe5594f9fd444e8b3418d7a7bd11, 0x46293164787dda40aa7bdbf0bb96a7e2128d687c499af7a7dee5c00bedd0c657) (0x6018e5ccb54e47c78d37d98fa5ed29aa39819184d3875dd569bf7f7406a54ba9, 0x285f22936c6f9a5a112adb7ec27d0d697055d1c4622d0c0385146a58a5621019) (0x0, 0x0) (0x0, 0x0) (0x0, 0x0) (0x0, 0x0) (0x0, 0x0) (0x0, 0x0);
  Step2 0x0 (0x7eb739ba99dfef81275373414c9d9c92c14464c495ab693abc74dcd31c84de46, 0x3acfd66c8e3bf013684cf38eacb4da27ba21004dedb9da9956b7cd5e7d9f16c2) (0x7ff84c70450d142163bdb1e6d8a8cca477ccb2b3c7537ad947f2a5453a5cbf93, 0x7f078541f6b73d2aa930a721626af4c66900dc6d5f25df99a85081a55101855a) (0xa78e911055d0db35d79976390b2255ce7f67c59a4c3096651693937cd467a686, 0x184313faee4a0fde176c1873f26138e699a1c8174786e13ffce35642cb1b3d07) (0xe8c793244bbea16654acf16852c4058c7b5852eee48b606d99c315c7eab1bfcb, 0xd6895c26a3fadfd61d1179f8cf125045e4a2b5194727e1a49d46b7fcb2774f1a) (0x322582861688f6e333438a42c5badf5ea8c049a18d1814b0cadeebaa7d22d697, 0x51c8339bdadfb33625851384be4e973044e7f0d054bf310054111cdf031389f4) ((-0x364a147c2b9e6e703df73eb4546eeb07b2d5711c860aef59f4dd23378528a43b), (-0x4210cd35364000c27dd69b8063fd426dd2088ade628c43fa0890be28c14a5e21)) (0x0, 0x0) (0x0, 0x0) (0x0, 0x0) (0x0, 0x0) (0x0, 0x0) (0x0, 0x0);
  Step2 (-0x1) (0x63ac034934313a9e09ee83172b0b84a92c2b59512095a2a3293e9d3f3f352f7, 0x884ac329fbb2f66eec2482ebbd03f72dfd6888f5198af372fe933e010cc0bbb5) (0x17b29832a0eb1d28be7748e5a8e82761cd5e07a70b7986ff1421202ace7d38bd, 0xd8bdc4fd615535c6800fd5979834525d5450886262bae40199adcbe5e8d80d3) (0x23ecc1f1d62df47d39dfd486f2f746344e9625160a70583cf0bc3c2638367b2b, 0x9b4c5022dddcd20ec9da87554417c155a539b41a0478fdf7697428203ba2bc9a) (0xc88d498eb1808873fb11226481e18b3a50ef7fdc77bf8c311f8f3801fa352c09, (-0x11ae87bd15504f274776c5fe1ebe34ad8d113480bc9f4a12370b383de0486474e)) ((-0xcba237574ec9ac0f6e9ce6ac9802c374e3f8c6de7ef9f9f12e9e95ecca2db6d4), 0x95134943a7fac16380d6c26c213e601cb1ec802ce24b871b0c44fc2ce100eeb) ((-0xa62afe8df563ce126624ca2aef1f842c164edc6de5e8ce393a9870b0feaf1d21), 0x51db5f453d47c5d44c724ea7a473ae5c3034993af21a576543ed707fa1e69d06) (0x92f9fbe8b39c15dd0d988fa0bd116dd6334a8a13f8c394d66cde567be6249ee8, 0x6e8f92f5459a6a355f3f2c7c2009724cfe894e9c3c191c0c287be711e6d7d769) (0x2144d8546ca720b943d310cf58736c78245f91c9daee06b8ff141ef91ed1e1fb, 0x6945c0be90f6bd90002ed094e6c2271e48b36991ed1737defeb28e1ac8698635) (0xf9365c1d15ab3b541efe9d127d588c14b235a2aebd18ef9938de7f43aac9d2, 0x46072ccdfd30815e0f8236a33b6d961d84f18753bd486674639e51fa42cfd6c8) ((-0x7868878677459f2874f13f8dbc6a1e5cd8fc6f0505a3f0983057dbc82126b3a2), 0x73f4cc1944323827c5a51bbdcb7d65da94e418f67dda3c325ee16d6c0101fdc6) ((-0xf9cb2a6a791be3e1a13924263439cf82ad0cf7354fab116f10d15fdf32db2d9), 0xb253242e98b924c93bf86330bce0476a4e6cd5338346cccc7b681528f4f08cd3) (0x6792459abbec0dc928eb28567ce3d3e1224f33baeab7dceca4ead96b0da01bc3, (-0x4fc787547cc1699bc279164e048353de73d0c952d9c3ba92551a246bc6cf4120));
  Step2 0x0 (0x9b29686131b09658255fe26b6fbe29a88f02e3c072860a658b5444014301b363, 0xa0fac7fdef23cc0d203bb8c9663f2166f026135616bcea04623d14cae954d5f) (0x170217d2ab9789baf5081fdb0c55f736139f2c8a980bbd5441fafa55790b3ab, 0x4383dcc9421eaaee06655c2be6a71a71ddba88794654042278239135b2c1c5b9) (0x73e557b9bff3b9748022110af6732d90b6eca3edff4afc077adeca46bd81b503, 0x1b894b2b1f145d50a3a8e7fc59d1bb5602b09a496d959f7cf4c113d8287afd0f) (0x14cd2de6f6ada98916d140500efaa32e2be59203e14f9c6aba2ac89395288ad23, 0x40b677c417dacdf379a7d863f904e1f9c7de5242682a27881ae263d422fc96a) (0x82fd2313fab72a461261021b42af6e01f9023769ee37fba8b1dabd851b5e479e, 0x1121b0caef113fb58415c6a84c04c843dab004f4d0c5da746b4f5ba050880063) (0x16ee540c9bb3ae3db50d03cdf27591509cda02be05efd74deaa1a4d20cd46ecf, 0x21e714c08b91589d832461c743bedd730d865a285588e7545e9f868ffcb84491) (0x0, 0x0) (0x0, 0x0) (0x0, 0x0) (0x0, 0x0) (0x0, 0x0) (0x0, 0x0);
  Step2 (-0x1) (0x2179e33c148085ee6b948ca8561e555f004e4e1de020e447ae33e516e8a066c1, 0x45d64ed8e99e227ce18029d3ff0681a7cc625a87b020df3dd7690845e9a318c0) (0x666581e0052accbcd606d09224dcd3998d5af4de0d17815fd4d897b0b89a16a2, 0x7359a04728fd4ec40abf4675563a3b160ba8dba98d43bd54b81bfba653a54938) (0x42dd7ee41f68b14d9ccce1abea81c6fa6b9f84d91adb0ab2a7f64e28e859d61a, 0x65fda57edd27fc990ad22c88c805e8451dbf3ee730923d6ac27d5ea4b282d470) (0x9666ef63e17ee001f50eda8fb9ccfb32b4e9c512a8d363363d167216d6312ed5, 0x5fbda69a17aa235d53153f7fd917c3a4a0bb45cdbe4b37994d3711e479dc861c) ((-0x2f5f96eef18f573500c45ad28129ec1c57d8919100473ea5f391434426273003), 0x19a7dcbca50848a8c3391961cfa468992326f65cfffc8fc98277bb97659f700e) (0x121dab5276a7f077c2589edef2f49652bdc2944ac695654d5d8c39ab0864c99c, (-0x2f792134ec21b2d3adf1bf21a7a0fc2a84e169fa987fda69dbcebc77489d8dd6)) (0x988d73b45ecdd67c39ad047106516e904cb1c9b67c94839bf8b3c0e2b7dceb7e, 0x2db81d450eb343cc1deab3949425c2e91edea7092637c3ec82e0ca8a407f085a) (0x8723ca23bea329dd38b4bffbe141f0387cf066350e4545e5183b0d5ede04d06b, 0x5d0dae3dc49ab5b08fc315cf907adda014f8cc7f4f31c05e570b2036a16b08b4) (0xb4293e7a108ca84234948e6371475fc8219c44e55517a595b5acf15b0f63cfb9, 0x28a5b410dce4ce9c6d2f24f411f92dbf687f7668b7c327276e0d353aad2419a6) ((-0x30c24142ed2e4ad286ee946d67aef0f87730e8577237d2a0dca1bc8702946309), 0x37d637e252418bd727ea3839eb3693db015c090adda58c9bdde0169222fb0d6) (0x68c18c5308a8d2d0dd02a8351188172303c86a11500e0a58c037e3f75e61dae4, 0x4c89e1a85402ceeb1aa60fc3e0e0e9a73e322b2d14cb4d2e0ecd683fb2e23707) ((-0x26982f93e0722f6fad24eb6cdf94bdc60d4689fa57a588e705cb297ef679b1a5), 0xa73105ec8c12b8799dcf4e2130dd949c9e722f6ff2cfb70e5a99c7afa73f498);
  Step2 0x0 (0x6d01aaa30dc0c59757d869bcca1ad62304083f2080bd7a34ea0eab59246dbf86, 0x53f7a23ae6db318e5ee7012692651ed5bc5567c307004079d61a055f6da8f883) (0x6174105190950db451ad768f1334de943c18df110f68ab48225c4a4b18714743, 0x725a8df2a73b6d9932879fb627687bf629546cf723d4bb3bf17cf259342754ae) (0x12be316c35586bdaeab3fd1a3f274127d356655c8f503b2c2c45fd816d8e7e9b, 0x32757ef0f1e3cb6f4aa4ee348d2026d8c0a23bf70bcb1a71f30e11c63ff33be1) (0x7d0d3508c3d405e9045ab5a4b2e6d4b73a18ef1582d2c228c478d910a73630cd, (-0xc75da42c75cb2278a32b4f23c100e2b9d4d2350bc933921e43cb544577a52192)) ((-0xc2c63f2e4eee5647a6322405be27049d90a527f19d2aa6dfd3338e4b8c926d3), 0x6471bbe7196a1af2d33d15ddf3d9e42a66596567714e80f996df3b5ec2f946a6) (0x2a2b039da65e27ba1938a2fd92122819ee6723b1b04d9100b48f7c65ce9f39d8, 0x49f82e291af93070c7970e13c68d9b9c138e0f4b5d443866429175933f70379) (0x0, 0x0) (0x0, 0x0) (0x0, 0x0) (0x0, 0x0) (0x0, 0x0) (0x0, 0x0);
  Step2 0x0 (0x59011b557d7e85cbf2f3c03d52b8a7e0b21fd9fed544d09662503f42d6004a13, 0x843eded49cbe520d6f6b705fccb440551bcdd6a64eac5fab1ec749db0dbaa4a0) (0x1fdcb8e63c73146726e071cd7e16b70515d12b7f9374f670137db6fefacd0e5c, 0x1c32336d69930b2d36a2f0f782a7ac6549af77aad56e0dfbf6d7137bc31b669c) (0x974a459d6b4417bb9845e59e80ad09f108e1bb1b86d835197d2ae96effe01dc6, 0x37b7f645a11ed294eca8eb44bd9b3285f2827345161382913ead71c3a6c68e54) (0x9207442f54ccfe90051c63d675139962e25581d628c3b10086f2291e335331ab, (-0x122667daa72a32e0f20fdabf7ef5ede7667902aa308f6879898494e220578284e)) ((-0x94749df72e6a8a8a2478a9d66aa7fc0cb30b9ce27ef11110b04a55096cdfdaad), 0x812afe7b2045a6b22a819b9c4078ad2cd7566007a209f2324b20891987ca4968) ((-0x5d011a319eab707293cde50a85f87fefcd1f86f878c3fe69dd3a8622068d2f6c), 0x59abc8b950f59db2c784ee11857951d14a581d2db5cd6e80f60e21911612fb55) (0x0, 0x0) (0x0, 0x0) (0x0, 0x0) (0x0, 0x0) (0x0, 0x0) (0x0, 0x0);
  Step2 0x1 (0x86baebcf9a2bd70a9911607d7109a493c706fcb1fdc86f16c4a32214c99c114e, 0x280bc6076f40f947b5f68d26bdcde10b42dd51d16a245d09cb96dde2945f1cf9) (0x9fa90b6cbada2d92a03d0e806b773b924ff54b509ab451570dfffe239a908206, 0x1e74495d64928a44413a4b6fac1c54eea838144e6e41afdf00ba962e72d311aa) (0x594fe3d6c6a0d386dc75eb6cdaf52012c031baaef79a8f7e080321743a61ffe8, 0x57d6bd4326eedb9fec0a145a0f5d1dfdd9a0af26567d7272334de065025f74f1) (0xb82cebd22dab8994b3153c2216371d12931e20c944644b98f3595fd5d5258ba8, 0x774a6f1496f28b63e2688d788f0c9cc2f56e43ea9a90e8f03e872e0e842c56ac) (0x52007f1dcbaf546cf5f9358e594c3a2452a08d3c01193855d0d22a448e53d474, 0x3b357482c8df9e7f8196dec50da5387713561eed9ac6a16664d08f429db11562) ((-0x5d7bd387a517376a06c5ab5289b0e31142e914fd700ee74749882ac521882196), (-0x1dc02614dc53b99751e8b7e451c25132c282f78a1bd5e873d2c997a5cd6120df)) (0x3e1869502a8d5dda258b855c591856fa4e42692c028fe2d070b6494869d07a23, 0x8a922ce542cc9fa00bd0a031db3ff39e9c005a0e8aa0bdd05eedbca2bd694273) (0xa20747de8636af657b42c1fe2c4d65170fe2ff9b8ea729485c9a4a534a9557ab, 0xaff61973613639baf0f1ad39a6bb2507dc722663ea7c87ee0b8b211132839f56) (0x4f195e48f997446e989ee5814afbb44772d53f090699a96a98b7913eea17fbfd, 0x9eb5a89a2b5586b22932b8ba36ceb0b4f89b5d1e60f4c8f55018d04dcf3bc3d3) ((-0xc09747ca746e319ee55d41ddbce4c152f77a3b1095602b7798b64f145c4747b2), (-0x2c4d8357bb0e6479eeadaea72d3048a143c62a20b0a9e952948356f3897572e5)) ((-0xbd9057a633144dc21ecf3a2fff40e89a7da17bc6838d90572402351a30f618f9), 0x5e6d2fa383dc418898629af50f615f0ca0f3cbf7ab60ee5bb8158a707751ecc5) (0xdc7618946ca20d05272a918be320cf8d50dc4b2bf4f17202107400a4db1bf5a4, (-0x336085ad81c8a2dec264f26f9c69176d2adbb1fad151ffd17883f8e5f3c72cb3));
  Step2 0x0 (0x8a9f151cef65538662c7cad0040b91b52f99b0dfc681c268bf6b9989e53aab10, 0x62372d64709bf832a45c8cf995b492a9c9e80f695754b25264c216aab087d340) (0x717b086c25d3ad628adb5d65cef6334bdd7a112d2b41a3aad5df24d2d025d02f, 0xa6052d40525c5da4e3be3cd42448ba65d9badf47e9462aa31d344ccf084c9fb8) (0x1b16570fd139cd8617d48fa60494f07d501c41410c630d0b974d8d0886445eaf, 0x48d82bb1d93289ced2f12a9ae53bd71c48ad096d7d38c0728a668e28244a1a18) (0x16d6544a75b853fb4907d77149228ae314ee0c169e3a285720c78cf8fce255211, (-0x263f049f7f2ceaa0a678b942bfc03a64dd6e3c119419313616e54151fff952abc)) ((-0x6bb7e7561e432c2a9e14ca16f7828d524fa9932e87aad4ace24f93e7140ba9), 0x95685f1118b50d0956236936932789caf1c6c5576cfbe485950d92614c1d72cc) (0x1a361ecc562efbb2f11638080adbedacb867f2d62709844ea8ff4b641d85f2a4, 0x21b959479b156258479dfb7f330a4885f2aa1f6b9beba07f62b4cb9f5229bad9) (0x0, 0x0) (0x0, 0x0) (0x0, 0x0) (0x0, 0x0) (0x0, 0x0) (0x0, 0x0);
  Step2 0x0 (0x68990a06e6f22a128a1589c6583e11dd1b0e4c7e7d2932db71c5345467ac6970, 0x47cb877833838987f952c493f2dfa116df371d00b77a5f64709d0af745eb3541) (0x2091255d630223402b4e7165302b89cb242e4d73b7a8dc8515dd5fba2a8a35c2, 0xda98c501e8d86e6a0c89765f2a678f85ccc9a4b146ad37846df93ea9d05b79b) (0xc8ae75c1c857f483abbe7ecfd8f2829ebdafe5b4e6b06eb19d00205cce945c3, 0x1014df202da63f3d4bb48089e096aa31734ea5eac12d91da278f9895d9ab539b) (0x263bdb80ca35721326e6479302565c251f6e94ac4a918746bc98fcb39e29c5a61, (-0x2034b25a5a43dd407d44d42f4150ff7273679d4050c2ac70d7f727e93bdc234ba)) (0x37740937b3594540b59432c09f985067d84a222adbf6aa58ff899173c958bb6, 0x5268f0293df02cf83b480bdd3bc912c501c6124bab51a740e8bc9ebad5555739) ((-0x4999bcc64bf31629257105e3e4b01c728275b275e0b52d4e4767cb9beb1dbb2c), 0x77511f1119d780f9d9c3921692e005186106b7985c970a11499f941dc18f8d72) (0x0, 0x0) (0x0, 0x0) (0x0, 0x0) (0x0, 0x0) (0x0, 0x0) (0x0, 0x0);
  Step2 0x0 (0x131627a1eaa08b276aac59c73c2f15298bd038c66865d2b68699d4991b54766, 0x706ec2fce85a870e4cd8fd056819e9c85a646fbdf887d0b3eb3acd770b1a8b84) (0x479877759867ef1b8c7be4df7606b1e4baf7db3bab971860d7cebd786e6c7000, 0xc328749962b55f3f9d4cc4d90bf2aad62a5b0872f34b1998bf3badb625ccde4) (0x6222af2d00398ad6290d3e5eed18db578d17cf2bb1b60d4b7fb33765f3e66ff5, 0x7a60ba32f4f75e0d3c78a387ebddd1fa2d3b17056698949b8e6ce98656280d07) ((-0x32d53c8f313f525587f3a50ca1d541f7c2c661263839acec60eb7272a500c4ea), 0x109a7ae525289bc83660d1d5fdb8383034bbd7db80d4bb68be6c4b2f2ffacb8) ((-0x8ab70171895b9993c2e49c0c4a6200a74eba325fe04a60a0fb5f02437d716300), 0x178cade33d80ef4f4ab3ef99270ffbed4ef9c5a32e165515b6ddc205263ac4e) ((-0x2101b98d2a3ac3d627dab225e46ca9717fb04301fa6e93be733898da60420f4), (-0x181155ee0cffff276fe3e525d2df1efbf3f0cd56e13edad60638ab4b4111bc70)) (0x0, 0x0) (0x0, 0x0) (0x0, 0x0) (0x0, 0x0) (0x0, 0x0) (0x0, 0x0);
  Step2 0x0 (0x8c55f0c667cde4c79243477e1d7e2ca3e02c30f98d0f809822a9c6e39376287b, 0xaf9c6d48e05d13188e41a04d65e7e5fccfa2862d8a85c894212671c1f0de2890) (0x843fa622175a237e6cedee535572d4a1b36c1e530cfb0c4d37b68e4a2250a783, 0x5cdd783ff36d24a6c73aee22b622c22ed0824b0e4ad1c2dd51265bb7a6d69fa0) (0x401d9972f0f6c558ee508e852878dc30b0042a24676ff3c6c7b6ec199802f6fa, 0x77d1d6b33e24eecfe1c0ad748be037fce5c3fd1dd328792efda33b70076ab857) ((-0x19006e15467d4e5c42403cd7e6589098a95683aba90754d2c619adfe1320f325a), 0x15cd66926d4229bd5901f9ee62683b8e06126bd044de802dff79d7cccacfee0e2) ((-0xe65decbf5ab196978ff13bcdc7342d07bcb6f1507e54b00fc562101d48355c32), 0x10e727a8b728d3f30a9325a6d438c5e377e7442f9fb8feeca3bc4852b099e0c58) (0x6cc124f7cee06c64d99b401ee3975a1acf5c09dd6be168bc118f30f3bfb2ad20, (-0x788f2663799c663fe0b318662d6840c83e61886fa17ea65beedd5a760373738a)) (0x0, 0x0) (0x0, 0x0) (0x0, 0x0) (0x0, 0x0) (0x0, 0x0) (0x0, 0x0);
  Step2 0x0 (0x93d83dca31a9afce247c8c7a529ee658763d5456b7835cbc39f6d68b69443543, 0x6d88e03fe1281648983ffac51ca4de0a220530670cf5948028ca997cba6ab7e6) (0x31eb7f74c1f94f7df8083466b25bda2982587e350e4ad9c27df623506b7ce76d, 0xa0d50f269fab5c343ef7d91599e5fc62e1521931f9ed96b2d3ac3406ddef5d9c) (0x4778e2bf25088466ee0419718dafa7c19250a442ea43b1bbfed1c0ca3135a313, 0x95d3df31543b7d5c693ad04738713d95f9986cca0b0126d0d4af2d423f46bba7) ((-0xbc02993433a81bb79c60ab97fa4add0d8438ed5cafd1eba36da77ad6530cbd33), (-0x84da77a20af7f43a2a1e994f7e89e7524be62d54e27ea63e02c0e00f25b0d2d6)) ((-0xbbaa8cd890c07ea5972e9f7eb358f20426629365b9be055532a306dc6588b9a), 0xb1b6978cdc6a9ca698053cfc4713dc523c31722823e01eb8cab402c07db0fe28) (0x947c258996c7b959e5fb1c830043e066f03086d9e2047b5a044a6053d9af7fa9, (-0x5a7d564b067ec24dc3230b8f7947107fa60047ad2dc7ef24a0b0a39de832746)) (0x0, 0x0) (0x0, 0x0) (0x0, 0x0) (0x0, 0x0) (0x0, 0x0) (0x0, 0x0);
  Step2 0x0 (0xa35bfb3a67dabfd383bb5296c5c397da889ca9b2c47e76c571498cac9db8717c, 0x25f8131ad45d6bbc759b034ff100fcdf173e3a56173088e8fdd3b7f32074d563) (0x91e66f26f932005e2e37230a991a31423c93845f303c15f3be2870a82efac5, 0x92bc4e788caa528478c8c5f6c901b66ecdb1fb976f39941a15415eae2882e4b8) (0x6d78f451d094ade2dbec04fc7d219a30a27efd9be2bca26fc9922cd59c9e58f7, 0x853589a27bf282977a332af82bc63bdb7daee35a7410dbe45ef6b1870d6fa4a2) (0x32dd6ca3d7e203546bb9a84d588be5e479e427b3171bcf0e3ce62ce024fcb996d, 0x220e1a004dd85a12494b8ce41399447942c16bd9321a5519677addb0cbd3bc5a) (0x829b2aaf6d0ccdcc172fd776569b76457ad238b94b5794f24f11a89c66ffb38b, 0x44112042c33a0c8d47efddbb5b11680a53f18e3feb54b46595145962f8fff758) (0x265c6ee6cac80fbc7ca54dae9c6ee9a4511e8221bc5989153e066f5d2d9e5156, 0x16eab72faa9d77a844e3f4a9f0d691e1ac99416d3a8e8e25a8075b01c3c829cb) (0x0, 0x0) (0x0, 0x0) (0x0, 0x0) (0x0, 0x0) (0x0, 0x0) (0x0, 0x0);
  Step2 0x0 (0x5acf2d7238b6c4b183e1a97376d07e8572b7a392483fb0be8ccd079935197820, 0x1adb99d79fdd4e1f80113a5c0cca8787d1e70f6d4334fe9859bb0acf9e674b0b) (0x5c3c73c1663e1a81a18622578d926421d7637c2c9f8d1f932bf7409ebceba78e, 0x8f6b14e4f9e00e4d56c0fdfaa2cb4636789e5ae8da7fc038457f523e02733e28) (0x3688573f224f12fd351fa9c3a70e5dec11142a63ef31cbb73f5aa7e3c38e7e7b, 0x1b679d6cd73d963dece404cfec7ad36957ff001f7718ecd4b3529f2f1c6a1aa) (0x2e36a44f8120219f8ad46c10cb7b8a6a1533dcb24149d9db2346e510916d501a1, 0xa2428975c9ebb8920b9b1aaaed0e4da9c394201f0c7567b6b3e2892dcc6126f2) (0x2554d49ed9d9ace1e5c3e177cc56ee68bf1f8de121b705b8404d30781bec13ae, 0x1ac3c7977418ec4a1c29c8c2dd0528b3ef14470a407620aa1c91327c8a408048) ((-0x2ea6ec01b928e82fcb3779ceb06ed98ec0407fd74edd45e4833f1cefacd7875a), (-0xbdb13c815fa23fa8350cc3df4b49b68c4a0d7e7bfd70834eb3f197a62c4badb)) (0x0, 0x0) (0x0, 0x0) (0x0, 0x0) (0x0, 0x0) (0x0, 0x0) (0x0, 0x0);
  Step2 0x0 (0x24393a26f6cd44d803f46dfc2ab1489288cb405890e0151ced5b6645ad6c85d5, 0x406066c185a1158fc92d665716e4560bd0b862862658793c3f78a3810de87d62) (0x9793d7782a84a4c4ec6eda6adc00d7014c1160e0ec6aa675212a375fe965c21d, 0x750c480eef54ca0bda9d852e1853fa8bc917b1a2fece2695a707bd04d286547e) (0x17ce0f5b3d784a3efcd03b4b4df4cee07f09241f96061cc88966d10d5ee148ce, 0x4ad9b99ad4baed15d1d9a2011dbd1b9c528fc27268b0d778f5b001b4fc077705) (0x22c60e682e534a033512213f0fb5c7c933d0ee1e5c9a4eebf6006e9ac97acea7a, (-0x18c4b86e1359c596926cabef651b1d4f3cbea264f0e3baea088dce8234b78cd50)) ((-0x2647b1a2b05555a0cdbfc69d184041979a1f46f798fea1e0f780edca8ecf73a8), 0x1997346e3735b1f0ac97597c9082837f267f538b8a55c27eafe8aee5eb78643e) ((-0x1e6c9a04a07e0e1ca64735782e87e1185302ccacdbfd3a712eff0fb94eb736dc), (-0xfb850ee2da32bc9e7956d198dc823fd749334da17d099a94c980cd0f61356d7)) (0x0, 0x0) (0x0, 0x0) (0x0, 0x0) (0x0, 0x0) (0x0, 0x0) (0x0, 0x0);
  Step2 0x0 (0x3709a936057945f0e81a9b670eb1bfa13caf31bee6395feb9961830482a6f478, 0x17743e8265a89575a11e76fffbcb1d0d453719682291eae7f1a24e6043440325) (0x857cc46ac71f02cf3360df09ac324991bd3375d2c16fb2776ee29f8846758f7c, 0x24ccde44c17ea21fd2efcb117d1626f2cf15e8cbb9dc650ed8ecde4c3f28b8d8) (0x835c61c303c2b08c928a9e762f605ae0a506fdd7a88be742f4a028962312c70f, 0x6aa6f2d20e4b9510674f890dbfcea054a28a495a06bd4b187d89eb7bdffdb9e2) (0x30ae95cfa4334a5711e1ab9330a58ce8604dfd11ce3c4e7bba8a4251d6444bad, (-0x214c21d35e98671d7b06a39d8af32b5aef3c1899e6c326437ca34536ce9c15b88)) (0xa958c2beb9b3649bff0972cbcf29ed8bcf49224ff9195f20f7ed3b8d5c69cb8, 0xe2a7288ad2a7cb8df3de187a3713f1a42fb8f25bc0af28a932b35498477e30c) ((-0xf30ff5ff79c044f115f93185475340c34bdc36c806efcac5f4272c9659ff5b5), 0x1a8fe4ba3eae672985ae81514efcada189807cdbd291679cb02bd0df1c17c546) (0x0, 0x0) (0x0, 0x0) (0x0, 0x0) (0x0, 0x0) (0x0, 0x0) (0x0, 0x0);
  Step2 0x0 (0x5a8e77784440644987681895a78216c0ac5bad0e7dc2bb2c28cb59ba90f920c, 0xab54e9c38a5b2348eee0e0e41cd8d2681d9e071671448d2e1f8c5cb2952bd1f7) (0x34fba1babce870544fc6ae0b6600c1f1c6781aacbf657334f337bdd636316124, 0x6af84d86d6fc04a55496cadf4b7dbf262c08f08997c5f70046e691f214aeb1bd) (0x2851841f9d0ded035d43b496f8c961af0f1e01f5f496a42e1a0b0ce0de95afd3, 0x4a598ea731e140bd47af848769dea6f7adea132f77cfd647761e3effaec24160) ((-0x2819f5b52d710e26e8163693b3931d5aea4b2984b3371dc9a5ce1657a9885db80), 0x5be1ecf2b88e05cdf028ad5ff7806cc52e1f02b3d83a2054dc32bd2545296d8a) ((-0x141f58e21e9a9f980fcaf51ecf337e423761dfd2c0fc1e90ff11026e700fbe846), 0xaa4348a99865c3524689ebdc4de6abfe66277ba32674fcb29b56ebac51e6797) (0x866e90adfc519dbedb92d0a030d964136e38fe891d3cfb0e7a39e89f2921b6f4, 0x49809ea1de7ed329bf4231402e205627ef6412d22acb2c64136986f0a67356b2) (0x0, 0x0) (0x0, 0x0) (0x0, 0x0) (0x0, 0x0) (0x0, 0x0) (0x0, 0x0);
  Step2 0x0 (0xaa2326a75f675445d503095cfb5f120d2d0b571eaeb3ed46b9f545ceb2e76f0a, 0xac27dc62f1c169b83abb3e2f8ddddf96e042910f9015c73301c4edb990a1c957) (0x9a450bdedd964b3488992785536b5df30dbdcca03efff5dd49fe6f7d6210cac1, 0x507a2c8d1f9b17d596d061b67b0fd98c53e13e6f71437d78234538ebcc75aad7) (0x7cd4c0e994ad08893c638f55b40af2e9449ce99f8559f51026b6c706fe10dedb, 0x260e5d1dcb3e3f36d68be7c1faed48c9c15117431f9ff49f5f0d35e510abc03c) (0x7cd9f59116ec67c26fea9ea63bf08f57754fe7398373e03db4fec86f8cc4f1aa, 0x1c667e72f4c4c303819e8325b60e566f1322bbb22d28cf43c4ffafa96d01b5da) ((-0xa6694f10ee01f5ffc1d2f7537d3c7b076d3876ec525a20240e8b12623d930593), 0x1416d84837b5bd1516db249a34e15493b463dff9cda5643193fbea21c95975557) ((-0x909b11721a712b0c26d66473ade1b621fb73ad6adeb76cd5859661dcd2575ff4), (-0x46f1e293355b70f6e603bce79d780f55ba7f099b37139b4e3cad21aa559d10d7)) (0x0, 0x0) (0x0, 0x0) (0x0, 0x0) (0x0, 0x0) (0x0, 0x0) (0x0, 0x0);
  Step2 0x0 (0xabe37d14d772ee3c718921dbd0799ba9ad29e9fc13886651dcad72f51b3096e9, 0x45e0bb3c2df3e3e0380a498b38b12739fe5e7558537804fb34f45fe88514d6c8) (0x6dd03d1253ad0c8d4331f95decd0eba96d5ecdb411b764066b90080f08361530, 0x69b2d4bfb489e4ab21ab0f3ba542435ba4c0904ee8dae9a8792306ad7ff712ae) (0x45bbf5a5609885244223cc690ba9ef9a32ecf4f0ae85d1fb4c6a774002c8aec8, 0x2ba868f797d8b2fbd2d9fee486ddd3b34bfa8dde659e905723f07ab4a5bb41b4) ((-0x16e8b7a7fb1425c9db76819b5d8023feaf3450857d021085411ad7b52c40783), (-0xf1389335d974d6b664c73a3ec6c083c9e76a34fd0b5d90598095930c0fae2b4a)) (0x6c88120464c195a1ec67e586336a8d85c90f59f42e840cf6f1a446c6a3a52a8b, 0x83cf6c76637fb9da5f704c0c57c4b1b54aaad315ae033b0596ffb693c5196cc4) (0x3d44f8d3f4146e30c8dc7b4f02b62df88fcce6983d4123ffbae85025538ffd3e, (-0x6bdfa507ae329b2da707b10d898932c001cde219c4aad50eb7d77df9282d063)) (0x0, 0x0) (0x0, 0x0) (0x0, 0x0) (0x0, 0x0) (0x0, 0x0) (0x0, 0x0);
  Step2 0x0 (0x9bc09c1f58281f4d903936e551707eea67dc2b51073719c290d3c3820fc848f4, 0xb62c16df41b2274dd2f3c149de9b9c6724adbf011ea7c0b126367d2bf52a925c) (0x8a8cf5e5fbc9de16aa2d69d52bf2cdcf893a0235aa93250e1a7f6eb974bef086, 0x3bec6e55b9c6304f3c8459eb6c85f17f43b3c75e0b77709bd573b64d8fcc67d6) (0x7c3913459273236c8f79657e915e693d91336e170b265ad75abc1d22418bb7b3, 0x29804d2b7f855f50eefa4bb2e0703c1f9299e2b9aa0da69adf4a630d23473122) (0x71f0d15feb3605f2fd3ed82a99d3493e60598522640c4f927339aeb0512df4f8, (-0xa81909df50be2761c7cd38785c6a1fa1cc66b14eb363f41a843a210d9848e260)) ((-0xe714e821dc3b2ec5fbc888ed9fdd7033ffbfeea192820c9b56bc0dfa7bc6782e), 0x1375f3025e92bf084331f5f4272e95a96db3d4fcb35a45cfe1bd3ac8fb6829a46) ((-0x7411ea30a228bba3d9e2f96cc21d0648c3ceb1b21a85293640d0ad4b275db0ef), 0xa650f8cc30b9679b6def6020ff6c55ef895eec8ffaf45175a6d0c3d5ff9464a) (0x0, 0x0) (0x0, 0x0) (0x0, 0x0) (0x0, 0x0) (0x0, 0x0) (0x0, 0x0);
  Step2 0x0 (0x35f44b9cdba8681a9bb2f1e2c44d7ff4bd3278c59de468f9da281654f8c7517a, 0x48ac9755cdddd5f9dbfbb74138d6912766cbbe871a79951a31908d16d217e2ed) (0x6cef0e956bffa1c14bb9a81df64038d0fca7c2ecdf83e306c9e7d7928fb3c17b, 0x6928272eb3f6771256c19a3bd89ad6d913dd35a9819842481f6d4301bc94a8e1) (0xb0bf94901a30b78679f3096619f9897b1fa038b95fe2c1c7ab4c1a3193ebc3f0, 0x6cd95746bf8e2816d9c561b2d0c883549ce399c53d8dd80eb3c4bf44e22c4241) ((-0xbe6a92105e6fdc4e38453f5e56e1ef4d0cd703d789eedee06688db37b9bbd5e0), (-0x95b04704c5fcda6f60bb5a647c4a607cfe557950ef6376b20d2fc7b7a96dbaea)) ((-0x29fc809329a3ec62b0e6c44b33bb5e7833b03bf7a2bea8ac89fe0ef8e5605219), 0x2b079bb304b2e032679d030cc2c58c165a3eb6aa81a951eff959a18100405c63) (0x2cd7ab814208d806c8d74e28a9d010fbf6108c3c77db1e0a110740e78e26a62d, (-0x194c1b24ab7e535d8f8c6895d93b39695d75bc26310e4939d9b05cb818dd6da)) (0x0, 0x0) (0x0, 0x0) (0x0, 0x0) (0x0, 0x0) (0x0, 0x0) (0x0, 0x0);
  Step2 0x0 (0x777792c0b3b6139f1a38c38747a4061e9d7fe434fc8157048f90580e9073b15d, 0x9e3265c9521fba0ccb85909c15937b767c114f7b0ec670f9b08234ec6c379356) (0x5b4216f2428402b1304246ca42fd1e266cd15ed953b7f060e102e9994059ee07, 0xedaac714ccdb97ca1281f4e83187fbfe669b0d47a27380030ffc6d91161ab2) (0xb187374cd728f6e57566c8e4e573d317e5fe01f0b5d11874e798f043d9661eeb, 0x9e70c42253f910eb21876a4a85f95c226aa0b81f0987136f56786d0b5f71c2c4) (0x168084c1dca9fbb2a07689fd3a44b085889368f96e9d5db49949333bca4980bf, 0x486c26f05b91d449124cd683631b90b312a5d9e9611d3a12f88831de92ecc2b8) ((-0xc453088f2b5134c691844131be1078d2b09c9ca3dc83bfe21181b902e39093ac), 0xcf66616c6b0226ddd59bd21d0cc4020de47811435d10cb2ed2b724478f0b5aa8) ((-0xa95bc1b193f4a9549b35d58d61a92706d2763fd9f8e3f97a3555b440354b3267), 0x53aa75df030c9f7d93fe25c645ee1dc2d469b425438d4345e6e67b74a0d464fe) (0x0, 0x0) (0x0, 0x0) (0x0, 0x0) (0x0, 0x0) (0x0, 0x0) (0x0, 0x0);
  Step2 0x0 (0x1a5aac232308329ab733313d0e30d7279af2d1fd139ad99ceb5e24cb7c4d03a6, 0x2486431a10ad2e7dc2dcadfc18f35896d6dcfe8040817a7088cf2b53a3723bbb) (0x93cdf4f98e4b8fefdc0f8479c631bb212294ec42eb4fa9a22a299b224b36fadb, 0x89ea33b2574cf4124db74811755b2bfd0f4eab2fef022a58414b0c7157b302f6) (0x677409c2e3758e286101b67ec2b380bc9f0e4819eb1ee632bf5edeb9719863ef, 0x8621a10772487ef552321e547c6b6be4ed8df59a6e4bcfcd1e01935a4493fe08) ((-0xd4ba39ee56cd3a410efaaf08239e106e314668f6f1cc2bd0b5e173fe26932833), 0x723086d8a659c9900f75e4e2d8202f40b60d82399767f50473ca53c7f33b04e6) ((-0xad425375f18f8d4fa4bdcb72d8eec019b53ea7eec98fcd091e41e3604f19c03), 0xa902e9143c00408a8ed79cf151ef440d9d7cf33a58f441e4d97cc316ea5b0f2) (0x2ebacae7238048480ee63fff4cfbfb6fd228f943cd01228a7c0e889c16c25dfe, (-0x1f2428d00b11510f9b9f13ab03723969b38da389c7df20ab4a00f46e75563ec0)) (0x0, 0x0) (0x0, 0x0) (0x0, 0x0) (0x0, 0x0) (0x0, 0x0) (0x0, 0x0);
  Step2 0x0 (0x948a2f8beae03d2af2e7437df4a4482956f7a58b3c145de90bb505f950ddd064, 0x93ef2e72a2f4a7f5b6a283aa9ce30dd5948a66837d23e57e79c39ef923e627d8) (0x37c691ec801ea8880744d762cea05533c289e536365d6624b98716342c03d819, 0x54274dd5557b14df0f2ec6a947991386752291c1967e52f55a69372c7dd84a2) (0x8386743c890454250de8a298ddfe6d34a6fd377500018b2d213cc3ac5d636cf6, 0x2d25f8f1adebf26e2d37ab88a1205452dfca8e5b75c6cb1186a28ce63d3b1d2) ((-0x494269162c1e361c86373b878d3f79aa18c73b228e13401d103d24c09798d7), (-0x11c805672ce7514c6ba4533182c71fb5d846a084de62dfa526e3545b1b2fca64c)) ((-0x77184bed61a24756562b134836f63b364b4a03d287e118b44625cd81b967486b), 0xf12488fd0bf7ae5d1519cc9f1894cfe3861c7aec225817bb12d603d57d683d9a) ((-0x8c594e8c5ed9333b14e8d6bdf869b3b7f67d745c768211cbaf1d10786ead90e1), 0xb6d1ba4545bb6f0280162a47e6c9452917ed98acd3f98f073da7509e16981e1e) (0x0, 0x0) (0x0, 0x0) (0x0, 0x0) (0x0, 0x0) (0x0, 0x0) (0x0, 0x0);
  Step2 0x0 (0xa2397a3c38c97aa68c521fb11d1173df7c5662d7df9962b4b8b112155815c622, 0x499f17632de7a5d705d1a505c6cc09ce79ad23c124a0acb36253fc9fe8e9aaac) (0x955c805c4b7c27e6dd1f9c88d8e2d19ed502d7771c17b6ff040eb2f32298dda1, 0x5885fa48009fbad05e6b5b7cb1c47bbc05c4ae320944c4bc3457e55c138f32e1) (0x612eda4e7a8515d63047e80ae62f4b46d56ac77ba11fab778cc9a97f433d03ef, 0xb393115fbec18cf08069351090838fde2b09075538e7bec8ee6de979e7c81071) (0xb34a0b6e8c481a3df33175ef28a3854ceab347fce52660a885e75f8846659041, 0x65a08651f5f198bba9453c33562a26978d286f8f35655a9bb9df16219af8c8dc) (0x54eb5d5637b080335ff1dec9221f594e00434af5220616c5e9795b8b2ffad6a5, 0x831060925f6ee1c833142bf6fdb159bbf1af01bdf5d14e2b34989b49d5d439a7) ((-0x1008475359d552ba6ab7e55efc3a5db767de77f18e9005fb088ea722b073db11), (-0x6feb66b9a610287dd30deb306d4536b034bdf762062064560c471982ab2ce3d5)) (0x0, 0x0) (0x0, 0x0) (0x0, 0x0) (0x0, 0x0) (0x0, 0x0) (0x0, 0x0);
  Step2 0x0 (0x654d7c4cd0f83be80f04e0db315f0ea2f3bef9a0447606a07fee4065f4bed592, 0x28d5fa20556f36d26f2cec113cf5ff882cbd4c2acd2ffc10109dce0e89ce8d4b) (0x32d537643323d22b9428260a382564faf6e10abe12fdb10d5fa9594e6eea6d0a, 0x498588fa11a6c6fed8541ae82118237de70c4547e53f567e3124d06dcf9bb4ff) (0xb100d606cade0cc1b79eba8cda6741f3966d57f41c42bee34eaa2a334a4e547a, 0x3d0b2d08d44ca0f40f9339d49ca965cb0be2685c096d5aba47cfbf58d0f8dc3f) ((-0xa224b36d6e02ea32004cb110ffb0ab540eac065f9b55a9861f2e710ee72586d1), (-0xc01c023817361186c96fa936b2c0bdf11f3b990ea34f217856e817e6894397f8)) (0x26023f35cd1f61635d32ad8fc557b88e8e579d18795f4da924f4d02a6353e9fe, 0x2d6592c671ab207129986842670c54ce92a17d796b173199865120d7b7211de7) (0x300b35886a9611034dee08d237c85c868014581b3765c01dc3e9973b0a8c01bd, 0x1e6a5848731b757d13484375b9b9aaba9a4b5c399c9d448dfe4f832119dcc405) (0x0, 0x0) (0x0, 0x0) (0x0, 0x0) (0x0, 0x0) (0x0, 0x0) (0x0, 0x0);
  Step2 0x0 (0x41b37de71e7bfbd5bb8add966221dcf437fd6aa29f51b01a89ea2c7179fae4ea, 0x87c13384a6d983aad7048393adbb7cab4375354bc670004ef40864e481898496) (0x474ac4071367b0d488050d281239350b1f49a7ae9ddfd72d4999a2de355ece36, 0x9391080d778b4f6af2a8bc7deb51e525666acf69ce4b8263fa66a5d7d7e1008d) (0x8fd8e80611e9035fc8804517e44adfd2e9effc16f0c65807d79f0c376b764333, 0x7de30928e730adb9fa67ef936912bcadaee71d44dca09717cd6cb9e91b568480) (0x5128f5f7b83a05b45119061578192b9d94e130f95340f164019c565c3645c842, 0xb8aa91a096aadb16f239463228ddf29a21979bc2b5d839eb3f8ecc4801a12be0) ((-0xb28e9ebaeba74c1833fee24b183c7dbd6f950cfdb0867541869886d8b98ffa46), 0x61e11053270705e1ef68dafdcbbfd89e4e27369d84f44a0fd2954276129241f1) (0x66ef117c68dd05f64813b922884dc2213aac916ef8e44fa51bbdf2799b4b1dff, (-0x29eed00fb31cfac3352b38519c7454385734b807692f3651a4caaad037192e0f)) (0x0, 0x0) (0x0, 0x0) (0x0, 0x0) (0x0, 0x0) (0x0, 0x0) (0x0, 0x0);
  Step2 0x0 (0x6b7c4ec3b50058cbd0767cb67131db45747177f70ad5e8365383b8f19a5a52fa, 0x649e95d30ad314ae7e289b258a4b2c408d19ea8cfc8f692ed853ce1f0b17a378) (0x6062a62d0741ce54f7a3a5f1f74e6136132aba0e40127f8e2a001903dd1b52b9, 0x361c40da9816311b8991aace0f6ee80a5b3034712806dd7bf955ac60f8f63536) (0x94f2243437b4ed410a0d9528e3c8a041059945f15e4eb235823b3459e056852d, 0x2e13f9e6288fe4a521d55469c2fcdab5daa9fe3b8546b074a68af22f80637477) (0x20ce7b3f300b527878d8a255c3df03da98f0bd9ada5cd6edfbbb91033b723c5de, (-0x270641fa37ab69198a9a9f1213d4e54f9ab62f441c5b34a390ec568284a69674)) ((-0x2fb6202228f9c99ba9573520b9dcebc463ddd0872fba0f4565f085a30787e555), 0x76af47b16402e8719b718a90c06cae2ed1877705791971b47cb6869261d06d50) ((-0x75fe27ff513d2015e92b2e1f6cb9155c8f76fce9479a0320c1970cae913cc7b6), 0x2943842001ceb13668a22cacd650a7efa935da5d9abc1ba5ccc457e9f873efa3) (0x0, 0x0) (0x0, 0x0) (0x0, 0x0) (0x0, 0x0) (0x0, 0x0) (0x0, 0x0);
  Step2 0x0 (0x7bc9238d10f542257177c9edbf803615884ee53ce9db61112113a62dc7e7123, 0x78cc6d2bf42b65ac59313de809919c7749decfdaba9187ad2f7eb87285e9d02c) (0x1d83a22157abcf5a562d720f46b300841778fd9d19945417ed0b7daa381d4ffc, 0x7ac12d0b9a13de1a40144b3a263da596a86271e7ee1bdb3f5ecc209aa9f712dc) (0x44a8f726f22a13cdd460cc87c820e778499dcb1707e7a2de2d3a96932f768d6d, 0x542c5002209ed0924c7cf7af37adad41f580cafb8b645dec239f3bc6a530353a) ((-0xa60d09a96c746adcad91020f582c820f00cdd6175171e82112542666bb46d7c1), 0x1da8775bb458927b2cf5eff61ddf6ae810a74451ec42b177f0d80e0d777633b6) ((-0x9fce71793c0719e3197fbe245a6a4f365b29fed48a2e4b1ca34e3e2971ed37e9), 0xa4183fdf4260ad63996c7cc127247c291a0afc792e2a8a4fcb109a5ffbb1dc0) (0x5dd60091abd1496b3c5cbe7b98638eb04168ecb8cb71e0bac9dd92da84e2a611, 0x2968cef966926658d7db421d08ba84034cf6463cf87c593872b2ead70aef9ecd) (0x0, 0x0) (0x0, 0x0) (0x0, 0x0) (0x0, 0x0) (0x0, 0x0) (0x0, 0x0);
  Step2 0x0 (0x88fcf2e4a3e0c6bd1dcdb039dbf809b880c8b1a8e532102d0b82472f4fc92349, 0x8862e91c9c0c5b192b70a56e8532332494a73d893958a72ced4438a4232d416d) (0x429811d4bf00703b5e6c080159192c1416a207cf4807e62f0564d9c687eb0d3f, 0x4f81b620f025b943ec90a9ea7bab8cf8635cd13bc510e25e6184857d0c30e7ee) (0x40265e6e8f0f7c0307e55f107deee1f0eb8aa4e4dbcc4dc8fe9ff04d3c1bc92f, 0x1bc0a90c4013460213ddf6c035b5447acc7d86b58dc4066af2c687a4d145e0ee) (0x14d00d2c32e80c5056b293e177144c05dd2e22b0481e037036799ee03f4b8387a, 0x6e064dac3470d1e4f7572173577ceab775d9086c9ba8dc47c752c91ac3da257e) ((-0x65296fb8e3d443823f5cd7b01092e834f7c159465b2671561206505e7acb0598), 0xcd0788e91b183b55a9ed4fe0bc828f032ccfef9d9993cc9cb5af156c5fa5a9d4) ((-0x5c9997d4d333f998d84ebff4dccfa8ece2673675342055ae9913f1cafaf4cd5f), 0x4c23722cedd5d0f964713dcd806fe892d62ca697547d188f9be43a82afde91b) (0x0, 0x0) (0x0, 0x0) (0x0, 0x0) (0x0, 0x0) (0x0, 0x0) (0x0, 0x0);
  Step2 0x0 (0x5cfcb544b5cf6de0622fb99f34b05ffbf923d7702f2883a397c7011ba6366995, 0x82ae5ae14e92e07d2f1b845b99bb652ca8a5062fe6356f4ec4dfc2dfb32a7780) (0xa6a12bc996d3b54650de09de4a00abfa9bb28aca96f187334c5365433cde6cdb, 0x90ca46542c0ab08daa3dce67cbdcebcc17a36e0aa8d1a0755be2b1150da9f568) (0x81e1444d82beff00109587d51f17baa5bc3cef0ad1233344a897f0cbe50de45a, 0x4959dfe7a1ee2812f2303c01c9fa9f822a5b03930f5f48e829e2350397bc742e) (0x78f870337879f32e44e49258750712556987534fdb5ff7621dcc13e9b47a26e7, (-0x35fe75c376fccbc151ef9045164c894f4ecd439d5d416f4e772be643334442e0)) ((-0x8bf6d6b4cfccfecca00ca9a155f5e917eaacac92c2c6baa01dcf180405669320), 0x8559fecd27948ee0822433d708483d750cea1947c51c014cdef3c41beb00296c) (0x2a9509f01330935c657f10b9df7c37d2dd57133d1457891b2dbd05387fed6547, (-0x6909de16556b816ee2490411a2eff86b264b7423d17f4d32e9c83ea2a2153ff6)) (0x0, 0x0) (0x0, 0x0) (0x0, 0x0) (0x0, 0x0) (0x0, 0x0) (0x0, 0x0);
  Step2 0x0 (0x9768ef1044fbe25d4146b73d0cb5a659526f9fe2868d9c57faa5dc78e645d8b, 0x452ec5d1d47188c761ca1cf467973890d502ffe2505db7e58f3b160594e1a976) (0x8d18784c9fe1141a64709453128e9e5177fbad902e341b7d7dc155b094b17c8b, 0xa9a94069cfc30eb8ce97e70a1f4c213e1dcf75fb7382375d5e54504964c09e9) (0x77da5bb061fd7431a3084aa1c509bd163ec2944f274cef9504a88d27ef4a94b2, 0xab50db1fbeab6da7b17b3b132f4b3bb4e496c7a7b5c8810ae13d01738fdf379b) (0x873ed8964a7d1bae35a940b47c7fce31fc64aa5d8a3e64112a9e9f52bd755fb5, (-0x2b00f1d1d9b11bc003b037b8d4dd275317fa90fed24dff610e3a422e9d25323b4)) ((-0x340859114c89de37634d8660b583acd4d23e6223c04c1eeaee340b67a9daccd0), 0x72f38f0951b461a09aa66a2e8f86a4b8901cd566c97aed2fa11ec6332f13307) ((-0x648ca03729159d3e57cd88965d5af294fcd3d28f22e0d280c2c79531af1de670), 0x10a906765b71fc55398986adc5c5d5daa5d926b96691bf4ff03a8ed0f400fffc) (0x0, 0x0) (0x0, 0x0) (0x0, 0x0) (0x0, 0x0) (0x0, 0x0) (0x0, 0x0);
  Step2 0x0 (0x150dadf98a6f540d29a7d7a1b45d9a763762193ec64f13a087974b1e34b78527, 0xaaffb7c82be4a8489a139f96810f3f3dd3a0c514e3c51b2c3659ac41c621c778) (0x8dedf21ec9032c4ad0023587c6acd444dc3a33e2d999d813e20fb9e827004d14, 0x26475c4f92853cfc1d2c206b7cac039edb83f059fba57fcd88c8a3b23a72502e) (0x57d614a42a40d190dc83830c4ffd5ae4e0b364addacb4c18e9bae5c13a02f14c, 0xa0216b13a888f9978f2020e1c68a7600907905b7020545129f73dbc554422790) ((-0x3ab450858cfac0eddc7bbefaecec5764284c5de34545cce6a2de4c1da20b63c5d), 0xd73b7ff80e10e7f305230bd920b7e3e1528aa97488f2a02a15a049abea5b23a8) ((-0x13e73e22d85ba37647ffe8e05c84139b8a1d3314c4e129d2ad9cebab8774baeed), 0x2781e6c60bcf1777b6cdfb2b6e82e6ffe814b048c402f0b51917f4eb9063a1d0) (0x33d62767e17767c3d7c643c6830eb57765eea2cb4f0506d009487a0ba9fdb68f, (-0x3faba53a746bf8e25f57be72116cbce74495e4d37bdc382f63cfc5fbe0bc85e)) (0x0, 0x0) (0x0, 0x0) (0x0, 0x0) (0x0, 0x0) (0x0, 0x0) (0x0, 0x0);
  Step2 0x0 (0x125e5abcdc15a9d5b6102bc347784924a99a106bf8291b88bdb0ba7ae5e4bf6d, 0xd4fc76208952e7da0670060cc3119cf40823c18436858d3fa3c43e14185d23e) (0x5db3e711f1f67ea2f259f5b7da41fd83664757f2266ccdc4f97424ae6bae1581, 0x8d1412b284d31c83db946c3400907e98b93a810cea454796803aad18e75a40ef) (0x9dcc5f0f41a11439b3c6dcef98378db4cde49cae964e0dd291136776a297f63d, 0x798160683be0fd6d3a464651b64c0bf5de0241d4f38c672de24a417750ef7f1a) ((-0x1386d6adc9d7f997ee5143d59a91f30cc5f9eb016e2d9162cc20756eb45151160), (-0x85c03077f6fb332653a8dd3f8c73147de55d50954d44e02c6fbc3993b92352a0)) ((-0x17df40da74f3b0e7a60287cefd45542d28b0419d1f5cf50c7962a3776030e8), 0x2aeecc5fa476beaa7c036ec42bb334665a67fdd1b09fe5b67c9396206ac4d55) (0x13e0b40d6c73e81466651f32bcc34bb39976e46a45a7a8279d2a8028b3a370d2, (-0x6d6a432b00949ca0b722fdc68864db0b3d4b44dbc51bcdb0e7f563b3256edc1)) (0x0, 0x0) (0x0, 0x0) (0x0, 0x0) (0x0, 0x0) (0x0, 0x0) (0x0, 0x0);
  Step2 0x0 (0xb416495eb06c5c43a424c8127c4c275a6bd90488734b66d788b6b3f41722c48a, 0x6bc0babaab7060862c23194d7a8a0c3bf343f9ca626ff960ea8160e77ba15246) (0x89cf3fff961a585c8da50877d6ed501e5139ed748e0c17f8088a3f58c93ee246, 0x60b392fa7cbde1217d11bea950900f4ac537fdf89c80665cc46df73f65001a04) (0x26f67b20f0a722b1421b1988cce66aa429e0fe4e462dea70941ff8768792e6c7, 0x4ff6237d5f33c957ce356a7b05763b339949f738380c3d0e71a5dc0b11e89072) (0x21736cd1b44d89fba896ebb9a1fd13cc69393260177760cf731bdd2643177d323, (-0x87d1f039674e8dd75088f90c42f50cdd35640cd9fe294fa77bdefe8f534e9ee)) (0x3288f2a2f37b89fae9e8c61e37a95009807f844d9f980ba770964a1b6aa27a64, 0xd4f2b52b7f809243b7b35bfdba52c126fb2cbc82c1aa58823a7c142d3d2561ce) ((-0x600ed3144cd4b9c684909cde5b9c4b802876b9f3c482addfd6eb2ece78e26bc2), 0x11c5d0e3e7f94b7c0c4ba8b4289f7980655024b939f3c7494ac0bb4ca3154f94) (0x0, 0x0) (0x0, 0x0) (0x0, 0x0) (0x0, 0x0) (0x0, 0x0) (0x0, 0x0);
  Step2 0x1 (0x43867952d3385786f8d8417da5d92b721ab56ec0022616e40085cf25b1491817, 0xb0f03e0db9f97dad92c9a0581bb11ff76319f1d76e55e9bd9824f0480f4f7944) (0x7a546e9bb6fc9ba308dc7b332bb6f9f68b6338b3c68d7d2514e9d71f6b79d085, 0x4210619452626e2c14bc5583f870e1ccf5f89b8c52191d3ccae0c3aee38bdffb) (0x946ca1b22a081dd08f70827f8ae2a983a03b00ec8e61ff3d09f10ef20d564474, 0x984be93e8b55bc447979b4a49af2bd6b5d5b47cca0369562c4ee63be1eaf1618) ((-0x11e695478d745f478b63badf027d95e59e5c4e31efbae786d44ada28be7806832), (-0x12fd2427680677fd31dd76a794e7dd098f7e7d1fd046d1d7f8ec25553b085ba8c)) ((-0x13e8b6e7f12863ecae06d937e409c727ad750fe7cb8a965c683bc92940db0fda0), 0x831d57b696de76d0703119acb830c5a931b49efe9e6f7369d0ef92ad855ef119) ((-0x35c0f4e3097f53c77e419ab209fe6f01d9e81f70c4989734b79891f3c4a9981c), 0x1a614c82e36cae1a83977aca5a859653fc680f813332d00bb5ca20e10dec1cfd) (0x9fd5721d0224bcde09f8f8f142b620e0cca14186a9a477ed14c44353dbe09f10, 0x19b89ddb9924dc97846fde98f17927f20f473ad5a9a39317b6fb2e08a1ef685e) (0x8097d5e7173d05d6c290cab3c3770b6c7e05cf31926690125a30cf674e9c30fe, 0x12ed1fe7039215317182e6d2f185ed274601d50916f14083cfac15a3456bdd79) (0xf9a7f8974bf45305769803b0d0d8f3562461e1c6f3b77865556c1288cd6e386, 0x18dc0f0d048152a0cb30863ab0fa0a67f45e42c7827332bcb709c447f1073bee) ((-0x4e044da00690e6403c0610d9c33fdb62439db47af9bc9ec690dafbc162d76bb7), 0x31d1af855edb0aa0f598b64072fbb46081f46dde515a60162194a1e5e852652e) (0x84ea20b205bc6caa2ce36825980bc5a532957bfb6f04cdebfd92c032862327a2, 0x2d1d7490491a93da93111bdce718d04a71c0a0c7eab08cd62410ec1f27877727) ((-0x12cc5269da7aa747c98c7b286e27b20d03006ef68cbfbc70e72e593294109daa), 0x2874ba754e5b75d6461b4f56ed2ef9ff0d2d50e132284eed9637e85d8347de1c);
  Step2 0x0 (0x90abe944c65400e1c6f6dbe5c7cf8a1a697fa9f6fca4aa7efcd0884ad0a6a010, 0x5e7e603b3320547f67721e4ab6afc8f8374cdeff537d9e293ddb9a09224e0f2) (0x85b0f362c62e66700a999e82080498d4f467101b60400c6c255e6d41c895032a, 0x80488cac702ddd33081d6e51a2f34c65d85ad32ab2fb9aaf13a27e8a5d2be040) (0x714990573184894d895dd2a2997d47e58e8e91d2f043c94b9dcb970f9407ce15, 0x762075b525cafa2c20309d0143490f2796a44d90d54944f72b93eabc5172ac1d) ((-0xeedb9bb13a9577425641f943c662bc370f48210ce84270a1aa662f7f689be04e), (-0x27a55a914c811bf01b699245a7b57d32ff04310a20209791b2be4177b6beb6ec)) (0x72756b7b909734e9f61011a60b49fa5d2a92924409b693bb66618ec3f9c8a43a, 0x9605087e5fe84931294dd17fa4defdb51e850d7afd3aa841a98cf3d830e04a6) (0x30a62ad69ff0a2ba5f581f59f8c2e826da3dadc2453e7e73055051307483d35, (-0x56f949b3607efb1f553f3f69c7c11e5d69ff2a1b6e15d3778213b2dc2f72dacf)) (0x0, 0x0) (0x0, 0x0) (0x0, 0x0) (0x0, 0x0) (0x0, 0x0) (0x0, 0x0);
  Step2 0x1 (0xa637f80f22ab1b790618f8a9a80466108278aafc95f44d548c4700fb3432a2ac, 0xa63d39217d0a2003ef950f05b6c8366d37a2455980923134349d4e16c8991241) (0x6e9373c53afde5fdfe98c6430d6f8fe6f797c57cab9a8811336cdc981dbfe7f, 0x602bb2a83f2261ccb1f3de1da6dd99827af17d0f1d0af3455a61c44da1a9c8cd) (0x17e2e741eeb0910e7fb81e1c2fb9297fc5575119456c700eb224c623ad9db6e6, 0x42dd8fd0674d48446a52b81bc800e16354b03ddb43e8051d7d8357b77d35fbfc) (0x1737d67d94503901b79458cc12f6424b58681e627159eb074cf2ef17d3caa5f8, (-0x8e7aaf2c5f40e5881ef4ab69871bf90f8e83d81da3c84fce2ce55c94b444d536)) ((-0x97ac1cd5dcab2e8822c32c99b9b93bfa3583f6bbacadcb03fc7a23098c961269), 0x12f3b7889ffbd703bd5b83a9e98a099fd6e4a3d1b8900fbf8c6d910edf49a1c27) (0x390b871d81aa6a94f8216ce468c3f4535b9277fc103733c39a7c73a39c8a28ff, 0x90ee2e7599588c19b2645c3e73aa749d787bab3345d4790652c60ad44203f2ce) (0x8eeb08e45cbdfc949c2bdaef9a3b4e5943519f8487e44e8cc932f8229e743601, 0x2d3fd7e79f33340409d6518c8781ada8cecc668af2f9c28fe2890af5e649ca20) (0x5d2bff846d86fe07ed80406772048e3a347a2c573d87e6b858e54139ad24a7dd, 0x5debf21d925871de20af3b457b510887f8a5e4af3dc6d99229ae3c7781944cfa) (0x57c1807135915f7a9828bf77ceda0800f6a4d54e98ac6c2df8bd585c1bf9159a, 0x34b2ee664b5b92988cbf391e5c1195a771f1d5ac53613e95762bb0a141eb9d6e) (0x133059b9e0d7a4dc3281d902e789f5be97a19380fbf3377114b0fef50672bed7, 0x2963d984813d139228ec514940958cd0514fe87f664765f292a1becd14548ce2) (0x599af684876cba366386e694610114bf97bbe9ed3b1bb2e2f98b1bcf22063e92, 0x46f7cd41c04344373d12ba303c0f8e5700adc24118f41a2d53d2718e0a71b798) ((-0x44c2ee73410bf10b846116233d7731e736bcb1cb176ea9e8e5fd22079a186f76), (-0x13a7425b338902320567fea3eb1f9d841f06b359c35130e2d660e7745b33a463));
  Step2 0x0 (0x2986b29b92e47acc6bb5a457d3392cf9704c14e09c61a0e1cbde7ed4540426bb, 0xa82380b8bbf8c25f26e4532fd3ce418ddbf13798dddcc139845434bdaf0a853e) (0xa4030f59c62a653f00a790b13f95aae36647fb3c4a4c0a42305f4ff116b071, 0x1ac0324ee9afaaf8097b00c0195ee34869313fdc1f5be11dd89dcbd3593c5192) (0x174ad202a093d9cdbc72863e551e47518e94c33e39256c39d933e91927748513, 0x9a561763c36a778977a09f882d1d603b4390b512e0b09348e4e2f01f0ba09742) ((-0x6f7cea55b055ea1a6551824ee2687927bed6ddb64ffe5262814eee3f9196d23), (-0x66281d8c2a62537b9b4648a47af8480a86310c628f8c3a080d8ceaa215753220)) ((-0x12cc732706583643d8d464df288758b7c104c584b24773df9aac60dd161c59b22), 0x4c9f291b420a043daa2d9b15f87fd37a098ffb2fb7785828d9deecb53e4d4ea6) ((-0x66db3faf8136fa7ad89400585551640622e4cb4c4d73afbb51f4323749df661d), 0x64abf68e5b32abc33b55afb26f021fe9aa8126b26fdabde478dd19edbc1b3530) (0x0, 0x0) (0x0, 0x0) (0x0, 0x0) (0x0, 0x0) (0x0, 0x0) (0x0, 0x0);
  Step2 0x1 (0x3b6871362055f5a1a5db00957d85f2c84a4c449d30985aea077408798a64cf46, 0x516f7ae173c4fb8a1a7655cfdc767ccb7cfa2e72a2bb6e043725a58245ed889e) (0x51d9ee1ab583243bddf45f4d824d3556b2353dd03062ebf9c3697bd128c980d9, 0x82cc25785b1f5bcde67896e3a28e9df51ae51b48c913566508e04c3f5ab668e6) (0x3e709ee9912e95e036a1f3ea6e25894048110d2d529ec6e8e69f69eedb790e94, 0x78991bedddff800e9d1e6a8d11074a70f2bbbfdcda4ee465f053d0749da99b29) ((-0xed1d058cbdc92dae2dfb237db832ccb3d69a22bfb815a970e86fd68351168ea3), 0x78de85ba4537a88ec549f90069addd922b9a288683a43b0c8d038edf9204d060) ((-0x35693a642320457261d30a109eaf2d34d8f33659dcff645d37c61b23b9686a4b), 0x35174b2452fc5fed2343c5e392b06d3b2def0116339e279cbf88663b72eb7e36) (0x4282cdf9361c9f129acb4be190d8e3dd5e1fb45a66ff4f5f599ce3136438014d, (-0x463426d275c1408bdc1cf9154fdee7e2f40030cedb388004675a9d60d800064f)) (0xb012c118841dfdc59afe8d2d5c55a6315b23d0df9b6f24c9e424ab571429aa39, 0x52511b1fe9c9eda6e4fd5e520a29e302459aa1a383090700f5fddb8e082f4c82) (0x33df2555875cb9b03e212ea735239adac4ecebba47bf34c1ad397aeadce5cce1, 0x16f5c050368c57ae19f565268e545f283c10d761e33ef54f2e9b644f9f280588) (0x38a254e22065c74fb2d2b4b37e3d9e9e0619d69e5123b3eefb89d5949fd9f3b, 0x5356f2a9c76e4d299f89db72eccbb1b4fe76019a3d29b46b7086d8fc929b1bb4) ((-0x1c6b10631a3bb102e82817f7eb70b62f2f6998a6bbb924245d89436fd70879f1), (-0x9476a85a73a0f29afa79c2f2698e9f2f941b7b6f75b805ceb9ba17f43c59b9e)) (0x5fbeedb7ec75f9f6b86450e53e563dd51926de475808b81fcfd0ebc8a3e12f24, 0x9f0dcf5f838436e25fc84e03d57e920175690442c6db26592300af50eb407519) ((-0x447346a82ab8ce04263729431a04a54dd2a6e47f98a993fdbbcff6491c05947b), 0x75b93d2a8b9222a237a878e9f60cf52e3962a40c58c3144b7128b29c5eb8a8d5);
  Step2 0x0 (0x747440163436f914b480ffbfb4123d6c1ff1757751cd2b5a439ad3776409913f, 0x27f6b6909e2effb459ac9eacd2418a7555dcac6b7596b5ddb4147430d98d6207) (0x389c2df628666a8b3aacfe5ad7e18ef1b1231a1be519b964075ad2ca4f0d039e, 0x207606ec3d52bb169f9448d73f7408b1ba0d5c261ba259464a0873223aa428ca) (0x7b627ca4cc99003a133b2bcabde609f3ec5a13e072b63e7a2cf723ab498f82df, 0x6c9c0cbdb56e72cb04c1383512951bdce3552420f58726cd1ec7075b20e7cff9) ((-0x5f82d3f237cbb29d1cfd923d2036cb1305cf50b7eddd26a4d99aa5d5c2516c5d), 0x44d91e7b93acff047773379dc9509a407f85cb249772a05fdf8798bcd06b9cca) (0x38e2a7fc5336838e9660c6dbbef40069d69d0a078f02404e9bd77a51512ee6eb, 0x331271227abbd92bed3960abd2d5fd638f24c10f89d934c8b848548dad01b378) (0x12397d5ddece5ba05d1eb14fe91822526202013faf21b3983fb97d8845e4a2b, (-0x71c2b52681284988cb528e5fef80dd26d7a9a5482f5af6943f7860d81b1c84e)) (0x0, 0x0) (0x0, 0x0) (0x0, 0x0) (0x0, 0x0) (0x0, 0x0) (0x0, 0x0);
  Step2 0x0 (0xa3b871ae611db469827efce4b602c2bd3744a9c5947a4fd5020ea66785d13d9f, 0x2ee8757ab0796f6d70eb248e2c73a41c492e53a53e78292a5840f0fa683f3260) (0xb24e259c30e8acb9bdcbd2a30a3b2c7324ee5e67d5de1282eab119b0998da29b, 0x733e0309c1618e2fba77bfa9eacba3e4aa2035e65f5c4729f0a74e3d70131481) (0xa5251d4d90e4b2d2b22c7f82d710b3f30d21a44addd0dbbea999e9c901a6995f, 0x939557d0791406cbd4639f9445b2745050d63f1debc88f89bb03e50a8fc7b141) (0x5bcd1db14de2e4469d1f7455207edd27bfbf0e8347e2e671ebad8b07811273e6, 0xc62692bb6547561f8a75ecdd972e82333c6e4ee21865f5c480a17a251d1ce57e) (0x7aed9fda5c34e1c925b1319cb874e0ff8df42dcb492b86c2c1970e2006da5eb2, 0x544718d306b5d457f771e91401f0da33af49c2f25d79d34c23cdb67eee41ddc7) ((-0x42b59afb5d91494e7c871d8688d82e344cc525a885f8c41b8a5aea7672f82175), (-0x69afe09cbd383d35fa9345fae3819565f9fbf2c0db6f04179fddc1b114a9da3f)) (0x0, 0x0) (0x0, 0x0) (0x0, 0x0) (0x0, 0x0) (0x0, 0x0) (0x0, 0x0);
  Step2 0x1 (0x6f87c8aaa199a40cf04e7d30432c3e05d1428cbda0adbba5b4ccc02e21b4273d, 0xae77f387501d39f4574cb81c6ac75ad74f589a8799796254931dad013f70606e) (0xb36780fb7f1b9b5a31e68752564dfe94f6c6fd9d2e185306148b5a63c755248d, 0x9f78c4e4677c1e9180adf6618ed1c498b611b9141c1d6584e97224ab3ba89946) (0x6ef636119ccc601516d4ee1bf8c23940442641399a70cdc011bda3a906933060, 0x6d7300a525494763675e73d6bad43c7c8c37dec2ab5b8fbf752806e09e109402) ((-0x1c11d0a346b6b8e528a66301ffd243e1605db434109a62718553ce7eb74454383), (-0xb3ab04a54d404b613cffd4d259ad8fcbc86ea9eefa80b528d36255bfa69b7354)) ((-0x109c940eaf48ea04d729136ddbd9621b2c997202b26ab6e6cc047cf422c57366a), 0xd58971b95139d3371f013901ea4109b3ce165060e99754ba14abc2c4b34157f4) (0x5402731a9dbd719c476f134a250ee6fe6640d528774c0612a2c440a6a67befdf, (-0x1c1e76324fd11acb5781ce803c2ceae9378e7b28e33a8acfa5ee2de119e28cf0)) (0xa2815a761f9884887e601db8d26f9787f4355b5f463debc357a3ea2cd30161c6, 0xb4a0c77635d92d14a27f8a9bdbe3a818823f89e618c741ae5428f91f2dd01290) (0xabb4f96683bf47cd3889a041914c7014151b26d94c58324328da8f3d1303e5ff, 0xb7383c97891772e8b9707eef5455bd8c11cd0ba71d574963ec3606d5726f3f8) (0x3275c4f79095ff7306b34af978ee356f192219387cad3de4b1afea9f3bcf41a, 0x44265429ee91c3ee937c1108a8a96772e11fc4664c486bdc57f17b8eed8fc48c) ((-0x3bb0568af60fc16c3fa31e5c66f659629c1a251864d583a8ef766dfc7d6a72af), (-0x922881a3e677b4015024c58b65e0c64299326a3cb451b43a7ea6d2556ff42f7a)) ((-0xd5242fe1d8ce1ddba752a4f2be965a73b04ab812ef1f378debcedd22f501943f), 0x1421e3be3005fb5e499d5459337a0dcf3286b89e0f53316b215daf0ac5b921915) ((-0x11e8afdf7263f168603bd932dc1f1777a9c294e530d58ee9286af79d43f6acade), 0x8b9cf1b0610061cb4533b0af275fcee7989c7af904fc8c8ef0959a02ab7d231e);
  Step2 0x0 (0x57f829f14f398c741b89a9e2265b1ad3b5de4f25f25edf7f52a0fc7c39c08e5, 0xaee4da070010e88fd3f8c83547ff2149b0e51c085cfea462954bdce2fd827cea) (0x12dee190044fe0f4c6543ae0b20eb6fd6b2a779401a9b20c6fa6719e762d19de, 0x70b7134be4894b731079faa0e05464adec6517ef99eea4429c925b86da1033c3) (0x5e966c3a9d8de374cf258ca20b25bc03fd3d0fb460e8892bcf25eee83a22a010, 0xa1650781eaebad9a453f05d9d66921bb7aaa9764c2171c80fc592f1f725e7cc1) ((-0x2e668fd48fafb00be5474495964690b495598a24fb5fa8d23c531bc474c12dd8b), (-0x369162d5b5ac88ed3f0f5845adc370ac74bb35f18faf840e587e91b3f14fc5f0)) ((-0x14f80f6417ae07ae7b697a5385ffbfc399180b4aa0644ec8601841338243175e7), 0xa8d6644ab9e419501fda4c18a79e2b847769f37f8a10a6e2ae02455d3478985) (0xc6f6cbc6b843096f65756920a92577563fc1634217a0a57d11b732909874d403, 0x8f9ccff8521339cf4fe31b45cc6c7560c38283d5ddd98f81f8a8e4ad8baba43e) (0x0, 0x0) (0x0, 0x0) (0x0, 0x0) (0x0, 0x0) (0x0, 0x0) (0x0, 0x0);
  Step2 0x0 (0x267d14ab0b987c04ef04c7475989ecdd8fa2dec261a27b425b20d04787c037b3, 0x6f4c956bb7f11185b6f4f7eb49034eec732ed1687d809b519a6134bd5f636fcc) (0x4b3843842009a29667e98f9c20e1c167d807480d8a1200162da36d79e8fcd54a, 0x22dd06276b5945ac2bcf1031aff6cce3b6bf7cb17c2cd63b41025f271d9b2b4a) (0xa4958dc6d7ba728d14277d1f104e9f37c710adfee6f8530e8c78d502bdbfc1b0, 0x7f2834bb98547168abf7fe79ff46c310f349b95e23912475a53ad750375a12a8) (0x3a197e241256b7ce69ec2f5a928276bb365c0e0a8bc1691eca31287e72d82762, 0x71ac042449007c4e71022b90ec1188721dfd8f8f20645ab79ad9478a96a45e12) ((-0x7fcfb96086b54f3eb6f6ecbf89d642c04a4cfc73df43a65d0ded52081ba2ef81), 0x2f02740d7887e4fa92cbac4770130a34f3e6857fe1a905631fb4af298d4ee7d8) ((-0x6afccc592604ffa4d362e93b549cbe22e6ba4b4023d738119096ed9500ef304c), (-0x11f890f2b0838bd24fea4f2b00a87cd819349ffb60e6647543ef53bc4e1907b6)) (0x0, 0x0) (0x0, 0x0) (0x0, 0x0) (0x0, 0x0) (0x0, 0x0) (0x0, 0x0);
  Step2 (-0x1) (0x18fd200ffa3f0e6285831a07325c0b11c1d12c49918ff0392a9bc9c4ad931f74, 0x9ee796b3c978778a63c7e7fa9382511111ed8878fd81f45b78108e7445a48cd0) (0x98d6c2be5bf5ddb47ee7e1f7541e9ada5098d3aab0df241210552dd82465fe84, 0x9a796d745c36545d1f325f2a7538a71cd639aeae4eaf9f0cbf629a035d8fad81) (0x6d51f9557691f48b38706e56163cc7ac83d6899346ca526540d87890a733c644, 0x2d80a4a4607086f9764acf668170b1e21638f10921323b97b30b97df9deec79e) ((-0x1c3769baa36b39b7f055b184e8b08ea5c943c9274221de4723e778d14db9e77e4), 0xeb89da81712edf0638e57cd00c09b3d0408ce36641895e2a240e9b04fad4f208) ((-0x111ac53f21383450d29b307f140b6c0e67e62e02a68979ab9fdcdd6fa169b8f28), 0x2b935e324e31e09e79596a56dab1d11f17a94ac7c80ec01f2e38f8cff96bfa07) (0xc5efa7f04e92b4776aad469be819d4c8c830278e9f74f24be17fdf30004292f4, (-0x54139fbd31da4afeca8772d74d99663c112161b088c8bd6770a1a8659cc9813a)) (0x7f722640075b807c7b5628545ecb87d98c4d880e9091c37126a86f1b515efb7, 0x5cbb421b3d4d889a05495b2d322a15cb39614b31f90d2d0423d718664bfa3121) (0x75fb46732ed22f7a7d5b3a9eb2fdd3551f3e80a5afdd25f0047de49dde4b5c1a, 0x5e0ff0caf93cc717893fdd1c91b5223fae099f49c293595daa58db3def147667) (0x9971ef2830c0e23060d92fa5cdbcbed627098b7e5dd1e899e933f8f09fef00e3, 0x887f900321946406a474faeaccede8883471a8ea1c0bc77c966d8900ca62ab81) (0x10e32053ad1a953bcf3e564b61e8c5fc8ebe676c3a97b0ca8785838436daa7ec, (-0x329f3fe3f1a5d000e92da40dc739fc730d965b4974d3b27c9b57c35eda914c39)) ((-0x5e04a51424e5ac5b96299734b493bbdc9930cbb49ea75dcd465f628ac9326372), 0x81b15409a8aca3129869047967a4a52eedfdbf55fa079031a56ae69805e1929) ((-0x3bf420643fbb5c5eb3ee1a5ea71a41f2ebbe846f2a11ca461064469a80dea879), 0x146054b344714b3246de442e8b68853012a0377d6c4118806975d190cc2cc675);
  Step2 0x0 (0x8ef4e38ab52003977be0b1cf85426947e2003771c6ddf83bb4093462b866aea6, 0x30b259f9a459068f37b425277e25c676227754aeb1e4bd1e41d2f9f37107eb4d) (0x70e3550d470e5b8988cfd572e050a7d52d7042acc91a2cd96350e10938119350, 0x1e989096fd30af618f2250b1fc448329cb3da439aee5941a7307f800252b18f8) (0x12ddd1c04706d2587166a5ce0d752db890953a9c14d5040862b835ab9c693a40, 0x4b4eaadd393026314f53417044f42bd0111173123825d0c50b3b4bbd6af78a7e) (0x9cfd2bce3320a17a3ca0be4259ad2964002966e6550cbfaee6d34a30098e2bb2, (-0x453719634a43d74d8a4c2cddc78f9d3e19fd7033282b8863c0b85705900d0cb2)) (0x561c97478f762aaedbbddac5a0b3b716531d52660f048c6728e5185bec074666, 0x4c652bb4e2652e4697aa26e8e4eca481f7a5629b93ec5fb5176a73e1d37aca4e) ((-0x1debb1f7842f942b71b1580047b7b80631b3b39c3d082c789c1a995af9d78631), 0x3324d30e6a4e98ca0eb994170d7129d08dcc59b4e00672493bcd72ec45920041) (0x0, 0x0) (0x0, 0x0) (0x0, 0x0) (0x0, 0x0) (0x0, 0x0) (0x0, 0x0);
  Step2 0x1 (0x21e973910cb6c7f522d12acd54269202bde2e99ef94f8f463720c4c0ab3f45df, 0x4ae198438fa6df74431f24f882a06df71b50db2cd3d33f96f2ed49971501b870) (0x95a5602d31510bb074d3ec48d4afd93fb69840ce918d33afadc19fade39f5721, 0x3f6b207c57c4fbe9aef3eecbdd604e8e4006a10de97c2a6891a9307e665499a1) (0xaaf29719b576dc6bd28f31ef6cfc66702214dd2267abddace64d8b997bb13880, 0x8029ce55d32bca1df38a21fba81bea0ee81388866ea9e6397196e377e0ecc5ef) ((-0x127b318d418232c1e13ae02bea11ed7f998b9100ce1e3a83cdecac0beabba9c80), (-0x462e2f9218379aed14972e925ea5dd9bcf7c9f71820b519642a082dd9444f42c)) ((-0x373911df36b2fa06a9cf3043e7e25ac80ab5008d2ad08de3ab789879bbdb1d80), 0x1bdde98c49c76ee352adbfabbba84a11359423ed63f7d410a3299af99b4bbefb) (0x1421c6b9a72fbecda7e23e8e13f44566472ef5f0d4f4ac91f1959582b3eaf625, (-0x1535cf06dc906668f8b8b598ae2e1c76010ce857973250c622ebcf4b631690a4)) (0x5fe2310cde9e200fe266fb952a591f475b95f013fa0b89901ab431e42ac07bab, 0x45806e5653c3bd672bc3b453d389914e77fed0ce540f891feb2d1fb32236263b) (0x5a324323e00ea75957ace3edb9a941598b40266ed1ac1145e8a4c19339effb18, 0x2534058ae95f2c8cbfd452140fdf589c82660ec92ba1dbddd4ddf7f102748ac6) (0x3ed169260c4060811c1b0335c210c44070e3345edb3fed915b32c3a932b1b745, 0x8dceb91d65e7008d94b91d2f463879e3143417b62647b5208c3b23d7547c94af) ((-0x6750a1bf8e7a9159e5198b93d5cdb6cab3e225ee6d21af414ceaa69e2e17bcbd), 0xecc238a3016200ce6170822d6063255602d8c8c561a1fee869e84e50c56aa3) ((-0x2906a23b68a6da7dcf4e44f344c8acec223750364ec9c2988d7d9f82daca751), 0x49218debae84f67cd7ef5eaa91deeeed68509d70d92c19ff4743bb74b3b9fbf2) (0xb485242b3fe09ef9ba4038d09f0f8f1e1d1b73890d35550c8cfaace8388433c, 0x2476a4976616801a93ff9bdccce606dddea76bb8cef52e5fa54d70d7792d3616);
  Step2 0x0 (0x2fc1c4f3c3e1f9b4eb4c36e8a96bd56db10d51555fb3ae0520aa052ae89cb2ea, 0xc445ae17ef6e4918eeecee2751c8250a0b9d4095d37db6eadc389f4fe1b989) (0x16f124065c38478a1ca6c6bfdcd42ee6071a61ffe4dfcf871b82c6ef1e5b403b, 0x4639e8b806b868c36a18fabbe42501125acc191f340019003fd0f844a788fd4a) (0x2a23bcc5dcabd07d4d2d68e5056c3657c63c1ee22ca3ff9f77a87891c7bdceb3, 0x9ee4f8a5db69b4abdf92f63c3052e802b3ea05e099265ae677fa7b03eb7dcf38) ((-0x39d05532009a816d19de7dbe795672d74e0ca18f9c3e1c1385d16eafc93973e0), (-0x23a000a972010e7fec63fb7e1ddf19df1f126a02474fa8cc0fb17af7cbf54f22)) (0xc81ff555d73a179fc2615605c0acf100b673e6079cfb8092c30d95b36a78fe3, 0x66dcd2aff500d62b5980877d61bc7fb46959d03b439a03e2abb00e22737876) (0x11e6b6aa48781e8f48c20f630eecb25b414c74527dcdab5db28629bcb7f4513a, (-0x85ed55a19612fc3c712b6694742e8de26f39c548b9a04597bd0f99e014c2a92)) (0x0, 0x0) (0x0, 0x0) (0x0, 0x0) (0x0, 0x0) (0x0, 0x0) (0x0, 0x0);
  Step2 0x1 (0x5b97ebcce18da03dce82d863ea3d468bbb288a28cc8f331102c13718a999e8a6, 0x22e1261f2759ed46d5f66a167e83d9b0824cf0a95f0e7d79dd5fd9929b2260cd) (0xa749a93a98c3ebbca4acfed20c7a73ce18cc2bd20d2ff3cda70e09332c9c17ce, 0x70a734817de12872b398ff10e52085a405132fc23b3918bbffb13d49e724ae2a) (0x755878f5e8de0764ff9511f2dc168b8eebfc7c1664cd786283da37d2ef33feab, 0x65663b1c19c0d650371b8cb7452c910c340ce96f4212456d38ebb7e5eba1042a) (0x4a6a3826cd85dbc928bd840e41c2f6890a233d740abf1a29e0e0dc1defe9be65, 0x7accb36a5fbdddf82c15c27614f05bf349a1bccadc036e620cfd14b8b6cd6c02) (0x20ae760230a276221a5e2d09621453f38cf3e1654397c82956069efe4c590ca6, 0x230f0cf0a10b1529f6ddd1753e6469d6fbb4d2c0986d48e1522d18b078d647f6) ((-0x384de9b56d22b104636ae026ed385be89f78db759ff0d18d72b6393c5d7b6ab0), (-0x30f2a2e7837f2b2da170710b5c7cdddbec5b3b0179be00e56585b23c335b160d)) (0x25457868ed912512c094539cfc15423d38e18c010102c31c4e7f682acfcbd2e7, 0xb3a1b0fe8f76c7b8993b65428fe3889e9a9d6cb404eeaa60e1ffa5a6f5546b14) (0x5331690815b730e84a0b7882b694bad5e985368348e7a049235e2e6ac615a9e7, 0x9797d9f7d62e14da9355610d2530050be286eed5ac11acf4543cee7c6bd3de84) (0x88a4f50be735b0f36c97f9190c8c9259ecddc3a2fca8e251eab819ef8c62edb3, 0xa8e2a4aab7acd740c789987130bea156795ddb09ca35e939223b6389c7c66a0e) ((-0x40646f37b988dc3a9f6fe381cc528de1984a712c16eed103fe03c8a8c6b8e6ad), (-0x6a3db1d82344020fb5e1a8218fa7a5b240769f432756c9789fde8a062da8c8f3)) ((-0x15a7abafe88db4d87fd0655106ad41a1499f82d56a3a92df49b1f110507c759eb), 0x4978c67c1328175e220bc7ab92ad27688fa406bb1f98178bb795328e0161151d) (0x5df586e79bb3cc38343a103f9f9151f7f2a9377ca70459a9c95d90b014cd211f, 0x4aec4c1e3a0ee02e0a1e3733ba6406cc10b220867c58ecade04eae1bfc009876);
  Step2 0x0 (0x1a390346240443bf713f4f28709e5fa466116b91c66f67f3c94dac17d14e8f2f, 0x814c5f14e805b5725d355963324fe8eaae642cfe3b27d9ed75072c941de1e930) (0x9b122083f5c402b71f214210aae8a223e4deaa964add4d8a47075b62684b970b, 0x3dd4fb94052c60eaf379c02e3cf90705cb3d53882902e53db35b893ee155cafc) (0x3d1124ba361f2ed0e7239c1d33e4afcc26f8be2f1fec9ce9e07064f15123f1d3, 0xd4da26edae0abddda6e44d11bdbba40946fa3f1df92ab7a0cddbba9aa91edb1) (0xcaafe2a306047cf505cf6d16d3bd9daec9a07a7a385e7c0fc98cbe6ebfc23413, (-0xacb51564710005e32e053c53826527058e5242163901fc3f0434ec964bfadf34)) ((-0xb3b09d1e01a87f7803ba51a035a4bed934b70f3407295fe55ad98be43713b098), 0x25352c13fc648326db972edf5af2071f05f1040709cb5b21a704b6dd4e3f38cc) ((-0x89b489cae27dbd8545314fbd80bf5394c4299327404ad84d1cfc448e2ba93a4a), (-0x2614393b8488dfd23885c2fb030c29508ff9fa5ea0f66f89cd113e0a5be50153)) (0x0, 0x0) (0x0, 0x0) (0x0, 0x0) (0x0, 0x0) (0x0, 0x0) (0x0, 0x0);
  Step2 0x0 (0x8225dedfe23149e40d02b22bc2d993f3e991b1260a08b7ddad4d75cf31fd64f4, 0x692865bc6aae28ec0bfa91ba24521afc12d5ee65794fb6b9e72faa8c2e80f338) (0x7f791f5bcb8c4469b1f13b227aaf57588cdeab8394b5befd9cffbf9eaf38249a, 0x35d39cec7a633c8949ef83c522da67e26a519637095f29a56c151caa24b986cc) (0x6cc9df4c784bf83eb4254d1335e734932dd08280c444144fad99c186a1349580, 0x11a159a3f2f38ae71f4480d45db1bcdc7071a7892a0aad2c7d99fc19bbac8977) ((-0xd5743dd7bce0140b1eb11d606ffd32a753665ce4d62cee062a4344697c8de4ef), (-0xe231b112ecfa82abaff5ea87b6e45fdd96c6f66a87bd44e279838684827ca640)) ((-0x1c6920f0d6bc0237d073748043a18a36c390ea5b1a8813cf720590c1b4898f20), 0x9630a8b4dc6afffc1b1da67241d195e2d10e877c089e43562eda9f2fca4dceac) (0xa78480bf0de78cabdf257fc72cff19f43772a5a3069e98f9d354a42db5022b5, 0x15a3fb335009a4692802dc418e935e5786cac29bb00df42a58071e2d19ab2c90) (0x0, 0x0) (0x0, 0x0) (0x0, 0x0) (0x0, 0x0) (0x0, 0x0) (0x0, 0x0);
  Step2 (-0x1) (0x6c1cecc55d58d274cb4ef22a6bd35eb76ef373a6cd996dd75676d619692dc15e, 0x2c3a5786adcddfaef44d81b50835c99686150aa21c8c676190749e5d5e532769) (0x421b5037f04ac36f57a6b9766462d84fd300c18411f7bcf2625b442e9513f267, 0x7f2292145b68da8a8d7e76ce0af672cbb6cf5ad7d5711dacdfae8debe5a2042a) (0x5c9f658080adce5537f595292b124ff5961f861d10a77558a228b2229aa801a4, 0x925bf9ff7e31a6016abede808239a864199b451a62a33e9bc19785ee506fee9d) ((-0x3c23c3a55596a94ffafb4ad22439074f89fa0da584144290dabe65e644b0e168), (-0x982c5c29baf7596453e84de78689af9d12e3ee3a5c76348c3825bcfdc9f4475c)) (0x2aaaf41952a5d442fcf12874b385614f069f3a62c6283ddd5fcf760b38273293, 0x34791c5672772b019e78805124790ac6e3017015f429b40a3745b3d2de118de2) (0x47fbe082ddde9c19e0f9f0e5879a03c59238810afd8b24f1e1bee9ab8072431a, (-0x1c98625cf7f46cbee8553cfcf479e791f7acae0420516f868e878309808878f1)) (0xa194818b744a3886b15df868a1d8c2ee3bd9443ed294a2c532febf59cf35ce7b, 0x6674c31b2f88c2f3920fdc94c6a68c6a9a7dd4e198017e78ab07c7b5a4008750) (0x69f40f2d2c0850b5ceb691827df69b8af74e6b9553a1e44eaa7a9eb79a9459e7, 0xb336f22c26c156ddbccf911cfe028d64b0b95c74addbd19fb3ce252e9c7e9756) (0x98bb7bd6ddbcc03bb6acc64fcb772ebe17b29bb1c02e8aa48603bfc7289987ba, 0x841f6c43f64017cc814dd9500daf7140ca287787725b5c11402600c1c127d274) ((-0x11171f7ea313f4c73ea61582e1b5227d7f05ea770475af3c453a3408737224ed), (-0x5ccf0d405a290c8922837ed94415c7f7be336c42d58e614cccb1570512bf80)) (0x1c0eec2a9a4ed7f752bc734656820308025cbf6fcbef9c91549dce6aba39cf30, 0xb5ac0cca616d35536f3ae2e44613411d805b8d26f4df64e3e1aa00df8a3170cb) (0x173a62d43c73b0b5d2b85886296c8658771508df2960449ec8c7ff3d7bea67ca, (-0x4492def788347179ff24572bbf31f68a78babb5caa232144d9d5e9e7b1400619));
  Step2 0x0 (0x404a86a10322d8cd370d436ca8d8db7d3afde776345f5b5cdb6546635df22147, 0xd3d5ae13038f334be07cb4b96ccaba926f64c604751ca3188e7d1e8fa069c2e) (0x20224308c006c28f6866342ff9689f2a15130d39f1594e4e5c8d0bc137f3e8a6, 0x4c3aff707ae5e8dbbaec9ace1d99f736cb3ab2f036d62958756fd87ecf16a739) (0x9f44309cd149cfd38b43850c78aa856f2dddefaad2cfdbab9489d66fa40eb704, 0x4d341abf36f8026df72bcdcc0055b7543d137402da4279d2e57f3fbb896f767f) (0x3adf37b9f541837f7ecc8ea1ebe1781e8262ee74dedfea430b6cb61ed628ec7e5, (-0x1fdb9b6b11a64ebeb88ec195c18c75bebb342124a05e2614dfb20f10812d0dddc)) (0x14c1854a18fc5d9b0957a32211226ca82b3c61201d40514946511417bb69d199, 0x95747c238a9ada955e3a7efa057d518ed76d2dd410df573740c568a95c23c4b) (0xb13ff86348184e0449405598ea6254c69f855bf1f31142a66747bdc37e60ee1, 0x29b113a494968673cf04fb7cc4c970119d2996dbe395fdd9c2ff3c8f372f5bbe) (0x0, 0x0) (0x0, 0x0) (0x0, 0x0) (0x0, 0x0) (0x0, 0x0) (0x0, 0x0);
  Step2 0x0 (0x2e3e355aac75ecb932e3f5e0881bae1f03204dd221a88fc63452156b7cae1e02, 0x80960fc5d0ffb7925bc32db3e18ff065897fd40417f90b0e9aacee421289b11) (0x49282e11986fbcfd304d748039ec421de86b0190c6567fdf3f8e7023ff3b214a, 0x83d1dd7cc2e5272a36b2a2f828ea818024477f80657b6c37ff92d0549318c9ac) (0x613fd9b0e30a1c6b5c4b38358f0eadbb45ec6fe48a9f4bb793f95e02c1a9c306, 0x59cbfea427dc7eb2a22b12eb68a2b465940ac2dececebcdfa6a8c16efe62a688) (0xf184dacebbf0a60a96842ef360a1eb4ce24b80e8551becdd447e51aa69072726, (-0x1b6b8153c3b456239cd14f8713f5a9fe40c309ddb5d0ef19b4021af9132cde40)) (0xb064ea23d84f8b7a6fce81040b5d870bf8178e08e059c2005653d58d5dc2b9c, 0x4140db0fbbf09396a84357ce5d2ada1b91b96494e4e5014934112b596ccb19e) ((-0x5819f3b8a0683bac72249269ce6fce6f3a9fcc1918a7b2abb0134e2292233fc), (-0xfe9f439bd7fb13f959dcac2f89ae0a2516ea0acc14d76c50248918862c36ae5)) (0x0, 0x0) (0x0, 0x0) (0x0, 0x0) (0x0, 0x0) (0x0, 0x0) (0x0, 0x0);
  Step2 0x0 (0x4e6be2ac92fc645cad2c4ce8639a3d9da9aac30b896428387020587b9952f911, 0x8cdb5a00f14b23651b075dd4530aec2244da29874af326251defd6ae6c886e41) (0x6afb6eb6c314259cb3d716a5577f75d3cb2a32228d16dad8cc194a9d5b9ebd2, 0x2cbf530eed7d4a402a2accc4f6a943f89a873e182565a09cc4ce82181b9bb458) (0xa25fc0175115e6855601221d11d3a354e119992ade28085fdf21fa14b98ebc15, 0xa8ebb774b05e112798d37a179cd0bd9edc36e5aa52e116dec3becc848574eb43) (0x1220d0b93f0bf07493815cec25f1a0498715ae3afd8fef2e83d91efb7f2b30760, (-0x59e1670338bfcf85c0d6fc103431c41423851a77fe44b5c9b40e75fc94248244)) ((-0xb7fc51bbaa2efcf728d6bb9451cdbb3fe8afe185a761e8d1ab408236f3aabc13), 0x793861d692c6e9c2731a3e520c9ea25ba0ad24ada4e6fd56ede28e70c56cb55a) ((-0x69fd9452f51888dded7d8025b69c86d82d95b6c3d39e66fafe8ad19a3ef5a7e7), 0x58d729f0f31863520b1bfc81e4f2f0d47bec92b00b5fe55ef1d727bffc838115) (0x0, 0x0) (0x0, 0x0) (0x0, 0x0) (0x0, 0x0) (0x0, 0x0) (0x0, 0x0);
  Step2 (-0x1) (0x381c05e41f1f7076fffcf2ff50ae3adaff75da437b4332158552b651d2b1f29a, 0x96406ae23f3f2b5503a3f38a36444859e4613dfa6d2d91c210a328c5d29148c3) (0x5bfaeb32e62e3423a4516a5e33974987739455735434cae93c00a44b63953262, 0x1c6c433f8c37ce89a8566850d54607ee5d6b424da76b16153b65d5713f9074e6) (0x8534a2501254700ebf3e31a237f0996fc5c57696ba6d9b283dbae073ec12111f, 0x6eaedc2e515ed6bcf7df6ba6890fdb3c003970d10f469346d8e5db8d3266ee12) ((-0x187e2cbe27c0c15b19e6c0add1bca02fbbd9cc8a067daa003cb729e6b5202e69c), 0x169e4639e19e85a910a4f4bd431b23bdf953c8d62b909a32c6a2df17460f22e82) ((-0xe677dd47d840aed568fe76cf5182b3ca800796fb4a4c24bbaf0306b646d44284), 0x5c842599ad5995ed76749163c0500f6e17dfb738df9097e7ad8006e308d5b3fe) ((-0x352d13c157e33ac50d52151b0ed9b63f4c3fd3947759d08778e851c787df5d80), (-0x414ae5d6d9cc3d9cd1353d75381966b3a8d0321b8ec4975c9d3740166d753b05)) (0x612085884e48ede131d11d8b5b2f1af74d26dc36e4e142239c99cd11e4391981, 0xa4ab946d0ae13a0f3aaeb1066a0bcf826b02f48be31d100f39afd8887d5abec) (0x38c38164a68f6d5eb636d6c1edae9b9b08dc8cd3b9d9a6480dd08e65fb6ffea6, 0x98338e469996385e6047fffd9e1262935793451172cd6b8bb7845fbb8c366bee) (0x6e751e4aafaa488a01c7fe1874d94917204e5b6a1d131d6493e72fd0f29b1e35, 0x15c852c7a2a04b0e8d059290404d155a717ebdb59643d953a181025f278f6183) ((-0x1f864c109e27afde1e05b474d3693ef806872a5a6cf90b64998f6231e812055d), 0x36041debf05929639b7f2d84202e3cdea4ebe63deae0e3775b032db7507eb07b) (0x32998d2c0c72feaed5a12533af1e238e55f2d3201c832092cb47bb7bb5e6fad6, 0xaf8432cb7eae3f1bc498953a6bb62dd57ae38033d0cffe6c0ff8aa5726c003f) (0x20bf746b4278c4a9b9dd8ea18c30a5f12bcecd267170ac161585123c77626248, (-0x3ffa178ce89177110b4cda7ec2bf43c7e9c6521aa01da1db52ec58937ab17011));
  Step2 0x0 (0x31ff0b16dc2f3bebf14c3e4c7e7e4139a079e3deec4dd63a1d92327f809212ec, 0xdafbd6f78decb1465c87f0e4ca33450988655f44cf596294ca051f062c43b7e) (0x29b1c8e521db9ae13a244e9d03a970db88e86047c2562dbf88c8a096744885ca, 0x456c98513cefeb1cddb88fa4f827f771ed9843e16061a0ea37a286c7967713c8) (0x320bc080f53fa687ee2065758bd33fcce5014eee5d23c443e54fd3f837400fad, 0x94645cfc704c4ed00b89ae7505588f80f326baaa78f3cf0e44086ca277a9ba80) (0x2fba9d1ee817307adde9ae8a846451a25ad7d469caefa033f7bd6d7f18c7edf2c, (-0xffe31eb3710d563bd2cd6a77223bf997a763bb5b5ce5664ccbd843e98f7aee94)) (0xba8e45b786a314ea58908830d83cf4ed73df30469510bd73a0c8d45ca0e6eda, 0x78258ee3eebfeb3eadb2640f83e6665a763ce6ef01aa262c80c9ad30524df1c) ((-0x84c7cdacc2192234acfd44a763f253b9ec8e38ba359e70d17446f666cda6782), 0x17d6fa00e74fc686797ac0c92186a8ab1d852a4fb267c68acbc954109e77de11) (0x0, 0x0) (0x0, 0x0) (0x0, 0x0) (0x0, 0x0) (0x0, 0x0) (0x0, 0x0);
  Step2 0x0 (0x6ac7e261746b6aff87478603ecf976bd098882c60a659ebcfabe710743c599da, 0x7e6af42dd7e4e09f90d6815a94ea8abe4b21fbd69795c6543ac74e7246c6b9ec) (0x78e85933a9ee388d1fc9efd897a709842049582647de04d2cacd28748630b90f, 0x4b2c95d3d0ffa4eeb1970e12474929ef0689e4b838dcafbf62a95eec774d9015) (0x25353133a5dd35ca09fa375da9cd2e7e4feaf0e3acd70ff10dcdefe9f2206a5e, 0x299d5a138c2615578097b25ec02e49ad6998be4b662cc38a50eb72fb5fc6b8eb) ((-0xdf06e694cc734472aad379f113585502945beaba1858ecf22b77ad97ef5c8aa8), 0x94050ce5e68255749c5e8e59bd3213d1b57d7753ea39587cb1c8755d5b99c7f8) ((-0x70d0facf431428b05a19ea5bda5d44baa996d8d5226f652f713e9e44ebf440cb), 0x9423185538cec9944ca5e66e349d64c264cb576929673c6961180c2403db2567) ((-0x266f2ce2da1487eafb3e7b872dab878db3d1e5a98cfed1a92f58c308e7395b39), (-0x3a50ad6f2fd42eac3e55c3a22f8824542c8b960989da3226045c4d874fd57c4d)) (0x0, 0x0) (0x0, 0x0) (0x0, 0x0) (0x0, 0x0) (0x0, 0x0) (0x0, 0x0);
  Step2 0x1 (0x56338f3c446f8c55af33732032d155ff1beba8b31058b30147c45649d71af616, 0x8d651dd53ae14eedcfb7d9e2378fbef4e857e2c09856abf1115dc0876bc167dd) (0x9ad3ea3c57a1ae100025b3ebdbc7da94bdac92ccade628e976a27ebc0e72102f, 0x1952336837dc0db88d0e71b7251bd1548a8ed823c1a55733977fbf63399ce26f) (0xa50d601dce98e9ca0304fb6c44686da0838da27b0e0c42d4a77d745a046c4574, 0x20393ef1573dc22b20e04cfd486632dd06a293cd974e42f82be650a7da2b7090) ((-0x948940f004c385b8fc90f336117e930f81d11a1dcd6e6653ebea45ccda9ba5f5), (-0xca216db80ddc5ad9f21e0ca20357e66f8c081dd61343ed3fca6d5762f5feb01a)) ((-0xb29ffe92c87228e8b44eb6baca125cd45c79951daf72be995f1ad1f655b9fed7), 0x85c157855a3338a4f7ccdd8bd5c9c8821ad7a05c2beecf347720ff4c7057125f) ((-0x5d6611896e1d7a09a2b93d29bb611372f5ca2458f19ffd406a2af93bbc4f6546), (-0x2bc8fb6332b6c83bbf66b43f49b7f1ca6b2c99a796dd292f93df60cb86a9ae3)) (0xb5af9fc837d2cb3120c32f061e8a57ef5066d205c98189843f29b66791b94841, 0x34cf3aa52db3fc2aa0c2b2fa033409820d02db2f3daffd7f12b0b69739f787a) (0x4f3f32c3ad57ee696e26748a984cca25eea7bb45b0d2dfa9f0f1d98972bedade, 0x11aee8f38b24ab3f4579c92554ec386349bea17f162b4cf4cf95262b960a9220) (0xb30ff2e4c78cb44089e37783b0b425e2a8163cabaab2b74ac89e94fcf8e4aca3, 0x79d08870fabe0f3ed57a2550ecab279aafd5f825c8f6704d8d063c25affce15c) ((-0x674f43da909373c700a772e419085ad0c2ab687058cd05487afcd2050e289bbb), 0x6a38b563e623e708e729262a25e9c7f8174c249938316847508bb5c4dc40f194) (0xb501172a383eda5d6ded53a51186903f5632290c521a7816cdadfba133fc2ae5, 0x694ac9cf3732d189633d0d688457753aaf82f4b7ddb24a6a9fe3864cae541f4) (0x4b12055c8191adc3feb4f4b76c30609fec1f77d8757ef65bdedf410389f01446, 0x8fba67c7970474abd68123b6de1b4c41d83483e187fccf0e3553fd84fe7fe41);
  Step2 0x0 (0x1e3567408685ce7b768c9812a1a4e96b5f564b44ec8578d28ab34547d8bb5c2f, 0x76b1a08a3dcacef764573b65b4072cd3cebb647de51ae77d63db506bbcec7af8) (0x4ee4628ff9d718633f42443c928d23408394521255716abcd15bf1b1711bcea6, 0x55e71bd2850991706701376376ea0bf1efe605d4cbe9532b289bf92d0e585fd8) (0x5dc0a401cc037110dafd3df1da451bd8c0bd6f9a5c9e779238a7d787171b5019, 0x26a4f659a8749752e1c887d1083c5739c4cc3c6c13acdb5dab79f1c8c7af8121) ((-0x15f0e986aeff6dd3cbfc352999f4ffac8fa76263c64d14e7b484f1c98cfa7419a), 0xe37bbbe457a402a24e802c34acac8d6e7c81dd2cd89ce0eb7412372b9fd978f8) ((-0x95989ef05cf332e583051625f04a40c6671f23811554687d235859cd0719f515), 0x27590efd099010c7c5d048096bd6df6a64ea2d3d36ed8985685f9d9e5bf20058) (0x58ead9be243ca2bf74206a13620df4a8b1007f9c9f46a86869f2549f2437dbfc, (-0xb139c7436d8d5d2ec0df5779e0a34734e40def23cfce6acf27e8e503ac52029)) (0x0, 0x0) (0x0, 0x0) (0x0, 0x0) (0x0, 0x0) (0x0, 0x0) (0x0, 0x0);
  Step2 0x0 (0x114678fa8f69702c94fe4fcbc3df8eff4f8c46021680225d068e74583fa0603e, 0xb151978c8841c3b5382e74897ad1dd9f5aae028291f8e80af262b6c70c55ace3) (0x8b971eb24c4a9a2b93bd607c6b4e38cc7528d35d93bdf40bcb6b537e430efba8, 0x3fa84d2691cdb6b0e7576615553c974a2137fa87359dff9c8ffadcd6fdd17aad) (0x16f349e4d826bccc9f957e2dcba33be06db13eb555bd88dd5dadfe4962a4921c, 0x26a5b2140ce22778667984c0ddf9ecba3dd4dc3a8bf1d09df8258903420b54c6) (0x7dd9d851eb828fcc58a3e2726675b1b9d28364d7c60908094a9eae88bca3d74, (-0x215aece08732a4c3f05685a72e1cb8471b44f6109e8281c84f05e49a92a7e9a6)) ((-0x157677b7f756ba231df2a9e8cc94c0d16c28f532f9be653c22f5a82a531863e2a), 0x219d9eda9d9da89caa239749464d796646fc329cab49f47ee13933f8543da9a3) ((-0x310a5646ea7c921569620ec5aa7902ef11b8244dcf6bc34e42aa5c4a4f612d2f), (-0x38f27c86a5b0df84bc3389d792ae152360b0cf4cec7a1e6480137d51192176bf)) (0x0, 0x0) (0x0, 0x0) (0x0, 0x0) (0x0, 0x0) (0x0, 0x0) (0x0, 0x0);
  Step2 0x0 (0x1d2beb1bb06fc5461f0db3ccdf243a663ffb063b9a408348ce3c644797b2cd4b, 0x5f48d3280b517ba13b33baf90f45bbfb9f30783ee7ac47ae95994e1c536030ae) (0x86bf686d1f0c0f7a86f75c67ef12fc33afd0f980ca1fd4e0c2c2b2ca926bda05, 0x80edbf67422316f6f561f744a91d06142db54cc04275e81d699a23cf59d1e384) (0x869a0f6bb03cfd2774b9cbb2db017caafb4c25462af1fdef72c994d5897141a1, 0x3bec720b78b452f99f2892f6b9e6827bcec4c259465eb8b905907a64c21f795a) ((-0x104d0dd4b32a24cca825f135196bf7467f717cb625b259e6140d87f281cf6969a), (-0x1002c048618e6fff91409c518fa736a9b70d16f92302cf6e6a2f635de4f8fec4c)) ((-0x5ef6e9f8a025784aec4c1218e535c6c3e92502aa58cbebb4b19432b58fd746b4), 0x1e80cc20c1f2df494ef75a97c3a9e7fadc3f11707826b931a9cb1e9b10b3714e) (0x4506983703e12e8dc177df4b38db143cf8561bbe700ecffa4d71cc75ecf6ede8, (-0x7ea6bce9d65f421b7b7610761f3aca9682faa418bae9ee6aa77382e5ef0c50f)) (0x0, 0x0) (0x0, 0x0) (0x0, 0x0) (0x0, 0x0) (0x0, 0x0) (0x0, 0x0);
  Step2 (-0x1) (0x81e0e52b66c3bc8d337d12418377a0062e6eeef884819bc79d3a766dee80642d, 0x7283a4641caa8ecebfdaa07956325c38de2b6ad62c3e52c81a39361305736d5d) (0xabdd386801eb249dbb4fe2f2408cb53245339011f7127757e136637e8665b2ca, 0x363d495e03b19311c66aeedb8d21aaa6e3d71209f7a50d95611d6c3b50e87c61) (0xb61cffc8525a7899cc5ef828b2e331181966a85dfcc18c1d8a47e3647b4c8ee9, 0x3b1884cf17bfdc9f8db620179db5f66f5ee38607c5693e4617c91a5814756831) (0x1219a68a42924a3d8dfb32b1c427cec0d2bed8ac15206654a15d2036b1d4d0033, (-0x13d632a0f7e5357a1cbc22e09f2a90d991b16d4de9ab22d0d59c9d4962f744162)) ((-0x3359ad60a2cf3678cfb9cf380ea15485748945647587a9bf4a48aaecd60b4d01), 0xa336f3d01fd8290b3dddf893276e59d9ab0ca2a5ddadbccc4ac9301bc1d8d2bd) ((-0x784f82a65167dfdef22260e288b4153775cce6f4173e848b5c006cbcc35f6e4d), 0x1de7a8f6c82b96e32ee387add710616c5da2551ce4b0ee8c954bdb09f4149927) (0x2347f4c28ce328003d1ce218edfbd3d6e183cec46dcd2f60003d8b69a3f373e9, 0x8dc5757b59e840142c5755ceec0140c90ffe88de5c76f3c272948b2fd189b09) (0x35af6621cce072e2993af8fcd55dcc08c7b4c250f51cac304671c2b3b2923bd9, 0x159b14f3314aa1fcd7a25d6ad43d992891daa49c91885fb4678a4a687c490ff1) (0x352f1fa663b3befdb800c52d76569a4785f3d9071623ba4e5acc00eac8007c14, 0x89ff67c64f5635ec9d124b49c4fe492210fa059ecda18ae911cb2572139bdd8e) ((-0x1e5275b5a1dc30396111ba2f4d3486ad234c5ea19f8f9c921ae5088564cecb23), 0x9b43ce8f6663e227b820170bf7ce6f70f58a2ac1584047573ac878f21e7c5c0) (0x5f7e5387401e6a3af999828c05911786a33227d00b1bb6ba2203fad4c19c105, 0x36e3d2b16190b57041001424220741026d29dc4db696c6d8e79ffee8625b73b) (0x13b4627c582bef304a575ea12caee174f42e52fd73ac4f574d4e7fa1ea89e82c, 0xc1026cd16169d8c78c606bbf4dc0ec8c09f44aa289d7e1f1075ccf106d1b472);
  Step2 0x0 (0x5a767bf6c0cf3633ba261fb744f5eeccc3ee0f605f1cf52275952a4965e8f347, 0x79cecebf6c9cea1e832c88ae2c17790ffc0b28ee4291f9985a96c6a2263093eb) (0xb12eb35cbbb76cde890fd6bb85591551872f09855b3975296276c16cceb2c5d, 0xb3b9b97eb79e1fd2a804c61eea60580f55ca5e946c57f4aa176bfabf6db96b87) (0x213a7e0b21e4bdd1f13a0e196995301ccfb352ea02d0509d0a29a56194ce193e, 0x68424ba431c3b96a621b0de87ae1dab6d000e958b70592ff9d59e472fdd530b9) ((-0x15c33c65b537d33d1c27232c5fdb4710dc343d8704c0eb60ffdcb0f77de8794e1), 0xa9e67c2ebeaa169160a880d75a970e2b2238b6cdf9111a5cb20ded7c4c2cb9be) ((-0x75eb51d8e7fa22586f00d62a5e0b09301d67f3d040eb6ceeb02643e890240a10), 0x78ec36c392b8b699c39db66ff4745b341018cddfdc377c3e1d95f633fc55fd85) (0xe882e060093260660b15d2fb79f6ca3c81b2882d845804785dbed650830e632e, (-0x32018107c5991d9d475e59f1c01f117c7355e7164102efcd03a74ca5665e45d1)) (0x0, 0x0) (0x0, 0x0) (0x0, 0x0) (0x0, 0x0) (0x0, 0x0) (0x0, 0x0);
  Step2 (-0x1) (0x7ce95c2cee818f93e43e93e845664e9f8950823715d202c15a0ab9205c5d0d4d, 0x605f2dc762698fea24b5e18d2515d77be75dfea794efc87b1a6bbd56c3d685ad) (0x60851108e0c1ac27e32de35de425f6de72d00587d0532ba3f2d5042b571c6185, 0x336ab0dbbf1b8bacac935afec6db10b5f7b00c4cdd9a9f335c845c154b68ede6) (0x44919a506b6cb1006014fdc883ed8ac11689c7c3cc17d16f23bb4631d1583bfd, 0x3d2c8d76e6e8adce2db0592982adc2b17f569661c68b466b2f691bcdf0cb8f74) (0x3766bf64b7ec7a67283d0e5158013f92644cb9b8e08e77ec5823ea34e7f9de47f, 0x7088ae0cfeeb1faf21594035803845c1f43ba909def2a10085afbc86e9f05e64) ((-0x104eddd4a99e167e2536f60e0abefc0f717dbd72bce9bb6cef41c31159c8cf08), 0x841a8d2c3420becc19907fa9a82082dc160faf8d3b9005c77c39808116aa05f6) ((-0xc242878e2dabd7afcc58a6ddb06684f4291eef8e631b99e026b9d518968761e1), 0x2ac2150efacba5ac79328c31e4676bfe4706c7bf8f72f232912f0a3abdd44098) (0x505c9de4094a0dc8b40e15e29f49c6937ecec3b0f3d1c0453aebcbe9fa928bff, 0x67f73bbe73e379363eb4436fafb43327a18e67667263b3643bdc18c3c6aceccd) (0x72823c1585260251548103fe5a996406e3109d86777fa13bbc09b19e27e8b404, 0x47f6259d7e173467ac82044331e176b8c40ae0f5f77bde3595d1e1a57abe4cbd) (0x4c7e8b98c50ee71699148424242a67b318f34adc8f660be4b6e9558d725c8fb7, 0x9dccda1a83851e9898db34bc9fed9645e14288f7f83b54d54cf90e1804ccb6e9) ((-0x701b8db102248215fef0ea6e591f13b382b1550062a253b398aab604cbf5ed10), 0xcaa9973a4f9e2add0860c624a671aa5c23bbf466cf05e57af42cd60f24b08d1) ((-0x532e571524d6f7146d733e2496ea4dc30c122eefd88b33b344984a191c1aaf19), 0x5baf943d0346a28ed794077a819aa55825e8af10b6235832c7192428da018c2a) (0xf81f870dd0c278d8d85842d9c5d0174c33cca89cc1dfc2664701598f29aa175, (-0x13522aeda55a3ecd80e7159e839ed63caef83291747680b8962de3b2d8197d6d));
  Step2 0x0 (0x5f78a0cf302de3b3b049a960f3b9a23ef8e30a035269ecc01b387bfd5d710421, 0x8a1e65b4be25ec411130ee198460cffcaaad1804e3308a1a8cc6b6592401a341) (0x68640d84176ad813683045d6661997ff0eef6ee395f5dfda5011e2828ea845e0, 0xb0c7b396d3c4e2fe9d30e11c14270ac0e856b57d44b1c7c69731b5ab6b2bd12e) (0x6d1164a4ee8e2e6307ad10fb75c8e7e0b831d8288ad93c5f174a7e372d5a24f5, 0x670775e1eb0400e811e2567e1d8c3a32e8dfec93df43e1a9773d399686a944e0) ((-0x1bb91ef938019d9068d1dc5704e194370ab6db70c6b4510d327659fd5d65f9b30), 0x9fc84734b3897ac177d91c1a5273120b7bcb6495ab961301c4040e8efbd5ae8) ((-0x9f55c8fb21e8753fa7573f4174ee1f42e5af09a17d2302e290965b234eb0459d), 0x90b4d0992e81ab69c9ec308aa9675ba9af7f4714d008858515490c0cfc3997a2) (0xa42ca61a659f0173ea94052eff1c0bfb451dd657bfc74cd92fb7437ddcfde1e2, (-0x2f3db664663ced675a16f3c283ca1e0f1451446cb7609e5c058071a70ea0b9ee)) (0x0, 0x0) (0x0, 0x0) (0x0, 0x0) (0x0, 0x0) (0x0, 0x0) (0x0, 0x0);
  Step2 (-0x1) (0xa8258e2219b6d52d1d8ca4253b452d82cc8ce68a854763c73e383fee36d7f297, 0x4053cb8bf8868f1fb00424b8c3f54f4630f616eb55f5f9414f151b7f185349c1) (0x448fe86eaa5ad92ae4013100c9a065c910344f57b8c78199411ab9e74aa0793a, 0x1cc945200c2698675200352d43b22fd99a5eeb921d89c22aa4b39e45cf332af6) (0xa4aa38b057b41614d5d97b2a24448d87f449b5570096a0b9570cf7870b0f5ffa, 0x90f9307f57018afe5de949203204cc5688fbcb8e9ac741b2d285f1c8fe0c1fe0) (0x389421fafd9760f4bb26e1af07d2402239079793685a710e64ba68d080a8875f6, (-0x15470a7d2be6173e7df779ba05a96e1911df70633bc68e0b5e55027ba16def90e)) (0x6db97d95dbb30e85b2fee7d8569aa59d12ea443a661d4139699ab61a2d9f4579, 0x76b2e3fcb02b37f1bf7234f73d9517ee48a067912bf76bdae5d04a3b9d7af88c) ((-0x476a93b90efa2a3c2df9da4d1d98745ff61a9eb47e50770d66f0522b31956759), 0x95300863a7b6d6ad4be5a727bf93c69360cb2b74b54c887795062c1503390e86) (0xa1eb23464a002f8015c4da94d523794f2ff033b6b99bec276472fe47802d8eee, 0x9793f5cc6ff90d638c233fde1826f98413b9171bd5ac553aaca8a51ed83d1b4f) (0x22b74c3a5c9550dd4f3f77499f9b8ffb1f1be7481546a6ef98abf6a0600d48f5, 0x32fb44b6518f93f23bc5aec6ed5ad6883ad50ccdcaf0aa9c293f46e573639e0a) (0x2e8398183f250414afcb0c95d964a6d0613269b1f929cf94a1f606c3ba9a9819, 0x928b0af4e66904fcc441a091704fafcf8f7fdf6ccf41df4e76b804cc4b00abe5) ((-0xba6a943268e2f952d16b0f7ac01829014b7a0470e5bec5954a23177b98352c37), 0x5206fe460e0421c49c11fc8188f34f31a356b26c494ec54f2ac56851f2b1b70b) ((-0x6c47dc59483618b486a74f97613ceaa92dfcbe97712c016a1a0bf57ea78276a8), 0x10d561d9e838e50fb5ec6c56d04a44eb9ef93f2b29c10c2c973791c75c066f89f) (0x42fd7a45b9967f7ef477ea99c9b8af0360e65ba156e7a900366e51bfd2617e07, 0x86e432ba4d66f504ea0fcb8ae31da7f1ac5a3add8f7dc5ae27938f5f08e4706);
  Step2 0x0 (0x18e1bb2fa72254c78a11e7139a93014fb83149662fc85722af46428213431f20, 0xa84ccb5ef8cd2adb73d9f028e80b52ebcbaffcadfdc9467690d3527d59cb9cff) (0x243414d7e3aeb5c9da1add488890f8c4a4b4791763ce8423ba773e1e3a0879e9, 0xb4cd985f385ab8a50bae2d32c028eeb3132da40d0ed4f598b38437ffaf7e3b9c) (0x6775b657994bc56f6504eae11c8a6e6cc2bc3088c70c7e33f8408398db051b0f, 0x2285e83fd8768c88da65169545bceff3d7ee05b640c6c8e1ea2e25febb701b8d) ((-0x1cee018644ecd3aa4743c14b7855d0a7456551acdcd09241388398d3807e1fa6b), 0x43a755e0428e4e4c38551465529414a367d8b42f0d2df32e78b9ce7b07a343ca) ((-0x13370404f6db966374a2c142e21442a736b0201fcee65e84cfb4f84a8d96db739), 0x2df4576e1d0e189a5973252c24150f2d3429e5d35759a1089da1fb86a0878f50) (0xef90ef543bf011a1068e7435f6b83c9f753f5acc39b984652af93b7b4294fe44, (-0x1318f7ee95cbb2d25b3a2433b60894c52351ad81b06e44c021a84be2bee9ca16)) (0x0, 0x0) (0x0, 0x0) (0x0, 0x0) (0x0, 0x0) (0x0, 0x0) (0x0, 0x0);
  Step2 0x0 (0x59ecf034cccb753fca843b67833636a68a385788927eed946a5578001219c661, 0x4c6dedaa24e573d96b02e90745a2a9b26bf612a833ec9098a5d597de94ebfe18) (0x2be49d7df27bcbc39be3b81be5436738f057d28d6ec0fab6d50a3a2fe6a7e072, 0x6a4ac3ab2dc3b06f85b754a6578c640dd73a776e82a1b817568616796a712cf8) (0x572fa8d43dafd3090253ed035cbbce9d866eb57826450cc572620085b532a06a, 0xaac24fb744795dbe6d0ce1d7128f349c3d11b2e45ba0e7563736ac7927e476c6) (0x44ad16061bffa155b54166e6d8cb6fa2fba8901118e50999d35fbcae0f0488747, (-0x5ea70857e6ef0eb5c6d9ffbbbe66bfd85390270c06123e328887badb7ab05f96)) ((-0x13bb99e8eb5626c5bb6e39aa7702fbf103c0e37c964f08d9ca6a79c5fcfb5b7f), 0x4b6c62d4ffd9bd5e7d76adfced7ac7c98daba32b63222594347aeac517b45200) ((-0x4249f8ffcb19cf809171593c9db93a610d4d98f1d5109fd661e890d332b2744a), 0x218a573ae433bdd18455653f8f29d9e6e62f9b58c4a8b58d632fad1be9d4502d) (0x0, 0x0) (0x0, 0x0) (0x0, 0x0) (0x0, 0x0) (0x0, 0x0) (0x0, 0x0);
  Step2 0x0 (0x6de2e39fd77be75457d19982734be6093e1ccf06ccd8dcbf168e3527cf676920, 0x32f450dc5a18e31c850ea27013b81d24fb312de622fdc096c017b20cb28d7407) (0xb599f743e7da8c8e6b6f75b38b72071cfe33f0697e1d612bdb57e6335f2c16f1, 0x55071d52c03506e9de00e3bf9c8d05cd17a3d33980d5d3cc0af376634161188a) (0x875fb8147e42209d77bb70b729595d4a612ecaf1dd2e3549725dfc26aa2aa1c1, 0x88b2b4347bacd5e89c5c01ab277870b427531aa9d54ecd5f6a6ace86a96413ca) (0xfe682d2d2e62d2d7a09cfc530bee4628a34dc6fe1e8a73fac47f434df4188ffc, 0x6512559922289a9c35b4b02fdd3f1d5f07f30f61964147135ff3d3df13226f1c) (0x25c3526a4b604cfac8ee56be242bc5196d73047b68ad70f546b765433091713d, 0x3d71f26eb70d06ae29445123405fcb8193a8359e0c64f7248411c6bfbc69ad3e) ((-0x5eebabe951164f447a89c76d5a1377d78a6f7e423035f152cb724247954e247b), (-0x19ae192d88b5d816a27e80355b727183eaa352e99b7bfdbe572a86efb08df7bd)) (0x0, 0x0) (0x0, 0x0) (0x0, 0x0) (0x0, 0x0) (0x0, 0x0) (0x0, 0x0);
  Step2 0x0 (0x287024470cdfd0fc9052d0533b664280063f226b833e35bd42dcb540c18f7dbb, 0x7db5547515b98228d599145a9e3f8574c0b373d844ff073a598772375b7b89bc) (0x4a95b0aa4463c36c3d9b35fedacc871c6f6276def76b4805f057bcf83e46efb2, 0x8e6ab3143e1c45efa0e18564bbdafb4d8a983c7ddda124e0b55bc530d04675b7) (0x746b14d3ef4d31e0e7b691dc7ac203bf1e6b4d37adda60e46e804969d1d1b978, 0x4b89a2f172b058f05cfc671eabac6d43cd44a70aee4e93330b584c1753badbdd) ((-0x26dee077c74394b5b7c690f8859a73c0cdd15b26cefc843d801785329dbe29e99), (-0x104f06912a341414c76d29ea97f29c4d585ec80bd86e41b44e6c0fc00d6d96908)) ((-0xa471acf2b375beb4aa15a33dbad69222727c9167462bae77797a618a48ef4677), 0x37c8efc1294929b163f3444f6ad3531c81fd71d53cd6354904801c6ae2a623e1) (0x66ea0382a62bbf940733f7c2a839371cf08fac10a3eec59204ad91c98c9817b4, 0x3d14fc6b983b31c0f22af2a8db0236a3185807781295f62406d652d48bc47816) (0x0, 0x0) (0x0, 0x0) (0x0, 0x0) (0x0, 0x0) (0x0, 0x0) (0x0, 0x0);
  Step2 0x0 (0x6c2585d79c0f864c2d3a24446132607880f52e3b2748a98413ff7a0aa41d5471, 0x3679d59a6d6c1b005d4d13073a3ec176b0f33164ba1af2d0ba472b3ab830d6b5) (0x61c9284c261ae8cf58530c5c6e7a5596bbd2421ff9a962e6a47562cb3a85927b, 0xa1763c84b2b14ff7ed44158fb92b331c1d7319a5efa7b0eb374ce07550c0378f) (0x35b9db5215c90b83d46b17679ebdb3d48f2fbf95a9c8790252bb687a9a47fd8f, 0x8309ecd93460530079d5e13b1126348f2a373556db87c7002bddfa2f4d73e67d) (0x27004722d6ff63d720df008ae841ab9ae9bc6579e149f6807f866063e850c457e, (-0xbe748320d70b72663b8823889d0857c5ba4f9e1fdf5372866b74a211b901c372)) (0x1f9b7814273294b1e216ebd93125152e49e5fd8223e3eacd6ddfdd40e9b62d50, 0x40a6d3f988550d78d4fbaaf4f00f026a5b6cc1b1f82d3a6613d869c748983991) ((-0x261ca701ff8398304449423d88d72a0174be0d1d365aae9671970ea7a554490), (-0x123c7af217debc5510bc07ff4027d445b41042834d391cc7bc9f19edd599113b)) (0x0, 0x0) (0x0, 0x0) (0x0, 0x0) (0x0, 0x0) (0x0, 0x0) (0x0, 0x0);
  Step2 0x0 (0x1d3a18e4ef7d7c63d81c1d430cebc85c73af25b434935bd22a87c3b32b4650ed, 0xbc2929793e7a484ed232058e867bb2798f4087a9f160d12621253f1e2238dfd) (0x5f8f7d8b6c1ab0f0f2582bfee6498d8ac41574011df35e305e131845bbf9b2bf, 0x43ca3ee58ce2e4ac18df94f13058aea500aa25c064d839c8b6021efda4c8b0be) (0x1e4a2e8c81317e8e91140e1bdc06a3d5d4394dfed125673231e87b2caa42d181, 0x899c53ea87355f7f11e89c0d1554b661c652727c9c2456bfa27b526764a8b384) (0x2ac4765789d113494844d9593642017e184c95997d2d21ad90e8dd30fa9f94fa1, (-0x1d6d4579d942d1e5e137a0b3557e5f4d2e60dcbbcef1948b77399f0aa8056299e)) (0x32b5b75115be53ace14855d49b0dec2ab4df6aaa12eae9aac3eb359bc4b83ca, 0x3c598497056f8d9f60aa04079bd1f048be1a5173b3ee1d1e5d4368365d0acce) ((-0xbbb5bd36a815e118705dc9237ae90a7f02e801506df99bc786273458fcc37f6), 0xf2a5d9383ae6f484d86fc6ea17e48503f5558bc1f8a807695499d91e5d119e8) (0x0, 0x0) (0x0, 0x0) (0x0, 0x0) (0x0, 0x0) (0x0, 0x0) (0x0, 0x0);
  Step2 0x1 (0x76385f1af06ea925f1b95579173533b7a90c30c944762eeff141a383dfb7f4c6, 0xb4ad6a85fed07ccce96c8051b0656e1b97654d55af9101e48eedb19f542e7e85) (0x6156af098613b86ea6e1e332044589b1070cfb8828d5b977817371d8256052e, 0x6761d3cc23c372dfa37925354cf269dd656133a525e9e244b7729dcc45e9c8c5) (0x9bf1b1f579c15abf031f3b460da0c5ae2c696086458cb0139dd9f312d6c8b6bf, 0x853f5dfe455ef8cd0abc0f35495e86e7084e0b263c12a1295546d8b263eb5e40) ((-0x1f96c45586fdade2729544a092bef1a9face1f994045bb5e28d98b2bbb36a901b), 0x1950cf4ba362c7f784456e5ee4311e20180deaf4ec9d58f2370abce827f15fc6) ((-0x1198d01b16d018a7ed2767e1dfb979b3275e2a60f7c81e4ca532f1c1c820677c2), 0xea667454135aecdaba635a5ac2a44b270913d9353fa6f5893351f9f15d9d2e57) (0x809c69eadbc7c55059291a82c89e1b69fc0b1c390f279590797ff69c2f76b19c, 0x419e01d0e212124b0933e8a4d545f8e8760400616ce6adb72f0f0fbee6060073) (0x6cec65e4b30a4a725bd67d74e41661761655faf78ad7b57378d4f4f681b6a315, 0x1c7acd472d639c467f9ff39130e87214329f23cc26963cc51cf7e391182ebe76) (0x32cbd225872780c979d1b23378172c8dc50645a17bf802900118215fcaf67596, 0x3a41e54d8ccbfc79d809cb067414db0db213e1175762ccf9ea61a3ae08551b19) (0x6876e07b748b7920b035750da8912f2706ab608a6f8ef79c795adb26851a03bc, 0x53f0b8fd2ba538a19930fd5f0a59019dc52bbb033a7b500dc1eacfd750448b76) (0x13d87723846e73ec3f015f89bc8764914c0cb3ddb9d36a67679f6dbffe49990d, 0x19c65f4e6da9fdb5bcb398fbd8747bb8910e432f15e1d058e434c90cf4cf0424) (0x3832bf3d1a4632d8c25a06e80cc1aeb31a7adaaebfa9536639fa03a1eab419ba, 0x220ad536e112ec17782e133564a10d46f718e562212649a4bc1bdd2bf32737c1) ((-0x28d36d29418a14490364ce7f4d4642a7e3f1a6dc0fd87d3b3eb0fb8d56b2f44f), 0x13fb6c6e8e40713fbb40cb3d592a68e566719ec905d26bf27b0178c5bd8b612e);
  Step2 0x0 (0x8af03e549f3ec69495ffa6af29b8ad60c2e7e7c21389f844554ce01314ff2d3f, 0x1e5da8c567d5cdd418b8a8566406b95d47c692759ac989d49a0418e4f7ab2fb4) (0x9a2c74c7f7e6e2f9cbcf5eb0fa45e78fbbb336eca5bc0c84094de11710ef6898, 0x2566805106b8a4fb5e2ea6cc3e7c89d4d0c7275f9f9f54cffd875f97e01b0eab) (0x8a95fccd3c065ec2f2b86c749915f5ac34e5f3b0fc45b476119a6cfdfdc2c3fc, 0xa7af5ebf05c9b9c1504c3de3eecc6d667197d811cd3dfe09df6ed9637520fdeb) (0xac983293f06f33b581face70c6501e7a197e5683841dcbf63daad1e8db0051ca, 0x415ef6d5b24c417a72b7a62b3b73efd70b51ff2ed7a03bcff2590b1cedd475d0) (0x5fcd0ae7c87e778e1cc5f4ecea5a5dbb463b0575d29a85f8348cc4caa500d5a1, 0x2e4c8321a90bbf2275cf168f36401cc34129042d93b374739d4da55c76e35597) ((-0x55c299d2c0976923e79c0171cdb41e1c7f322ba52a16fcbef51786e9b1ff925e), (-0x152f3e048c1f0dfd5341b8165926508a4d81eeaf44fb910ad6cec8818dbf043)) (0x0, 0x0) (0x0, 0x0) (0x0, 0x0) (0x0, 0x0) (0x0, 0x0) (0x0, 0x0);
  Step2 0x0 (0x2ac040e2296b70d663b860c48a474c650dd61150145fcb4f1df22917502bc708, 0x18b982fa33fb8e1bc5ad43a4cc96ef9801aa07374b01edd7198729adfb472929) (0x41f1a72022e102eed22d289a3448ac4879b3f1eb97045a178ebb7e12a6da5694, 0x5a6cd70ef9865a654700dd9c7e9b71195ce02e0bb82f705f98fdeb277475940a) (0x63dfade0e2476f4c8a325cda5da2bee1177f63d599eef1070d9cfe4e9769a8ce, 0x844ff98625d9867fe8ee4b471b4fe2298b836d55cfa8da4367a133ba68208474) ((-0x17331e240171631c4f9de88556160ec9fa1b7aa5598c12619503952aff40a96ee), (-0x498fb44344ccf6a00ca287cb0b690c4a093976e9932b37d076da5e428046cb68)) (0x351dd267a2eb54e16a241f244885d2b07885469b5883ca5b95327e43c354be2, 0xb9978231fa3e72bd7133aa2a677bc8ecad7adba431eda6c76cdfc45015082f0) (0x231557fc7a655d36eea08d5236fb600dc3d0128df220a57485544fd4068e5814, (-0x77f9b0ec274d4a73951f2befdf4acd46021e2ac271afaac1b4ad0afa27a0ef)) (0x0, 0x0) (0x0, 0x0) (0x0, 0x0) (0x0, 0x0) (0x0, 0x0) (0x0, 0x0);
  Step2 0x0 (0x9fbb34558d2b2fb49da6f72bd1f7f6bfb27fa17676efb24490fe053372b5bbe8, 0x95a6ade4a7d488c5c58d9d57d591586eb92a58befa97a6fe1d3d2409bb24de1e) (0x4472ea2b01ef118a6aea6379150f7b25b95fa0c37ecc673aaba0650c081fd114, 0x3bbe25e06f1fa089e31b9f991dc4d12fdd6463679e50380a178d31d89f90d51c) (0x919315aba2e7be51d5a013917d8aaac2d9a914f5405baca671f6b51cc854863f, 0x8527847ff6ae5d1cf54442a551c9e323649aed9d39bf323ba06af4970fd1e78) ((-0x3de8032f6b9708b9eb60672629cf2975512bc552428e7256376fe3f771bbe838), 0xc7a259d89056e97cb47a7691509a0d6d1598098fce42054c9aa1f8db0b20beb8) ((-0x69c574378444ab402627c09b3b996cef7f40ff4ea5fb64578b06d45baaa7fe54), 0x106520e54b57bb8ceaf01d300cb34b181587051c659a0e4897c6b4d8315f8e8f0) ((-0x34957cc001acff45c4138b7ff13e49a085b72493ce0a188eee267a864cd46a39), 0x18d59c1ba43aa69b2a2faddb4059fb7a0c8d83ec2429e6614dac55e233182e14) (0x0, 0x0) (0x0, 0x0) (0x0, 0x0) (0x0, 0x0) (0x0, 0x0) (0x0, 0x0);
  Step2 (-0x1) (0x47e66d5d24ab3deda9b9c453de55ab6ca83f9f5d9cc73f48a480b503142a2cdd, 0x1b998acffd1cbe26f347c071d42d15542401ba3c7e806e5c27c672fcd593cfb1) (0xb0f0b553261fe303b08cd9910190f9fc1ba4e6f21633db09db724eab99964d54, 0x77f6b2bbd1827ee398b0e7679301301ed189bef3eb2b679efa21040161980c5c) (0x8f00b81c2c0530347ab93b9aa17a343929546577f2891fe3247df344931c526, 0x24b08e754eadfe28853007c08199eb55e981c0b34fcd0bf626a9b5d9726e1205) (0x9633bc829aa5142e3262ea60f5abdb57d934ab7bac116f5ab80c3e757b5168ce, (-0x53f8625f56d869287f76b78a7ada66aa2dc24367bbb0087111d6289b4c6cf0ba)) (0x14019668e5e988457cb10be4b47e94cce307fa07833432c739c025f1a00eaaa7, 0x15c6e7bc0edaed952e5ccb4d0b2b17b580a21c3ec97b549e3578e4c9ae3293fe) ((-0x188fcd90a4a1fa4473b36bca1b96e49ffd06e7648701cf7758bfc0b0af8acdc9), (-0x283013b6f17f201eead7107e2759a4d00e285268653826aa409b6bc31d115381)) (0x2dc7d3ba45da3637d249e266e6e9caa396f0f7fbcee77447439a4ce2f3fc25, 0x80138eb09f33e30d456558828b124a96a1d36f53a93cc856ef6e3cfc7a64e073) (0x43c14e38785dfc6831f98bf5a3f3f414fa34352a31238c12fa2cbb7b14e7c6d4, 0x1b5c0d56e49316f3322eb0d34c613c0fc3908cdb0524a18812d5eb7d92434640) (0x99e9cba5f2c7256d1704da2624358c99d6b840c4eb939e34a9ef07e014263ff6, 0x7082c784c6c3f28ea29e5a4b53b915bd05c1074af7cc4045f7b75d31d560cad0) ((-0x136714193d399dd2917f7c8d48de7b47c956e8fdb293f0b71ea0ba9e6c8ac366), (-0x5595ea5f7692c70ae326a48e3aeeedc388e8b67bbfe870d4cb3def9cae54dc73)) ((-0xb402f1277b72bb93c00c4b54fb0ce6ccd4e1380b4a2fd5eaa1a9c3d1deec7f2c), 0x40583e669d38456c45798634cfb5dadd2e425ed1d4d9aef73d8d08a94384b5) ((-0x820c51803a53646ccb49b68f68ee83b40609ecbf0328140a64526481220bf414), 0x4cd2246033d504f85837144690d41e334f2ff844274a6a65c77b8d300e25a543);
  Step2 0x0 (0x7b16708442b0f75db0c647188e3ca2c8342d29e26e8dad546442847b5b6d56a5, 0x70de873881b7c6c56e4aa0513bc12efe9f045e79e6af4518216c0cbede642a58) (0x36195683f3579fac0914b150e8c9e235ad49c204d83aff614fdac8ace971f9f, 0x7d3a0fa91d4ef131096ee0b4cd4e240b768a8e988da7880c2c1459995fd2e1a9) (0x420ee707cc91b963773efeebe35c1f3e03ff51fc7ce4078b19bfb7d144761bf2, 0x9feb477299d5a9985876ef05ec8cd0e48153b9820631228444c5a448fcd94ed3) ((-0x79bdd7626e7a6c9d411eba86c29ebe4905b88ba29aad19fea96f058bbbb58c24), 0x119960089f3ed73a6d0558bdadc9609e8741497f447417d407f35483b396e8440) ((-0x38abe1ada2997f5f016906020d65f02d06bdfb9c1f3afe5a87419ac1946c5486), 0x987576347efb006e869e314b3b03064eabc2379c6ad4d7aecc16f339e5fecb13) (0xa4b270c530501a175e3e19963b0447740194d2d361937a8bf17c267d596c4805, (-0x1a3adf1e5433f688cf43c96098eabab027c2ece43e4a389a68461298f1b5d1f8)) (0x0, 0x0) (0x0, 0x0) (0x0, 0x0) (0x0, 0x0) (0x0, 0x0) (0x0, 0x0);
  Step2 (-0x1) (0x297899dd4b0347560d71db48e796645378573450b89ef394b8cc7bfb956eb91f, 0x76318bfff181789defadadcdf73d083607d884beb3161a33e899d1fee7ed618c) (0xa12bf792cae2f79e8e4f417931578bcb508038426a10bfca590ccd09ef98aca3, 0x78b52630eed49b5f2a5f4f1102ec03908c2524f738126b7afdf1885b8f61fa88) (0x3aae529c5e3285ffcb4be2abdbde68369bbf8a19a34ee4bb724781442b7f2957, 0x28ce5b820db7801f53aeeebba174aa5711b08efafda543f07d77350dc3b9ef49) (0x834d153ab9e9910ba1fec7b5deb568a363e6bedde3e1c4481a5730d16d3a8e1b, 0x90853d7b5d2e3b45b35cb94165cb6e78fd6cfcb3fd3c09de39e213ec5ab1e800) ((-0x8fddb0ec3daca3bee56caac8ee3e90e9ae106af374c99194d8b09cd46d1bd440), 0x35ca3f071549922b7876430e0bf4cd90f60fde2b1da5d6ceb0782022ce27c7a6) ((-0x29c4565b9c8d34452883d2d12f568a9ffcebb5a4c325b90525fd9a93569a58e1), (-0x654d7b12a0a1401bc35168bee620813e2aef8d551c06ff91699ef3987ec1b111)) (0x38364cee2c2051dbfad97b1caf8e1664a5c5cd07fb907db501189e153982ceeb, 0x265e410d0ad144c7a7beb481d5c7d27731ba08281550eabbbc301e53225370b6) (0x445d2aee0dd8f834041bf72d3a9ecfb89ca678942058409dc7693d14c748589b, 0xa54aa7c5372244d72fd45ed593736c314ec5a6f023102da3a73b5d30659d4ea3) (0x16cb9083004a53b71608570ffee7f48a2aa59de7bacdc3b0cc89a1acdc7aa8ae, 0x49b22da84c248d8c4c5bd19aa352f38b74e74bb0bf5cafa6b4f7fc505c9a8d8d) ((-0x262b3eca53edf0cd32a04112873362e605aea503999244bc23cc59968aa810fe), (-0x12524030b33b21be5dfb69667172432b942f1a269f1294a5a3bd75181d446cd6)) (0x12ecc955b4e5728de3ecaf4ea00bcf2996385cfdb521c1bb0d035fd571b8238, 0x17ab092d4e71b0c84e9851ec472e34bbc43715e88243cdb683799b153efec818) (0x2f65ae1aced1668eda1625b501c1652c37d89123a66fe0e497845ca844b36843, 0x5c981bd8e6845b5eb494d1fece2547cd858caf97ac985a684fc0fdc1b9f9325);
  Step2 0x0 (0xb558c77e2cfdc27e8caafb6cb3af3bb46aa4c52fa8acbe7372bcd8e27d0f56e, 0x79e87df2db45558b741deb15c91f3cae911d87579b6d52b12be9d2ea235547bd) (0x32b88f9a9f972b7a9937680a86f3262a69aaa729f9c615c56f104ad9b1929c6f, 0x58d38e812bb93298d4479de994af3db2b80074babb247daecc0bb5bb4b49e7ff) (0x139cfb477dab2c05f09aa5d7cd09a3382fc9911ca9b0b431e41ae0a347c7e6cb, 0xaeacd9ae75858397cf20950147d426f417fe49e74b1725943bdb0e6b1f9a5d06) (0x2743004d93e1c073d8c7caed407b3d8d4a9f89e9fdba6026ea7ab1a1e139cdcbb, (-0x14c5a9e72c4637a859d55a4ef9298b46121e91255c7b7b2acec51b7dfb91b45a6)) ((-0xa262aa4fcc03bf3ae9ce04c87f5c8430e5bf3af072d9810eb6f2e1c72bbd39af), 0xf29ba76a917250d07c5c645d8b16f551a401ff91c63bd6800c4856229cd1c73) ((-0x6532eca8a4dfed358c08b877bde0a1955783f044172b0fe4a8caa16ad89a12ed), 0x108e912ecb24d6202e22fc065c14512960bc4e02cc0eccabb1333b4a06441fb5) (0x0, 0x0) (0x0, 0x0) (0x0, 0x0) (0x0, 0x0) (0x0, 0x0) (0x0, 0x0);
  Step2 (-0x1) (0x73dfcedcabc596a989d48887e721888823ce02aeb787b86eaaae861d6ab16430, 0x5878408892822fd64b851aea9050d945159ba5be5ae7252075261225121a5905) (0x61314cba6d4ce2d80328c64edc8ffc803705fc04209a1bb6722da6c5edac8dff, 0x5aec0021a22a1f7b9896348324169ba0a5efe8fb1fc04e071850db6aa21c9a90) (0x4a41594c756389b921acea76f48f850295ba52069bb18412ab0ce191247ab2db, 0x1d4f8f18831fb74998713cf9facbcbec2af8b274573593a7fa2a8eec6da6f9fe) ((-0x60d228602791984026ed9cb1451c489f011079b1cee9c138b149884dcbbd6d99), 0x5cd5641b7be8b7f951d3696e0246c185648e6da87c90634fd04e56ff8d5ecc68) ((-0xc381c5c28bc2303a319340da7dcf111ee08db737719ebd962ad417593213b7b), 0x707f715e030be8980cc8617b9ffe483ea9aba5abea1a3bc202df88c97557753a) ((-0x1b831d47359a7236e88b3b88f72404de0a4646742cf9e1cea6270777c8ac9dac), (-0x17e41c966ffc4da481adcd51326788191187424f51523bce154162478a370554)) (0x293569cb2950a057db9f24b5eefc9890e21bee70519e0633c39ba7e007b4018b, 0x4756680d99e6cf4f6a08673e8164dcc39262a470fd56c9889bf33818b2a7a1d8) (0x5943bc5ac6b8070ac9f958e86f950a5130d7cdfdc2ffdb4560c22f2527c9193c, 0x29e5104b4cd9af14a079ffba640b40e9ec65b6e66128fbc80f485301ab5a9d3e) (0x5a9319e8342258bbe17a32f7a76260e584116e654d744f73fe6d6cef6ba7a68f, 0x9d41f2579f745aabc077808023f11d38b5343714bb5c9e9cb96ca9001d4effcf) ((-0x2afc5b1ceb64694bf99499c2905deeddf76236c07425ae958bfe4f1349ca2fa2), (-0x6cb3564e6aca7970662dc202a221c68c72a3de4cc292ccecd5b8de4c5bfdf45)) ((-0x2e87748f8a117bb075d4549e1a577af7b6136f68d735b28238b66bd0a83719a1), 0x2042a524f0373558097df5898c33b2659af8254b3ef68970862713246f37e955) ((-0x2496a3995deb9ce8b994b5c9fc355715f2710e10f6ae605ac5223bbd8e34badd), 0xe3053203a475e45979174acb1f62f8af42bed80d08b552826474683efc43815);
  Step2 0x0 (0x72233f999bd48420687edc795654991beffd49fde7ccf92ae9e034612aceb869, 0x899fc16794a7c1b19e7df00b0c10152f00d304f94c671f63fbe8333271eb8282) (0x198fb5a631f018e23abfa1d3369da62e9bcabdaa09f63d624f2e026a5cc64e, 0xa868ec384b2d6ea3403cabab35b754062d83bca1e178387bfa766dddcdb46547) (0x8b0ed423212159ee8ab59172b6f7468a2e2af134b83527b254b464056effc183, 0xaf78d1eafdb817fa6cb3d3f498a684f890507325a1eaacdc43e953bd97017541) ((-0x1b2efcefae6762fc5a8ff8ae3129167a0751f440932238d4f9ac1c16265af7bea), 0xd2a55649feb143fe7cfcb1cbc41e42414ff02066cd19d1e80f1b5df1babec062) ((-0x885e98438deab69bba82d6f4d72a47ed299092cf5dd0851bc0d036d0137e9141), 0xac612d0ac4d89cb99df2bad7f7cf61748d8b3e70d47f42e346f0cefca3665c35) (0xf6ea00e723c885bcf82e7bd410ace0667a10eb866f6e321a30c2d3c16bf87a70, (-0xbe69c8b0e8bd7fac036ceec669d4079fea45e5cf0bb2873add2fa580fed1089)) (0x0, 0x0) (0x0, 0x0) (0x0, 0x0) (0x0, 0x0) (0x0, 0x0) (0x0, 0x0);
  Step2 (-0x1) (0x4d455fce5a1cc01b783087c78c7baa3d7a8cde50c8b7c6a43384d1ee739db195, 0xadef20b8d6d9afa0dccf286396102ae6fff3e156df7a92c7842325f2341d3614) (0x643cda2291f214676ea39b17e541e3ea558ebd7129aab9249ec24c33f478629d, 0x723d56c07df5f4fd58e0fe5e9252d2a4ab2d98eec0b9b064808a9189db1809db) (0x19d68a7f1341c4fba1d0adf1d480d527627f0cb0ab561278ed2415122537b5e2, 0x496c544986d97ad4f8e58ced01028f1fe6c4fb7987f9c3625010aab3a331e21b) (0x17dc78cbde3767c66ee2e6f4b531ea611dba850392ebe32a883cd511cd939f1a8, 0x19daa9f686f33258d3eabbb8d4c0ef5c4b26371cadae8137794786d1c4029ef8e) ((-0x12b3bcfe53aa79247905cf777e6c38cb91ad791d748eb09ba4118e61448176a20), 0x937d88fdd5157fa1dd8fbea143ae5ec6edbad768069cbb66d665969cd6e8fc8b) ((-0x91da93a729206401269d7a22f5dd0797e56b7313793ec7b6323cd05d2ed9d240), (-0x4899f2bf3bd462927c1674489e174c8e57523691ff79f088b8b8f6d2e1206c1c)) (0x8fed09b6861ca2fb30d163ea9031a4f1c8dc3d8f568310f7b1f63c0d64c03030, 0x6ffe9bf1203e5fadca82f5c676c4f565a1b8fe589b1d57a17d8010eb702e7f81) (0x4860fe531200a8c8c0970576f6076f2f9c7434b46d4ace34030365f7c768da2a, 0x15e19094951ef40761e67789dfc9f1e544a4f2d92401bd53ecc60ca63a61582) (0x5ee6e7831649af738e5f59b9920b17525c33173bb53cb4379809d53dbefeedb4, 0x69f405a9a944403cd8e5264e50de87b056b199285575ff21bbcef5c62fc5d0c8) ((-0x3b83fa1a74dbf7f19cbee8d3f1b461a950f711460eddfe3b35bc81b063e7e0ff), (-0xc5c79d03906803048b51e41432091e5e6aabcbcabf01e645125f794c217eb05)) ((-0x17fba2b46a04d854e86de772ab3a2006baf79a53b31270322e6f9b9f982d11f4), 0xb0e3563b4c2f7f269730bee6ac9c7fa1e0910a3532057bdb96c0d529e5d2b26a) ((-0x74b8b781ffb3597561b940410cea029416fca8ca6ea81992c9bc29870321d218), 0x6a41aace1591f8e27a08e87bbdc7ca40987ee22512b6da61341ca7c42893abc0);
  Step2 0x0 (0x20a98a8bc64c73ddcfd55464a87f62cc70f18e8594ade1709ca692dd4fd8b89e, 0x1e0d8039fe69b20f947aeb35157c28e093ed45c71c5dfa785229e22486318a90) (0x5ede86f65193d78db6460b3e78744823269f58fa9bbf74836cba3a670ae7f222, 0x7c3698c2b0086ebfa2b34763097c5ec71610b876a3eec9c0feec06102bbd56bf) (0x3e4741343792c3631287842cd966d35c99dfcb7cf18825240fffcf197ae80186, 0x202842016d2394b63cbb27d177b557e13f96bac22848ed9c7ff80f0d1dbc30da) ((-0x7a0aced9686dfbfb6a0b254484f56fd16a071f4f9c7a18d1c7b9d81573aedf34), 0x42045164bf29c0d1806cd99a3433d1cd6f23cd099d4272e83c40173cc0fb5f88) ((-0x40ec367b1d34e3d176972bc294c0de755e49d083d07eaf33ec2e815f0618d5a), 0xac59c24c294e622c4adb68a1d453d51cef84e98795a7a7788de2ccbb391d481) (0x247bc4cfec28914fad559d5b647bb6172dd340dfbfe4d26d464a7ba9a5129f8e, (-0x19b982510d8a07b6cf0043abdb9172e59729748c9f0acbb0e06afcb194fea668)) (0x0, 0x0) (0x0, 0x0) (0x0, 0x0) (0x0, 0x0) (0x0, 0x0) (0x0, 0x0);
  Step2 0x1 (0xa128a4ce0f15ee824a467e9d0dad4d07323eac96bc3a1cdc9a4a35e6a064a380, 0x6c650b55b1c9a1adaf4f0d07e7f4115b3a18a4e1ae366c0664abdeb9be6a8452) (0x83d3f7ff8a03fcea7a544f7dde545c355f3f501f1e6556bee610c1b4859c5d0a, 0x7bf5f4edd00efdda42d90be5eb9c87683f9a4f66180f9d17e84fc1427c776a44) (0x9c92948ee5c5e7703b8a886930ec67fb13665f62c610feeee421230f108c3f8, 0x2387dae83e62056d5b5879d9db0a6ae21aca4d520bc043d2b4ce03c066f9c21c) (0x1896fb9c6c186e4db2dd67daa45c52521ccdce0ca2cb437ac3284ba51c2491cf2, (-0x100ffa02907cf24aa17935be2e7c3f9da939da1498044cec0f93f95a7552a648c)) (0xd9230417454cb5b98ecff7ef3b737907bd626d4340863265ff72810bda802f2, 0xbfb376e60f3ae3e78fa5a489c8898d531656c3ed1bb73fe2021e8dfa53fadb96) ((-0x20fb635e8a5a4a72ab699d4e485d5d21927755bbd2ec89f1cbeb8d04277bf392), (-0x15c21c998c4eaa61c4d443fd8efe6afcd8a38951dd8b95b0aae748efe35f70be)) (0x6355748b95c2b710822b683ecd5ea9658dadd31eb6fb0c36831ca24d4c3cb865, 0x62dd8d3468840749583a18efb0804f9c327e899c94cd9f793d7234c7afef2a65) (0x93c58b7d1e8f8703961da30c41a0b2797948458b0482e78e6d5611727aca432a, 0x57df4ff2dddbe6f82aa6896085ec5702479ff874896291adebcc4a44cedd59ed) (0x91c555f75c7830d7c36cd5ad1432f9a2e3cff40324a9f367fa098e43512498d4, 0x6a0fdb9c1909bac044c5105d67bf28b9f70fe05ae1546133871d907a64557a57) ((-0x34597f019ed2e485e531e73ac4615107449fa3b30c3bb808c8e84d2dd56ae92c), (-0x244e03b87a8351ba1f711f5cdd9f66af9721018d0bcbc4e8d2554d310552a9c4)) ((-0x351f5075d77b5b73ccf1827e4b00dd36df907943e98af126bf2a02bb236abc88), 0x6bc582c803dffdcd7582e4914072a06a3e8c76a3bfad679f654a11bddbc0cb40) ((-0x2fd8080bc956df90b2c2a5c82c2f7e8899ca85015b956bf3878ade2516356cfa), 0xb054e3bc21e022aec2e20e3a1d9751ba235d9cfaea8ca1ae2f6ed8d0472e440);
  Step2 0x0 (0x594390720b63d78042a48b27eb26eb6acb3078e3be88bef252c8d3727cff15b5, 0x43deb6798dc01c530e9ca0b0bd40455826b1b2c74cb03bd1231a101a4869dc0c) (0x8213669255772514753ec92e5aa7ddbfb47fe2bb51c4db56688a295622e8a1e2, 0xb5faedb6f3c3eae96acb72f70514a0472d925df5aa810b6f89065b7ce7591313) (0x81c6faf1d67b5722af575d31b43cf07554f2833352481a38b59891011e1918b3, 0x83bc4c2776e24fe76f9e75891b7ce0add5f23a698696a498ce77d0f1bb069494) ((-0x786fe50b0d7a5bf87e3763e70549e2855d8487a322ce42cd5ca1af40e98b3c16), (-0xd706604b5e295c46ae103c75e709ff790663875609ce90d78f46aba5597a84de)) ((-0x6d44535080cadc1a1f45c705074187a2c5477d25af880ef3b592f6d996edf61), 0x427bdcf1acac47f77a1535ee8344bf7dd85b98c6b10547b273b60e0a5c101427) (0x4ec2443cc858fe1a11d1de0cb64acba480609cff518bdd3e3066b3c910721085, (-0x2780c3d505a8458fd87c4bda81fe39feeffd56f098e66f2c6614484453a6b35d)) (0x0, 0x0) (0x0, 0x0) (0x0, 0x0) (0x0, 0x0) (0x0, 0x0) (0x0, 0x0);
  Step2 0x1 (0x7d7152662658befea7653f4f9052e80bc07a2df2fa8258f0761d439aed5f3280, 0x28059a3992acd81526ef1fd11ce5ac8877c319dd80e4b2746d065f48f6d661c2) (0x180e22f5d3c1dc7da7af719b4fd387067b4cae4a09afe882c2e1f2fea6da5bcb, 0x5b911fb4c97c6d1d9b45d15adcfeacbd0339f4452eab390b24968abe0c96ab88) (0x345652fcce098096da60f449da7e31f8a577af8211e296f938057da831317d61, 0x9f87fa382456d2a67e59eaa9cb58de7bd65c0f453f1bb98639b572c068e3adb0) (0x36aafba05c529a2d5142168d364f91ca02a87fd4f5ce3b47ecfed4663d12fcb92, (-0x21cf44c9f9403b2982326fe1badb7c2bfdeeb6723c20e0ebe5f68209ba53da638)) (0x44c3c0c8a4f95679d16946cb97ef0ea909bf3e44ac01d1a392fed8f063ae445d, 0x37181854242ba25f31818f20af4050b3378a3c46502261c2ccb5c8c9ea90023a) (0x2143bf67afb4d044d62dab16194809ee299d6e53086e7911615eec837264a5c0, 0x55837208c3b1d372d4480cb6584491319699d8a2e672d13329ea6b81b4b87c72) (0x472b5b490256856af4ac24cd2f526e229e60e7b54cacce064adc514399318ae6, 0x91e6e926d78c1a61cb132d7ae0d2a4af1ecfeba260eaffafa7d971e4e24997b9) (0x2ff07fae9cfd33b9d1489d71cacef9f5f071eed8a3702f77d24dc7efd39f6288, 0x82acb3f2cd1c3a76f044f1729518a5eaf404228043f5f411df41f853b2d367db) (0x2070257cbd7908fce45aac71efff274d6939ea4dadd8a34315c9820b39ea9836, 0x9be0f4b72d36de3963c21c1e9ea5c63e839c946c7dc6e1b5253c70072957e08e) ((-0x374c0491fa575a928c69ecac37d3b53f034bd72168f79479af947d2baf74de88), 0x2953db935c0f79ea0da7a1e3a7ddd90e01042b51e2e93382321ae532239e59e0) ((-0xcdd087fef27ba9266fcec4dc9bed1b1274fa903373f578521c13da267cd076dc), 0x71f35cfd302d37c95d66d41febb0d93c5764bf2518017af79f3d938a62ea0968) (0x354a0c9888adbf3eaf8390ade1a2fa695dc3f420d847185fea700f925daa67a5, (-0x226479456becf3ec56d189580fb6b3bf00088b8f194ebafcb7d16b4f367fb309));
  Step2 0x0 (0x49c0d5a9de5a9230341f39b703f845b2c4635ec6fac1bfd019bf387d6c03da5d, 0x6fbff0e8b6c6a69b6659fdeafcfc54f3afb29ed40c39c7c89594a26888badf70) (0x7384d2bff36ba0a10ce935737bd29657f63e8c07e4b2a6aa20c31648aa2c1909, 0x8eceff13f299c0f6304f7bd8fb74a91e2a1e98990fb9b9e6ad7715504293781) (0x1ed5a89f09291b5ed6dc7476a2109019e88e47d32851e3b0c9d4093fd414e41f, 0x5da83c5b71f12a245cb7b20c31cd9792d1bcfa9e0f30795add64e8523c70e85c) (0xa845df7fbe11e32398dde2ba6644c14018ac1cf4511daef5d3c38541431e82fa, (-0x284b8f1a34de2ca9dd8a3ec0dad0379459bbce83ba88c76cb1d6d1e6dc34bb74)) ((-0x6b322fd09ff4eef5e64d1672b3228dfe6c3526237e358b50c969cab44cb0b490), 0x5a723a12a8ffb50ed60f369d6f8d5105b01a71630092ec6c020b9835f4afc51d) ((-0xb0a73f00ab3dfb13eadbdcfe8964513cac580171b43e69b2963b6ff92665905a), 0x7d508270fd902d3cb799c266a09f25638444e4d1e1df1543b3e6139b75dd538) (0x0, 0x0) (0x0, 0x0) (0x0, 0x0) (0x0, 0x0) (0x0, 0x0) (0x0, 0x0);
  Step2 0x0 (0x161a26cb7d173b88def840584e463891e4f65e6dc66903077c36bbe6d7a7f611, 0x6b49fd35030cb61b4f3c3b409ccab184032fc5a3d808577dcc8d8c46d7e24e2e) (0x4e2e534b07c8932572910e2de207259bceb149a9ae43cb3b42ccbaf129481492, 0x8c3eee5d829a293e8fabeb890fa8d118478e89f882d69740986f17ee716dec80) (0x335a4ff9ce8b9f54e0a1f71e8f1db4b637467ef86d55d2110fdc4190011b79d, 0x7eb0645d4aed988b88db93cac30aa47154e35ab08d656c7dc1623ded2fa4af78) ((-0x1ae1a76358b525f10bd15079310b52813f26b51927d8190c72b55912a23fd81db), 0x19136af97dde20cf7bef9913d51e8e9d5baf1b70bd4252a782d5026c284c619e) ((-0x7ba3cd1841455796f4e0edd35aca477aa6e781f7c7046c0855c4540a4d55f427), 0x1a05cfa1fd084d4f1ca089b57511680120e6a6485c2362f0aa9eaaa08b3a4422) (0x9f2472a46e03426adac456c530e662113dec66171103df99e17b742132b22e3b, 0x60e0601baf220c7bd676b07b8d93ea4b899782a8d11074a23f3a3b88e31d14b) (0x0, 0x0) (0x0, 0x0) (0x0, 0x0) (0x0, 0x0) (0x0, 0x0) (0x0, 0x0);
  Step2 0x0 (0xb55b209ff82657cc3725e67a6482d84c5513d7b3579dc35b98131765f1bc15d3, 0x2849d04481b2d725c6cdf86cdea38093c28cb5c6e1c98860e56f1a40fffa8df2) (0x4a3071f9ba7be329cd46e6d0bc1eefc8527f85165bb0cea1f9ddcc9beb40eb86, 0x17264bdf0820550aa667d906473474ce90df1cd55939e2b668dbaf39a180769d) (0x46b886894ff8b006cd398fd687bbefe8ec1640637ad9ecabf6958c6c6e411e2e, 0x1ca17e0346746693739953af66992d45b38eda916d025838c7559cdf85d8dfce) (0x1b9492c405c3e4f1661f8b41c4cf719ea22378e6fdd860afdfa1554289c951fea, (-0x6b6b37b1e83f15b344542e3d825211a72a03e56660553712b5380f2046f76b8c)) (0xa2a76ae10c576a12172ca98365032e1a26ffdbd3bf5ab14b8ea8c7ac2d3d4e43, 0x502e700540768c17d9e417a54a722b3eb4d9cefb8477ca3534156bbd60724bbb) ((-0x2fcc73982ef61a94bda34a0f2cfb8053599f7c55df870e3de19c374b219414cf), 0x75677b247ec63390f43cdb9285982366d9153ff8891bb85c117baa220ef24bc7) (0x0, 0x0) (0x0, 0x0) (0x0, 0x0) (0x0, 0x0) (0x0, 0x0) (0x0, 0x0);
  Step2 0x0 (0x42f0104dd2d5431398d8d1db9cbccb02998b4c78356e340d898ad923d5a11402, 0x1b44df119d6490570d8b2daac1d493e01a226e51e1e3b5d1a40fa48687f63e0d) (0xb5ddafcf8f273bf2b64192eb7638ace29cef084dab506be7261164d66a825c3f, 0x555642fc015361dd1514a4c9c019721b7e552cefaf612c2fb2cc395dea7ad243) (0x410ae08ed019aa99d543252c7c77b6882effb288ad6bb2cc71ec854bb8f1a3f2, 0x1e9fcef6a488339e06a9c6ef2239b052da66677e6d8d85b7dd3858d8dec42f0b) ((-0x262508550943a5af0c884dd8b97ad2bfc2c76e2bd0aa41036bc7e348a2c4e90e), (-0xe58dd256c314281f9412ca6af5cfd405df30efd1f92ae0ab65d11756acdfaf0)) (0x106ccefe9515b53c3ac0cb903f1c9f78cb28c37de0194ba81e3d9a77c7df31b3, 0x1407f16df2f22f37c2673accbf62d586105d323a00c086df7d67dc5b98cd2543) ((-0x14f047f65f66c8d7f13b12bba7f6c221aac5a724f7aa66a286cf40614d98a96e), (-0x26f399761ca5669cf03259a032ca844dc537372fde236a459579cd5681b769d2)) (0x0, 0x0) (0x0, 0x0) (0x0, 0x0) (0x0, 0x0) (0x0, 0x0) (0x0, 0x0);
  Step2 0x0 (0x3eccb6bbe505ee62910e0938f88246a8c8833a5bfab4d1eb006ea3dfef12cd4e, 0x26af6bff190d37b47f599c61221a52e22710eb06ba23aa8ef2277fdfb1acbf75) (0x20e2e2d991664f78480fd92b419b295f80527d6d64a82bab3d7e6d510bfca0a4, 0x13909256e28e9e9bba95d3ae53faf964289f4798ec0ce822859d4f7cce6e305) (0xaa9c2822abb2acfe54942f47f46d8e0a8ca757072d6500135a9e55a4f5425a0, 0x679d61f334a57aae146f40ed16d53935d4050cb67bd9d742a1dd458c4c84935f) ((-0x11de02b94b845821f996b6c2c9413f5495a4c936d21e0000f746c7841fc81e485), (-0x1ce39b2c899793437490fd55261571c0935e6a83111ce3ef46622011a828441fe)) (0x5376aa756619acc5e3c8fdf4ce88aacea50bc6ce5ff7938f717f71cdb64f170, 0x1aa909a540eeebcd59d4f4ac47f6029060476de7867cf82273db49d2181ca495) (0xfa05f2745c785c6a44ec58144a92f16785ff12c1fc3606f89e69d3f4bcdccac, 0x3c9b6f66277e6c8bfb2ef0a775ae945572352c89265d829d1fcab8d65f849565) (0x0, 0x0) (0x0, 0x0) (0x0, 0x0) (0x0, 0x0) (0x0, 0x0) (0x0, 0x0);
  Step2 0x0 (0x78b7b079dc9fced6d5c3a46fc82ea73d51df8565f60730fdd5982920281dedb, 0x234f757c9f2010df53a1b32e3b5fde128130cf84bb519df7f9ef88f66ca5fd43) (0x45ce8b9c4c692e52aff4e2f3b7d45bf58764f2100c2e42cfcf18a4122040d0ef, 0x595e838c15d35a8404697c190d7f561adc9e62a1abc9d4186dc7e13f4859fd2d) (0x26d5aba73288a043b0b270d93222902b89d3ddcfbb65b647691110e69e4dfb6c, 0x7f5aa46a4c4b819873690b34bd00e2610b9a05d8825919f537e9ccdcdcf8640b) ((-0x612bb2133f8a585ac11f891813838396161d19d39fabd75baba35db1ed387ce6), 0xb630ffc5779ecc4d80a83bd86c7870db612cb4aa9c9d0f8b0b65e96e3d79ffa) ((-0xd5ec68da78a5c8fada9e7c71eddeb2171a93638eb3fdcab75e94f479ef26cb0), 0x2ec6fe24c3cade4f4c8524088adb5304c3b1ac7f2117019ea62d43145033707) (0x20a0b4116dec6d64e06a2c5c3f4861a584b75be89ca0ba6f92b4fbeb8ccabd97, (-0xacd674f65db17ee1629c95f9a7cdd553e48ea51f1da06d35e1674ef35745abf)) (0x0, 0x0) (0x0, 0x0) (0x0, 0x0) (0x0, 0x0) (0x0, 0x0) (0x0, 0x0);
  Step2 0x0 (0x2cf920288377a9dc157876b0f05ab01bd66f88d03f85195e3bb384a513b43f2b, 0x608366d327c03cceb37512c7ba454aa7297c15d03203d88b8c5c4cf34f28858a) (0x1b3721d336e2b153f3125b1016d0b8e8ac0abfc3a00d650286471ad303e4e065, 0xb147118a7d7a0427940a82809f1ddb3974e87476f2c270c00d8837f7ad8b730f) (0x586b2c376140ee28e317f1b451db5212642dcaf5a835fa5b9faaeebd5738f3dc, 0x2eef3b352250110195e8160fb8929ee8aa99652495c3bf997a47f10ca64756db) ((-0x43e010b60bb314c4bb4eeec35060119a373ba8e8583d134e685a5d46237aff61), (-0x6566a67f6783d16a83f45d6089a62ef4c1f5b3172bd14667b108e8e10e8682b0)) ((-0x5b1f5151263631c57f937897d9b14a336655757808f1af5f215e76b05334c5ba), 0x2fa1e7b6f7b0642758bd43480474fe1d67e5a78241f2b6a52409ea1d9cb94d2f) (0x679ddc1312719fc7f07e0cfd846ab5cb1792744feb702787d0cf57da3ece7d26, 0xdcb4a8cfedb96622f4e85dc62b4f1b88be03b7f81bf536a70daea46d6bb728) (0x0, 0x0) (0x0, 0x0) (0x0, 0x0) (0x0, 0x0) (0x0, 0x0) (0x0, 0x0);
  Step2 0x0 (0x30bcbfe603be2716c10c9b56188f89e6de01db49a8424eb82f9b6152b6e419fe, 0x7fbf9db45252201114946b4a3cf1ea44219a48a4fb36675a4ca6eea4072b310f) (0x17e359fdf14facf75d412b144456af14b66bfd54ce33c8225ac2e69175bcb311, 0x93c3a7c584c80670245839c0f5a8eb7e1b1b9aab2f366321186ed50703e35283) (0x4b3dee0e059912ccef17b78af34f008bcbb7c1fb41ecb26d8f2b719a47ea5608, 0x92f59d779b1f211f696c692a1d62aef08c28ea7cfa02bb72cd7377a4ac6b917f) (0x3aa25cbcc8c634c7064289164d12874ed5561b62d2d85a2db3e11ad6ad1ae8483, (-0x9c7b4f823c1546cb72e08ed22e6a9fb6cc1e5cb8c3ad3a4599ddd1ec59ce69e)) ((-0xa60ecbe8e7c7a4f8fd746481a4106265112ef30f6da20af368f59e5f908aaf4d), 0x445334759eea0314ce4e9aebc67003e09978324d939609df2a5494ed80e0491f) ((-0x287c2e39fd7395ff6c58ffce45f569afc41f86b2ebfe473998dd24a730ea5b04), 0xa3986b70438eb3d7c7a060ff88b63385ccbb886b397e997b99908d426935582) (0x0, 0x0) (0x0, 0x0) (0x0, 0x0) (0x0, 0x0) (0x0, 0x0) (0x0, 0x0);
  Step2 (-0x1) (0xe6d56350e421787ef673e02f528879bd73e9d4988d82dc55da36e90007d099, 0x2efba1b92a8118beca04909e0b247ab38895bc870c54c5814f2eaaae91409bb8) (0x68af2f036fcd725469b5c9d0086089a5ba954d736817cb172160c9212873a081, 0x60c88c4f672dadf4147ae1866ff051fb9b4be186b4b9cbb1f477bdbef13e7c74) (0xb61f26784f5ba12da545a5e6f32953cf0c6a76687384e1c8a8c7c6705149285, 0xaa0318b13f6cebe727c18840cc2ea405e6476328f83d208e2c4f25e549843fd3) (0x22ea26725cf3f50042b8001799617c90c94987c0b653b98dd6814cb3492ff35bf, (-0x4bf5aa8978d97ba9de1827535a63670c7f9a53175f08befcaa93e65ca387d9b4)) ((-0x1838286ac77740e45859b1594a4b276857096a9930e2b9d0c99f2eeb71d9491a), 0x7703d4262185a1af7297b4f9bbe5403301feaa136f59287606a36e65f2d42e) ((-0x1aaf53753ebc284ef09742ec2367baf1637978b3593d2442610707810043d9d1), (-0x149398277850c51a2891c3943c9534dc5b45d3347c935be0a0c047aa6557c137)) (0x110990e1dfd941e05d113c9023b950f9b809b1b5e0d3d1c47916c288503f7eb8, 0x1a0a46cc70599f902ea63aaeecd259be845f089116777f72a23a7826befb2d3e) (0x2d9ff8dd3557efcdb37733435e36c4ca25af69637022a36cf6e6e3852afb4f2b, 0x1843685d373d2c70271855d7d295d55fe44a3ee011ec0c3960c735a6f737b115) (0x80b8e049d01a5b81969d778e7440b63b51a7b64461df553a49c5c21d0c2bce80, 0x29fc75f4fe3ab89f9bcbf507b5570f61bdd898046b455345fcc1617c4f90ae9d) ((-0xf2d3e83e28a1abd101942ab842b948361201848b09e89a72d7c62013df82490), (-0x3a15436a2c5fe680d41c8771bf4f4778ebff3a5fde6f6534087b7efc29d76af)) ((-0x5d93d6fb00b22b97f0722adbb50ad1a7d4b77b207c2bbd14ca3ee79c506643b), 0x4de5fa868a50c29c19d42e540bd87765dce263626e6b7b6a1cc5d4c64d4838e) ((-0xf33d4d20af8256063ee9e86a12b936e6386ce2a77404f9900b949ffdc50dd6d), 0xf37c9f90a23ce85037f52e349c6301ecc9182154c6898846fcd783422c3c31c);
  Step2 0x0 (0xa4bc21d0a275e6c6bcd357d88540d68bd75067f57a2bb7fe801d8539c1fe79a5, 0x876e0ec5f9304fff0cf9ab22c2b6c7ec9d7835a17f9fdc5cb652ee18148983d9) (0x1243881f411126ecd753907703209541a418371ab2d86401e6082b26570c6c72, 0xaad2e4e6082ab51eab0553eabff6b54ee17d1a97519f1276e86c52279da0cbc0) (0x808ea9ac42bae4950a7b5f4181df0accc34ae0212a5ea57248615e428e6898f8, 0x82ddb3650a020d6c5ce16dd403db28f60b47b0897631b3c4ca8598d51fd4025e) (0x5d04d423043d23069558987ad66f07a64ab73b46ef5913c41966ff1872b02c63, 0xe6c3a29f0e5dc4b80f227186d63bf14186be599ea2710ea7c7163c84cab50298) ((-0x345f6e361462d1eb2564f25c23de7e900c83495abf9bf1d633c0715c8477b865), 0xf4d431a8db3845d67ce56344a1799441979632e1e7fff2920f8ee4e121157a10) (0xf28cb7051a9de8b7a6d0140ada068c9f1f92f961093df73a6cae5469a04c2147, (-0x7024af3e731726b96e4ed04c4720db580cab2a69d238f2e180931694d8cdedb5)) (0x0, 0x0) (0x0, 0x0) (0x0, 0x0) (0x0, 0x0) (0x0, 0x0) (0x0, 0x0);
  Step2 (-0x1) (0x7f7742052669355c025cdd356c876a65dafa2f344898e3a12a820ceaf6f374ff, 0xd6f9d3ca2b5eab9ae4f4171173802b932a9dbcc79b63083b88bd72f8dac7179) (0x624c9938f04d4737244b64bce04118874f7e5817216d55287c5fce9eb6b9d1f7, 0x79e717c7ce8596196c7683564fb362887c4739d65e50f1b491eeb36517f8e26b) (0x82701d0cf3528d228f0677770766598322665c5fd38fddf6df7b48954ce055b2, 0xa32ca287199a2a299437610181c65c3b59b3ffea0600e57a68d03026ac111f98) (0x4486d90e3bec9c5e18ea34bc4b853966286f01b20d762371f2db21ec28bc3e1fc, 0x634c662f73487dfd72e3bed121385764a31f6cfe7e42b0940300484c5b948dc4) (0x572b2e6b22fd1761f9011a6cf11d969f3f57842ae974ee65a655b69551be3314, 0x12cb5706944fb68f213dbad4e59a481f234f9315bff00e65c4a14497776f8f1f) ((-0x3f30a83559d07340b9f47d440133ea5c15b729eae85ac25a883c66930eb7d4ab), 0x1c50a5c9c105f14bb7a6445e669fedf84202b1a8f4666b85d23c8a478bc3c7b8) (0x4520d6d68e09e6135964c3224f9a608ca6bd8deaa450264f786123a76041f6df, 0x3e9250d0d533da2fa5dbf8a1c72789f79ef117ca37394b74e37d8b1f7f677bb7) (0x34720c43b48d371fe5f07994da5e91dadcb1c59fb7244492481e47a5af8292c1, 0x6582e2697279f0e71ada2ce2959a90d1c705c4982521b0fee37f4b394e64f6a0) (0xab223935c9010b4ba1043437430d4509b44419ece0ff5b76c26dd695430b0b6c, 0x97b0ce141c929767c60b0d1c923f16505c0b2e4794217dfbfb98d40e9bc67dbf) ((-0x18763a80edacf26fe79923caf457ddc39b715494215f9b86c47d138aea3e790b), (-0xa59e4dc57384210edc99d4c7644de6fa17f9823357922c36bf5003932871c5c)) ((-0x10be94ebb1bf6a9d8f4c0635185ea4561e5a9375035fb01ce77584897f6c1284), 0x2f77a4edc8429033b1e77f58febcc9c4b6cb9f3db59673cb7d9ce62e32cd3b7e) (0x363ffac3b71d0b6e38ad9aaa55b2e6a1e0ac72acd6b52554573b435e8da8e1a, 0x177a3947e9cd553df33f5c4aaca7159e92f975b66566a83944ac9fcd92ed47f8);
  Step2 0x0 (0x14c8fdd46afed5b29b5e639cc49576ebfa8fc0e26dfd9d879d675555fd714f47, 0x1175aab085b4fce15c3613cfe831e8c90a9e9307b299daad9fbc5ebe60dc4c64) (0x3d6c123f9582192648f2010300eca670952114603d32e4dd4880f4a7cd7dfb32, 0x2436e72a1a85ca1e6c51ac0e461cc69fdb2f511a87725dd3def60af8d6fa4712) (0x28ccff50730c79f1e7c4e5274686fc0dc3ac2867162f48399b47bd3d8b83542c, 0xa467888d628e4fbea5d84702662f3d6966c817b8be69419c29f518a408d46e87) (0x112dfd4e1a7fdc44a328e8e8cd407b833c1d410f83505453d0b7db5e5cc0654d9, (-0x6be15765a49175ff748eea75fc24a3fe4f61b8a969301566e97ff459a9ae5286)) ((-0xf98c2d00640da277c34e38ebe5b1c58d226f35f0ff1d42cf0100c2f4d18b1f), 0x3fb81c9aff84682aa98ba49fcab71a91e1edcbf4bdfd75a7b02cf9df2ef009e) ((-0xd88e1947035a5da2955c9f182e51aa80faa7ff2aab917980b35249216575a8b), 0x69642d5f7260c688a49aba557cc6c4ff5ef37c69aa8dc265977f08e6308b758) (0x0, 0x0) (0x0, 0x0) (0x0, 0x0) (0x0, 0x0) (0x0, 0x0) (0x0, 0x0);
  Step2 (-0x1) (0xa3f54894fb2f10e844ccb4009fa171e81323067932942d382175ce35f6cea5a1, 0xa2314c42f883245dc7d86e144be10e74f947be19f8adc1b11a95111cadecddec) (0x8b213fbc858ddfe9d54b1116721ee4e1aa8582b2e224488768745f8462c89096, 0x8f372ead304351dd3542b3e8adc1e2b54e7d1d75cd634aa09ad8270e22900cb0) (0x99f9f37885d9ba8ffda386c39db04511bbcb77727d587a5909597e8e1f28631b, 0x46131b8c7bcf3b46ae83f3c8949c1f609689e8c05fa338f438a176e02588dfbf) ((-0x212c1f76d327bbd6b5d886c648992a12f1fa515becb2ea3e3dbff3018e958a09c), 0x12732add29032e1e56bca971cab10d1e1fc43eea111ebd59b179b1658dfed170e) ((-0x8d2ed43747903334119496f244535347b1a29b8fa7a55aa0c69024eeb9b8d98d), 0x123d3dee9863f5f65a8b2582bc4a627e9685e821e0fcb3f830c7440b530602f54) (0x788ab5df37fc4246dd4c9e34a226711126e83527f5ba65df0806b37d2851adc9, (-0xa56ad8ab8d43ea7a57e7402122f99b6006717bf022094e1084329698a838e464)) (0x752c7f85cc8db889104e2decc1155f461ed5df49e4e15060c5ad839652603618, 0x4d134b0e60c75b663e9cc4d8dbfe8885276f1ff3e945bce635d0c20405ef5db3) (0x942b7304381356a0e78d30979a244644e83227d9fb85403a86d529d558248a86, 0xaaf711bffb22b4ccd272436373c3b65dac310944fd64c4da9f1624f7c80e0c7) (0x33e51ce94c26bfed48079c024b07b1dfdb0abf7bf6bccd60e51b731026406e48, 0x44a18b3410700be8bdf2a3dd69ba6fa67b97e2cdbfd94fc641b913a4c6ac6342) ((-0x2df0c5f2cdb5b3aee53315412b47c50f3999f431e706a6c4f69324cbd5b86adc), (-0x29a6a4529b86cb8bd147b964ad52fb58873b795eb82de795273c41246ba484e4)) (0xa247e8b3f192e5f5a8686036e8847be451744a12651489f8511562b16369203, 0x631ba4bbbb458b6cc766cc30f8a739668eaf78c5ee9ac3fe6a95cf1dbb1939b8) ((-0x75e8a25dc7e309b0ddf0b9628506d4da06f420b5dc1720ba9294e2d1e811c1ed), 0x51626e7bdb234a452d913d76b5a13460b9b8dfcc3be9feecfa52ccbc950368d3);
  Step2 0x0 (0x48dc42f9b4ac61b0fcb4ce41fa6022154b3f3b4547edee50ef98570a2528d71c, 0x83e090bce37ca761cf8835a4462a5a07aa5ea25f6ce2baa173e0f6953cb42cde) (0x47c94d18ec91020f725dbe4dc3f16f762974b636bccf2136f71044b848726f62, 0x25d7887aa95990538633c99f968e3498671be3826e0476264519c1ec4a85646) (0x7ce767c3e33ab9a2873197ba20f7da39d4cc22b4090622743e6790aefdd31385, 0xb1e608904cfbde0f723e093456863281bb904c18833b1d732cd9182c92e1bc41) ((-0x202c839997706414890556cadafb65d752375e64670681085a816421b37dd172e), 0x4ddad92feed7646be3988e6020cb4bbffe83554c848f320ef4d0b75e4291cbe4) ((-0xa1b9d9731e6d6d40cd01248046049d8d01d77ae74c529afd13be484a4ac838de), 0x6971c7a90413e72c583aef306d4c7c539140a186fa42d4d5a870317a77b23c6c) (0x127ee3e17410f9b9936cd0f9feaf00a55ead8a26e5fdec6dd3ae71c9ac6a7cb3, 0x3a9906ad1c2a19e5158ea7e7669d8f9a623c98fa702a4a6449f47bb08b9906e5) (0x0, 0x0) (0x0, 0x0) (0x0, 0x0) (0x0, 0x0) (0x0, 0x0) (0x0, 0x0);
  Step2 0x0 (0x122799998728407689b75809b6dd6baf54a0eef40a4a4c48ad8f00852263af14, 0x8ffd62fd1e144d690f3b935bb69a11ee96127f79a8ded85e9e860a2a4c146376) (0x7441a5f3b67b118f6dab36c0b7d108782fbf94b4636982a3c1295aec7811b211, 0x721bfe3b59c7c9af9382cdb7514c0666431df34000b299901e02d6bf2f02f7cd) (0x67cd173a755f4a95211bdb945f54752398b78c72ee786885b2e98061a66efac0, 0x7e13648393383fe009961f8e901cdbbd6a80b7be9c26938072bda12fd00ba279) ((-0x26df76d91ac1ec6fcccdcd8d19d8f075c3881486ff69aeb661f15b3f99fa97914), 0xe337c9eb37e139ba7c45ca1d677851b0482d9eecb4166038a16354233cfff0ac) ((-0xe1b6ff0525b560c92b9be417dcf8ce955da34a553687fa875a6f6ced24ee05d1), 0x1cafd5bc58e8c3bc5890ba55c5fdf56b584abc44eba53cb299417b72a28ec223) (0xac241f0c0d07abbae1103bf28c27edd12ab4454f434da782d147f801337beeff, (-0x2e44048c6561e45bb8625b8223000bc14cd820c4b3efbcb69d5337978b90b2b0)) (0x0, 0x0) (0x0, 0x0) (0x0, 0x0) (0x0, 0x0) (0x0, 0x0) (0x0, 0x0);
  Step2 0x1 (0x40b558552a209c806b2af9a64c89d1d4c886883fa69ee5a4ab348b06778a754d, 0x208d6060d2ef7b85da99c59905fc2f8c943556e5d53e85574e15357a9f46559a) (0x6d06e08119f2b788ea8e671be5b398fc780c316f594cfd3f97aa8f316f64c653, 0x8dcef09ae315769e8567ceb7eaefc7d685076f9ddc7f08e5b5a8349310567c88) (0x4808a0aafb27526adbf1bd3246113ef0cf999b69cddae8f8918b79a7f3eb931f, 0x6d1a575a5f45a56244b82d0d51ba0f54be5e1ae376d7287920a511b876a6062d) (0xbdd44cc3947688059f94882d1a360cfa8275e0310d4fce7b4dccc6b42ba4ad87, (-0x13621a1528fa3cf59171edb6b534dcfbd9bc83319704f2c5d66a057e0944dceb4)) (0xb58abc5d1a641f0e7ec0d904905dd4fe931efcf33efa6068b9cbe8ff41d8edc, 0x171d93efeaee747bb06ce1cb786f4dfbb9e79d48aee0f6ba6895141253e1302a) (0xc7631d66b32c6e2bab2e04362fd91336446bb3d28b3845fd8f3298c66c9c3bf, (-0x88b16af0ee14d911440af5ee9ce4f6682a7893afc621a6791725e795ca76b4d)) (0x7ac8b6c87bd01474ecc7f9f130017afc768dd84c77329c1b3dee0395656287cd, 0x928768294634a1793944b432b2ae683fb63e84bced20697edf4e985e21e8a8f6) (0xdab09426dddf4f3ee5a816e1731c13997e9c31faf5d5790dacd0893679a5a0d, 0x65ced6b3c573a357f0cbf39e1791970ecf63ac72342c63de0b2bf8949e16d11e) (0x10636b4d65133e6a59c5b83abddbb059c26e7eb054667aeec14c8053a2a43900, 0x2458cf4fd413d88c301a8f189c96e94d75bd0436089bdcb2a6059e38c2d02c9d) ((-0x173e3251545ac140d7c14d5ac808f872a904cf25c584abab8ca6fe5d902d8abc), (-0x30cda0dd60a4c1b067d754f1067d2d9911cecf015d2bd7cbb7719968f06a9524)) ((-0x98e5b6a50d2e656a35ca4ccd43ed12b794bdc97cfddedf278530279dd79861e2), 0xc56fc7f21f4cf25253a877656d58671df41bcc4b22a3b145f67da5f40a675379) ((-0x13857f5b3d7f79f28f542b224b1472e589216994a55a59613b2b75b10d1b3d), 0x679dfdda5d5587aba158c804ecfd9ca1c24507005b63a613a3c8d12b61f55a8c);
  Step2 0x0 (0x91fa8fb487be9b0f6b745eea680a1ef599bbac62d26ae62598dd427472404908, 0xa1a2b6cd2c26faff58c91f2f63dd0a1fee3ad9d7fd01ca2f6a30b4cbf322570b) (0x181443bae182d46a862169e0f554b7fe30da82fb146cb454e8ff3b1b433c792e, 0x568e4151c604cd1e9d1400a40077b4ad65a3097402dac959b0bbae158d88ed08) (0x6c915720deef30aedf92cc44717b8cb3f86945d40fa5eb7617ff35ab2d1a38bb, 0x8e34720f4b71cfa87253a23811a2244e9b68aaba15b525d0695ed2a0ebe8bde0) (0xeb772f7a8098910a2d4428d6111b46d96245a82b93f73b009244d90fad603e75, 0x297bf75381f19dd54e0aef293c27bc11c19ce8487372d33ea001e7cd21a4f51c) ((-0xa9c79630faff48e77515ea1038b03033e39763e12d71645baa4f2e96ff6cd302), 0x102ef1cef11f37951b7c4b35f589a5033fd7fa44c7ad1e85af939fc64a9c430dc) ((-0x2364aa29815eb45fce435c2151be3e550338146cbe07cd611bf3af1bc0f4dcf3), 0x2fbbbcc76fce65c464135507d173ae67e747598621deadd72559f974077c468) (0x0, 0x0) (0x0, 0x0) (0x0, 0x0) (0x0, 0x0) (0x0, 0x0) (0x0, 0x0);
  Step2 0x0 (0x6f9daab65d9fe0a78abe5a0119a3d67bc1c24eed44d861c88965d58c68000b2f, 0x53bd7a7350296c1e51524548d255d9124e43591265b6cab9af900fd8f0b048de) (0x235ab07318d31a4f61cd5cd14fa316b1324ddc6aef6c853526535fb170cbd22d, 0x6cf251ef7bc1959a09e754f3934d9125f368ec00738bb5cbe6050d9c3def9870) (0x4c559ee13918687fd2bdde26a2c5d64488cda50d5b479fb066e47993d99632e3, 0x4201dcb31110f64a02de0273f32623f10f4f7d5dd683806029712d71ba08c658) (0x6cb8e9ccac99a8214c3ef8d466add193d7f5d12a887c010a7daa43da937d5a36, 0xcd55ff58478b8fdf982eab34a509351a9549aa569ab3efe25f7ef631c8d34204) ((-0x898b6cead3e8faed2c02ae7a13b847a3a09195ea47f01cc048c575f41c371b0), 0x6692081db3b7094b7efa7d5ffa1c1efd3504fb4148b50d40636d885fd7b3ce54) (0xdabcac28a576ac6769f35e31c4812cdb5e4b5bf26069c2eb23689e3ba8b8385, (-0x12e4c209fa870e4580c0c5846dead905210b3592d8c751740abfca1f450671da)) (0x0, 0x0) (0x0, 0x0) (0x0, 0x0) (0x0, 0x0) (0x0, 0x0) (0x0, 0x0);
  Step2 0x0 (0x6c3154f985af5c1b8ba1b07fad7d1ef7931e866210b821e960083e73c24702dd, 0x592fd477c6e886667671f4fafdfea91f66ba676a9e33e2db68b617bf07aff3b0) (0x708809c2ff0ebd24c090e05c6a108db26be36f8b22ab9d01f3b044bb8cf221b5, 0x2912ef09e8a2af25e3a31ba07747c33ee034b4ca56cc843371c0f602d70350ab) (0x325ffde5e532fd08cb03d7e745d30b16b626c443e63d886890e91e96d53ba0eb, 0x22af65eef3c190cbcdbdc3e72a4b357394b0b9199d0efb52cdd772f13ad76b13) (0x14b9c668998e917521419285ed21d336610df5c1af6050989bc893083db88136f, 0x1a468b00364d60b23f6db7694ab91c1fba391012ab7d788d21da446f515f5ab0) ((-0x170fb18636c271abc086d4d06d67988af9cf7c0940037cb7e174d404943a853e), 0x69e43ab2974d236882796b86e2a9ed9fc81a30f3889c11139c17420cfc61e9b9) ((-0x703ec5f488fce03f4af08cb76a07db385b788dea0a73b7d8cc8bcd52c7eed14e), 0x28655cbe1b5e50b3b6e8bf77ef225441a650e70fa3e93edf936da1d597e499e) (0x0, 0x0) (0x0, 0x0) (0x0, 0x0) (0x0, 0x0) (0x0, 0x0) (0x0, 0x0);
  Step2 (-0x1) (0x37f5a4efa57a39a44df7ef69950be6ad062542828396d3ef6ce819d857239696, 0x53482803e4f65657fbd59bd9e319b1afa39f44f8cc09255e3ed352cefea94d3a) (0x3a99e4ca8d822b0c1b496f2a96c49697633f481932a0ed0e6562d0d7a8e8261a, 0xa02cd4a80d9543c5b436ce75a6573c14641a73f45139a89babe4b73de7401bf2) (0x638b9cd15505c96ef97de0754f06a8587c1eba88e11e7ea94b189a1db91c328e, 0xa175a3e8df7cac4304dee6f86851c2daf1a9117a452951988816f9c05e2ad989) ((-0xb95f6b522ccd16c95c042fd6d5857eac369f241c6e47f2a9f059631cb42d405d), (-0x54d43a79333f58424e096d4896f650a0fa1ad2fe956c2a823421a49c8853ab72)) ((-0x3aee76aeeb7e73f98072f32989c58375de56a94742ac1b74aa44dcc408320008), 0x3324a268231485a6f66a09f4b424f01a14a744d4723f61e7d2f169b31a52e470) (0x7d68c7e0017f8076678e411708f3e5167882bca29e2be5742a96d4836f5f36a9, (-0xbecf23e4570b31932470e64624db975c4e5ce110ceaebfb3271b43fe4a97df8)) (0x4eec7886208c55f7a337b21d9b16c0a7090dc230cd6e8393500348db21fe5a41, 0x8c4cfdf02db50d449eb0daf87f226272eb7165875cf62fe50079ad4d029176cd) (0x8c2089fb0db0c412df8551747859891bc37ebd709201a2cc24c693f6f7f7e566, 0x92ada42687fd9e3de54dd4551dad7e0713ca7bdb0d3354f40e45c8e1f09c6fec) (0x8b0423ed4f2c15d72165b5d7403a6a238db477d1623a9245ba5131a4755c14ca, 0xb105298e6a8ad07276cd3df3ae0d79247fcd6129baaddbfc50f7b80ae8edc4b0) (0x27496c89382e7541b12a04249a1440a4aab77c69bd543292fd459a2f0088d290, (-0xe24137e8c93b459912a4acd267392c65b658ebf5f176bd231efe48d60c2ffe9)) ((-0xb5d61173dbcef454d1b9d2804d3c9ccbe6986fa781446c2d0f1a788c6ad7141c), 0x7983d864c88c6c7ab6d5b0b25c56df663a60567d16252925f58135e79f401bd7) ((-0x3815dc71e2ba22225b5ee1217dca3dba7488f969ef11e7f60462e252f3bfec40), (-0x38ea7c05f69c2cdd4a41b1d8d4cf1f8677282026ba68b37e7fd5257941a187fb));
  Step2 0x0 (0x7152071a7e77f6051c5d602fb838efbaf9c04cbbebbfc0a9122532c468e3b799, 0x1a635e61886895e9c171d5e6890ea8c3f837cc3d938b62cc8efaa85891751096) (0x22972cfb616353ac6fbbb7228c3d7dec90e29bd9d5c7ef2730a1fbba08bb7ff9, 0x49ff2b55df08040e8adb5dd5cb35f83d32c9cecffff4ecd274816a39eaab6b86) (0x1de510005d697cad380d1336be9c4cd7da7b18e677bc976300de86d8a1edc1b0, 0x78e3c14177f7a799e41d08bbb4c08fa02f116993ebc585010bac3aa8c9134b2e) (0x1c76e0d75ed0b351ebc13dabb5faf8f578609036c9a41e22a60612fc4a0426288, (-0x1a044a21007f1b3b28e1e7ef60648e72f21b8a2b331060dfcd971309f3f7dd0f8)) (0x3ed1c89d63c9fcd36312fba21202c6726056450df71b014cd5db47d512c23fb4, 0x20d0c815b7a38400ed757f613c31260dc8455a5d2c693ac49f853d3048f0b706) (0x2c92e855a9a425ea54e1a9c26f0885ccfd5ae81471eb0dd5818189321914b51f, 0x3c791b542ae0ccacada9689cdc8c72fb4e08a92bcb8ac633ad8c9dab108dd6ae) (0x0, 0x0) (0x0, 0x0) (0x0, 0x0) (0x0, 0x0) (0x0, 0x0) (0x0, 0x0);
  Step2 (-0x1) (0x5364a4c2597a9cd249e1952c2f8ceb1270b424a4eb2f532c3a470ec235878b59, 0xda2400344beb0c46c5a35ef20efa95e82e1eb3f8f5f717ba6322c8b99804f8a) (0x60bd58bc7ef27348facd29447ad771258c4f30de94dfab5f5b593049b1be0e29, 0xa610a718921d351ff804c721c48740192373fcd149427d871e12b62a7559a375) (0x5831eef56b9ab7f45f2b6567bb6c4b3a64e4958a286b199d57a4bbedafef4f88, 0x90cdaecdf097e0a3a2f3e215d3a24eb8e10c1d304a47e11d0e6fefebef4cf925) (0x97c0a849e420451a7cc5e46d85c27497da4096f089c1e915e734b324e8c70159, 0x1ed6bc8d215124f2cc9fa11a27b5a4bda39dbc081035028a62af4f2076d1bc18) (0x241e6b15e3962b88c3d5381216684a4b6b924413b7edb766c6f1560624de97a6, 0xc7a1b21a8da703974e890620637d11062caa3cc48b161cd168a778f8ad01baf) ((-0xea9b9901992a7f7d2920a9c2fb8b252723af8143ab0124c0966b53ff89445ec), (-0x2ec7078d5f59347df612ad5365c360feb91df5d591600d1011f157f03bc79092)) (0x18790fbc2e9e473919d56b354e18ff475682b69b85ff0f79e314d9749956607, 0x27435a4fee9d72713c8f78c1a6a8ffca4d43ee992746db223aff95ec89390638) (0x963f641474bcda4027e1a9e896713f8febb6dd135493d61f0994163de846c7fe, 0x7f32164a85315bbb3630b88e97cc4a1db08415d05038c3cdd623ea0e7e89d095) (0x119c5153dc4ce7ffe1ec00be7a404bce2788ed0973c278f147264264d8848951, 0x873008032dd5c06d764bc5d2a8d9a6739dd97cc4a818e06c806f97e0dc69695a) (0xd9a6683d2ee3670d619e01e0ef870b8f6e02bbb6380040114a2955d835f18b1, (-0x93c26845ad1de139a0f7f9e3ace583a28af3fae46fd1e1de214e303c33e4295)) ((-0x10e78c302f0357a4aa883b22e4c85d8bcdeba2be7b34299e55697c4d446de8e5), 0xa8b6e84b533a8525bc6b8b6476c5be9b2e3b6849a49bb14b6909d31e0bdfe9) ((-0x11325ec5f8971b655bfd7f0973a439186e08d7898cf87295e5e8e2ce6a12041c), (-0xb33882bd6604747b4736c4ac16906fffb0e9d40d59aa2af988c68e897088483));
  Step2 0x0 (0x43e41d4d030f1f60fbeaac34b2c5d3370b32b24c193da598f4634bfa39d24d23, 0x70f334e58faf66c818c2944ef40ad0edeabe739c1da4ffec6e37609aa4690ab7) (0x46a2087ed05df832caa661e578453d7e1b41878e68f848c1aeea6867952f8f86, 0x304995ca8505d6edc8e4715c644edea519d43a8be4f515335a2e953b39750766) (0x540ff1e7cccdb7b857669357a074cc0d85e0eca4b009c02b19267d567141d6c9, 0x7f5b16f75dfdc6770e55951ded0504179a7130037dcc9b1584e9cbaba691a63b) ((-0xa0f8ecb5b73c9921e722e0c903520a9ad0e37d62e97cb5f610a7800d0269ef08), (-0x1fa9db0549d0024ec2ce56531e60644baaf3969130f97e2493ff76d8b6fa10e22)) ((-0x72b6362dd8d2aa6c003e955953e9f2587224c69955592d1a6207f1992e1456b7), 0x5426c39b7ae3985f0aa4ab5bdfb535fa35da3217a6dd8d428f50518cfb41fa82) ((-0x4426446b54f7469317b13d55c5f83d5ca80995be454965bfec9e08b4e619d5b4), 0x4ebc6d07c322df6f2fba426afab3bf789fa985fb8d01750c6404a7fe6a7d2f20) (0x0, 0x0) (0x0, 0x0) (0x0, 0x0) (0x0, 0x0) (0x0, 0x0) (0x0, 0x0);
  Step2 0x0 (0x55c927bebe2d052eb6140479c5860535a5e6158336493e49bb768f76c496eb3e, 0x2dbe4ab085301fc476f099e835aa68fe0b732d69bee659b0ab862cadd26dde43) (0x6b4f24a9bcf69a263a2186a67eed14276d59edf6430794a5f0387b9d661cdc92, 0x4aea8fe18063990ef37ff8af5a71dfd3e728f1c3b9a8831a0ca090a1e80d6c5f) (0x3b75661a18bd5e4366b1787c10c1fac188a46e5919fb824cc7a709377c27042c, 0x113e03e42b68faf95cdd7b45750090006b03ce3d76a8ab8e9e6ed1c8bb40daff) ((-0x3615c46d46eb64b9bb2b1d27bb3c67f066fb3fd794015b0b02cd785a4c4805ac), 0x31ce481ddffc1505b5d5d6f465158e7b86748fd87ec4a5e6a48a4db601faf7da) (0x116ad0a5dced4f1afa4006fcd66bbac684fc685879bda59da5e3dd16b62fade4, 0x2b1028337b1656ac0539c797bae22959c255375f223f16320aecd0026e4c0abd) ((-0x3e5793a9b614b3ebdc2ef793416f0f663f1f156f409ee1c2dce36703dc29253), (-0x15bd5ebd1d99591701f72d72e8b3f4d9ca749b66c810c69081b93874b85f551c)) (0x0, 0x0) (0x0, 0x0) (0x0, 0x0) (0x0, 0x0) (0x0, 0x0) (0x0, 0x0);
  Step2 0x1 (0x3b3c41ae98a51ba5c025518b4957ae0a16f0ae93a0e0430710acd9ed37b0dd5c, 0x2dbeef417544b3439b1446f9de4ac4294fb9fa0a4f71be4771a9b3a32794a97d) (0x48534135868dc4d9075f2d9c23a0547cf60b6495a28a0678b39a9e3d5262ea53, 0x2135f33e04379b02f43c118ab2b752a0c16c798ca58036feb54ce56bb69a3c5c) (0xa8cc620f8f038e1391d6bef43d64618a70225559176b2f566b1ceab7956823dc, 0xae6ad6dbfa5210016b8e2c9e2e8a8d37b7267dff505334a4c662c1a5cdffba60) (0x108f3c21d39c14600a260630a5ee2a510a141cf6ed7daa8ee0c91fd55396b1e6, (-0xdf9b9cf7ee72b5687fc70af62665570d1cf7c4d52af27a614b0b45747b797064)) ((-0x3b64d5ec96f3c248acbbad0ddf4f425bbb77254600437e3f5aff49bf2b1bfad), 0x1dbca34d286e16c59424ebd6534272aec2b46dd7f0b45310617c738be6c0ce16) ((-0x990eb8ae884fb609112d636defe3d89a8e0d0708cf3c6c7c0d13cabf6fae53a), 0x16561f43d4ce70b6a6f8f8e368c96a4f4418dd942f2873381bc5a6c254c955d8) (0x235b0e0dfd0ab16f17a2167a7b8cea198553697e3b7fbe01fef322be3c2e7805, 0x67dc3ac53cfcda46fa1c8bb2c270d3370f4774f0353ba0857608a6ae63c540d9) (0x9c24c2fb50b4d9ec71e12af59c12e658f63e3595e48ae7b65031655eb6a066cf, 0x5a6a33f06c56e2d89cb72242246be6a54d747b95415355effa0357257e8835cb) (0x8eb6c91b8148e4881c622e4cecde7ce8a09a58a6bdae8767125a39626b3ff2db, 0x1805b04b1824570c2ccbbb341a66a74221f1fa89e306a273266e3f93199884b1) ((-0x75d967368eaafd482202203b5f6bbae4d8be9358f40ad90806b99745aa84f081), 0x9b1d7894fd66a237b67e410b1e560753528d5e57ab006aa943c43b3e9378c27) ((-0x6f843b5f7ee4080bfe144b3eabc0fdae4debc6ef328494246cdefefa6d09cf3e), 0x284bfea811b2f7b10008ff6b24351e25c18b9974e830455677c4a1eb9146bdfa) (0x30f0373a77398b3d96d899eba0426f475919fe8ae35e7519e5b90bb92e991f27, (-0x3add14cdcf18424ae27129aec01e3fcdfeefd7f4c87feb19ccdc2e47c861d838));
  Step2 0x0 (0x8c94ce9dec764b175a3cdf2a7e0b22f002ab079c9e54a69503a365f1e825f291, 0xa749f55ed2c62f76f46c61ac81c64cad1df357493aefd3c5a5d67bf6f26c98a) (0xa8499cc01334cc767d23746f04acb7d353ee5cc78dc8bb7b56e44af2386b5ec6, 0x6d3dce6d57d6ac9861e0d098f687debcf814740d70febc9c08e0f7b42cb11ab9) (0xa671bf8072b0fd69106b5ea785a0984973c6be5f2c51d4acb4747f711ee24621, 0x4a3364615606d9becf92f5e35e8d57fb8fb869cb1d3fa62fedd38863e3211070) (0x5274f9abfb4cfb2237d514cf8299c241f7d24098737a120f9031bf930f921c75, (-0x19b587dbadcd7bea1ba91fe7a5bd92a7960438ecadedfcc8f5a68bf9e2b1e6d40)) (0x6b3d6540a83244781f5ba43ac0e22568c7ee7da4089ac82f3dceaaff8f72ded9, 0x10214e4dae5e4693b757b4b544b806ebb6da903df10fb27c41cd013ec9aefb29) ((-0x73510671715eff556a406df4d44ac1716912b113ab812bd38edf99bbe02c867), (-0xf3806b5aefbcf5a8f06c650129adb0c9eba12386b5b20de56a38603fe995679)) (0x0, 0x0) (0x0, 0x0) (0x0, 0x0) (0x0, 0x0) (0x0, 0x0) (0x0, 0x0);
  Step2 0x0 (0xa4febf245ab2b7a6e8acfd95ec85feb0186d360ea9673c601a5ee846b8275a3b, 0x246913901831fcc3d679ac96ab117e01c18fa7d3179f6c9773e03f769af0df18) (0x788e90d88a00692f390166e332da15f7bdb7c9c8893c90ac4932173a530bb630, 0x427fd96232db21d195d1360f45d89ee3be71c6d3827e9b44eb7aa02c67a31fb0) (0x5e7e6c43397ac6f6df0b343a74e80b25b397ae88c6d6c3d76e9fb6bd60c028c5, 0x2aa28af6330f22601257fd06ffa694114ac771a711ac05edf04933e081e4ea0b) (0xa8c5171f521b870c8a364062d5dbbddcfb01317f8dada71ed6e5aec9856306b0, (-0x194607b7295d1674a42d8d5421eb5bf5c48ce169ff2e09db315477e6eacc707c4)) (0x86d35203e370f40dc6a120e6c65ff1552c7eb2c411ea582a657a1897b1bb2161, 0x41ed2b1ea79442a9c34dc404d2946ac93650ea650c57ae7d4a18db7d3c01eb06) (0x1a222607bda1e3d19c31be2aa9cfeda80df7daa6f933f0651922522f28a518ac, 0x303b29a89066fc227897b25e8f998fa8617efcd7946d79d0284434bcf8c56dc8) (0x0, 0x0) (0x0, 0x0) (0x0, 0x0) (0x0, 0x0) (0x0, 0x0) (0x0, 0x0);
  Step2 (-0x1) (0xa22003d74dd04101027dfe232630ef2683c7db502bd1a0b6c75520c8e9801b3a, 0xc2e415975db4f706edec32f32a2d08e6f0192876c779d41bbf754fc030b5de3) (0x25ad02ba7d2d1c4a76d1360048198cce49c14975ce8a4d4bd00b96895ffdc322, 0x93a2a6abfddbead4406518bfb26139c7e34cfd1632078e243f5814f4ff532f84) (0x6bac5975587723aebb4add3919a99bb121429333383d5c73158dd011f9d451b9, 0xaadab1ece29540977a96b36a33b5e4ca40642021c06dbc0e7076f282f8719513) (0x3f107a5b589f69c7f9f20c63313f8ee4edde34cd8ec15f18478969b772b3e840, (-0xaf72aeebbe4e60c9fb2f2280d7aaf664e21823d706d05f813d226115aa22af1e)) (0x8e981ec1f2d85208773398a51135dfc221447e3cb833adcedad76f97b0af0450, 0x15abd828ebe46212f62ed6c0243695abacd61434dec6f0a3d3f101eee0f67758) (0x54930af3fd2e3447be2c6f438c1c0763cb6d57f12664c0f216bc1a3ad0effe1e, (-0x42a31c9fe1fe77e01e96cf64ac5474b43c8297ffe1d8c42e09d2a74833d8a96c)) (0x9df6eeb2dd67ba5380bcddf8242b1f1b9cee11c4b9bea30998af6d9e30b114e1, 0x3bd0dfaa1c55a18203a4e347f02880b4b271295f4efeb0f63c441b838327c4fd) (0x6d4e1f3b9372b4432ab8eca4bae52ae9bbfce358eeecad39a287a735ab842f7f, 0x6628293ec3e99c3b74e5536e9e1bfdcdf34bdab0adfa210fcc95521007deb41e) (0x126dbb419100f0e9d296a01c1d9e73ee89d9f23ce8735e842a6a8fa89dc15544, 0x7a275ef15c6ad07faa23315d7b5609f2a331b7afe4b6252e8cf8e288f294408e) (0x184a66300ee4aa5b69d88964139b15e12686b181fbd3cf53089ca83585feb9d3, (-0x65cd96cda48a783eeb5fac958d157a386c7cc87ffd81df8ee9c43f90ad8c589)) (0x61a6b196ff0d9c0b42d486b02350efd8bacddeb262cb0883bd8ef1fe17d255ef, 0x67b0c3b0957d076e2602c0d4a8b16195f58d3442dbe30fce90ed0d3b4d2eb2e3) ((-0x5beff2898073a15eee2dd8e1741a33a587490a46289cf4c2cc01a8d70773998e), 0xfe8b3c40ac9c19ceff6effc8c5dde1c033947d3a6ba2e88f201e5205803724c);
  Step2 0x0 (0x3a6265ca9165e789b2a22a3137a81a5710299137c69e1da1bb7c2895fe1b25d5, 0x5c06e17592ee2d034f22342e132ea8c5f31eb7e30bed2722a0d60f1d8e3d7ac8) (0x30b107cf84c4e63b801164e65a141de4c0309712c920f3fcbb794d5c8569fd53, 0x8ca3d150a2de8be80bd5c896c168df33b15cc56d6d9f8e0522b5be601dee07f2) (0x8b0201cbb5d3ba960cd1e9aafa30b3cc775ccfc2ea7e565f069a3d1120066620, 0x7de335fa5556105fd191e4711b081d49f15190fc6447131068d0ee448ba6bfa2) ((-0x58038d35dea9fe498b2deca489a1436897ed307164b0a1dab51c6e2d376523ff), (-0x10ebcfcef5b1767ddcafbeceb8f78781316e76e61596fd368e9320ad792a251c0)) ((-0x4a3bebaa0ef3c283d903d5f122f444790e91fc635addef81fe176aed4efb2b78), 0x3af65308b8688eb461d86a6dca804114dfc47f164640cfd21729421cea060cca) (0x3a481bfcf0d0b71af3850ab8eddd4f74dc3483c57eddf99d31eacef559c83dd8, 0x124752e53062d2ca769f718f76f6a06d3d72dc0b954e498ab6cad35f9a06ebbc) (0x0, 0x0) (0x0, 0x0) (0x0, 0x0) (0x0, 0x0) (0x0, 0x0) (0x0, 0x0);
  Step2 0x1 (0x3f99427f4441dc8dfb81932a54648747f447eb32d72c98909b46ac6a6124cbdc, 0x865fee62b2ce2bdab4b8a756ce97ecd858d2aa068103eeefd8471a9e5ebdccd2) (0x9617567400b0891ccf4b905c5158d4f758c0715856d30c837a2cbce30c69c824, 0x7f8be0a78e5001435f5e47da594b5400f9a7664ed1f7d73248c9c8492ad51668) (0x5d5bc5a94b006c2c3f9deb26af90ce8ad8ea415be02d4114d24d29e54d48a155, 0xa1f2bc513b732dd6345521108170138f868ebefeb6a8487d2189bbb01d0521ac) (0x151e5e8a2d5e690c612c2bc53c8c78d364e7fe349b51d1974b4f698f23fae6811, 0x436580e03137113b60d78730fce42abaeeffc0afc22b3b712bd1d1929511a69c) ((-0xaff53f9c52ee4accb72d7208cd23006ce4047bb7372f4c21a3ce6afc695e3aea), 0x5dc8ab190ec70b4713ac71801a00db5cca177506652ecf2bf75f4b1594dcda74) ((-0x36b15973865ea76cd798acf751c4641e833695da738e031b180553308fbbbbad), (-0x46319c6f7a3739ca35d0bf855df320ffb07afc06ca880cbb49fe81c789011548)) (0x9421c0c1b494be1dab995864bd82a787430c6d9d60f5e4901d3be2ff3a66a1d2, 0x70ecd877bfdd9d5b46625cffb016f2b0cee0db2e7534edd05e53f24fd3428405) (0xaaaa969fb3549766933be350d47c5dfc2b38bbd4e9a9dc12e50a845d95546f0, 0x53a3aed8daa06f9b6cb780fceb3297cd03fe99dca96e8b8a22d9a65fa8338c67) (0x9cfdad13af233b650e2409aa4320dd65aeedc3479d5f06f45915551a6b7a9209, 0x5c0ff3bdf67d90aa17f5ff7563fb7a7156ff6e3206867992e31cb4b3baf6287f) ((-0x54c90f24bf59bbc461d894f726cce7d11d68e823f963a03aebf3425e2578e766), (-0x35d93b1701924b7414fe97e15ca2efb391118600483be8f1b4a888aa2beb3b39)) ((-0x138a371f3a6dd175e07b8c7b8bd9915477db97bc1d7cc0600bd134d8974c2561), 0xb791eaccf8916a5c2d3d8e1f562b448d2631594c2617ffaacd2ca2edaf7f9ff4) (0x3ae9977872f8659487d2a39038928212ec5efb317bc7a006ebd94bf6eed41a40, 0x7a13c1977f30c33609965b0b15237bd5aadc42e0adde5113cafe08c456eccc47);
  Step2 0x0 (0x150d7f1707573e601c9f8c5d4baa82e586252f900fc9496e94a605b76aa9234c, 0x5fe4faa07d4874abaa9eef0de576181da0babc7aa3acdfa8318d5a2b648415c5) (0x338a68d807af0a7d256710c5d8f1c8cb0dd8388cba26a3d5d12be9e21ed85242, 0x6cb119239765182e8d587c477ac7fb293e4e533310c7ea0885019d608dd28685) (0x8f5323ceeca76bb15e27710925808e3f699cabdfadd9bfc7a56f26f3ee872070, 0xac8dfe9ab7a101f4a588c503bbad379051f0ac97d2175637a6a7a682ea303a54) (0x46f0fcee253890884b8d4f55bb6ee434c65e446a10737f95f5bed45fedd12afa, 0x9d1b14acadf9cdc1278c572f8ed8069a5eba51ab51e23f1420806f6c093da70a) ((-0x627b4ae9f7fb69ec969a9aa89c4d715d263889ab9f0e2fbbcfe020da69b5b314), 0x162794aa48410688c6d32f4a30f3db24c989d79f08d1b4549d7b1612d788b749) (0x15a45d61f58620d76232c31bb5edc55ae5470fee307cd6a5e7771b87379d31b7, (-0x18668ecf0a57e5fb93e6c9d036479040500b3e913dc631210403c4d830be9939)) (0x0, 0x0) (0x0, 0x0) (0x0, 0x0) (0x0, 0x0) (0x0, 0x0) (0x0, 0x0);
  Step2 0x0 (0x340c4b2e76ad9eab7348a5a1698044f892339b553a86bd3f7dcfdae2aa605c13, 0x94d37f84f73643a57e9d6c16fcd9980144d23cc44a77756b7a6661462783769e) (0x4e61bbd4fd7dfbaaeade01d6843bf6e697a87d8cabec9db0a8b57a0b2b228ecb, 0x2021f462c87bc6038134e7a129b9f31b2f82adbd6443a9cb5f023654cc842c07) (0x8dfeba279a5720885443c823a45fb91e153aea26fa1d452cabf0406d99796f2e, 0x459068fc1bfc882901a51a7bdaa3fb24f38346bad6350704a99d753bf1b1d345) ((-0x88909a0af4de9556cabc734ed6fa940c495d75cc049c90480897b8b0eb2c2dee), 0x943546719345755aa693305e8a458be5366ffc8caad41b3d5f0c1ebbc94485ac) ((-0xe4333609a855468a06a89b954999c54ec95091725e45b5537feb33c73f9aac06), 0x55015b0472ce6a2e31508b2604139bf3606c7beabdd1b31f2b07eaa771a41d5f) ((-0x84b3d9760e9659a86f38a4590c8569f4a85b6f3386def3a6e2fd67cd049b9765), (-0xdea74d942b3645d2fa82d9fada64d061bb478ca27eaf142ebf0de13e61991)) (0x0, 0x0) (0x0, 0x0) (0x0, 0x0) (0x0, 0x0) (0x0, 0x0) (0x0, 0x0);
  Step2 0x0 (0xb58ff9d7ee59f3a9c358fd07110b92e480a4a56ff01ab40bce04a70439198884, 0x7e50383c662d3b4b079741692169e11ce151ef368ea37cf6945aa0d0ef28ff45) (0x6da33f8e80e248e8d2dd1c45436c49c0c5c8fc0bce203b3a37fdb9f1f686a68b, 0x752abb0d56374781d03f07e2eef16fd6b6ec79240e615b04c4c17abbd1279756) (0x89d85deaa2b575a80af0bb6e59f2e5eb7f6fec992a8c976510dbec45d0c501d0, 0xb1cbe6d5a79a290f831a4d89e4b9f190f5259914ef1864129bd65ee1517a05d4) (0x16ed2c7ffdb0c5705be6363d38274ff382a2b988458f325a566ecb50a5364b13, 0xfc835a3ae2e39d6501fcfd9817044c8414ebad5c746724425ea885d913ecb81e) (0x5c99bf4eb8bbfd26b23756a9292a7d5d176fc57358a1df741e54527b39b5241, 0xfbac7158a6c234161ea6f43989e665ca74e889962119140a1b80f95d42749a14) (0x56bb914624528a6df29acffa62fb395d1402e290aa2c005702300ab288b75878, (-0x6a6050ce7a21642e71461796d382da867ce9f306b2f49c72c49262184af4eef9)) (0x0, 0x0) (0x0, 0x0) (0x0, 0x0) (0x0, 0x0) (0x0, 0x0) (0x0, 0x0);
  Step2 0x1 (0x6f51f1c7cb58ffc69f9a565e4c79909b5041c57e6b65bf490bf95f3179e0cf39, 0x6c80b9840ab97423df0804aa1d3b74675d43958f2534afd6b7d14a81a20ec2e4) (0x5de97f7ae918a6cb3e754c4a2113bde2ba52898b2c4c25963c6f340ea9659b1a, 0x2142cb269d0e485890b39c54c942168af231d8862a56a3654513595856fde01f) (0x9bf4938c98b0851b35a16c1669e8ff41be238f7c86a6d8a74dd3f30349c5806b, 0x22b94e0ce3f996b494d0adb22691f09a692e71591e02efb3ea0253b464175b06) ((-0xecc609bb9ba06114e7cd19dd007f2b21c03667b714e6f6bf3d5c9144e976ef), (-0x299405e3e854cdaa8910c837f449bea7eea8235c3da13d48efd0040d909c5394)) ((-0x3d33029dab715c0aee27d41a42eb8e87cc11dc943ba42a39e37e07757e1da84b), 0x848c981b90062d8e98fbb212cefda14f6339eeee92b2ebf859bff232a0a06641) ((-0x5a4d432630cfe5a4a0cad00b69bb59f7455c99abbe179f962eb5f0af5eda2752), 0x3c9ce4e58e4146e68a91fbf7a2e25b65f46f95be702a44388c3a71e75f8c687d) (0x18f1dfb9cba01d8e0380bfe75b41b9275918a2e4df019223c570ed81dbcda452, 0x170b4dba86f51dee523ceba642578535ba06b507c099d44bcd543ab4f25ceb46) (0xb436743bab8388fa793c2d084fdbac395920afccf066f17d2386f8cd61433435, 0x8ac17034334d25ef829a71614d4dd0188cc1b5cd07afbef319bdefa3880013ce) (0x8a8532cc4f85b4212d7bc561fdd2cc602256b5b7bf25c0869fc3da8fab75fb30, 0x736a6041dd6f417421159b3ee4b11568ced52c047217cbf3344dbe0c4e714ea2) ((-0x1eb3f0453bdcf2b11df566a5608d5a394a51097bd9ce449f4ec171d95724014a), 0x8d783347ea95190e56967928d3f64d67ea455ad593e2f014c2d5eb4d60482a2) ((-0x269cd5ece16d8e911391da577f5adde9585e1955445a9367e005ee3c88587c6), 0x64ee4726e0e014c97e1f3640fdcf18947f616848fac7204665861c245bb4a72) (0xeddaef00a684f304d602f311b86fe065d8373dfe3e710a8420b2d3bcd4817af, (-0x1959ed9682c63b043395a0c4b8683ad7397aa692351f77ecb258e643c2d79df8));
  Step2 0x0 (0x3a2a73c391f65b9d524e7ba4ce4dce06c62ff1e7d7b9703bc55a48f48c4afb81, 0x3bc5f18accfd8bd6656e7047c225b34738550bdcf8a3a89c8dd46cd45a33e870) (0x317f2374f9d521e1e3525c31119c0f20fa9590e9634230fb887e29dee4103ea1, 0xc149c1c595069f4665dce4ce4882db599784e97218c690b632aa48a8767414a) (0x1f165f47af904a3258d66138dbfb58836aced551dfc4787320dfeee154a90666, 0x457a7160be781760b8aefbd4df3b4b4e7d692709c6c7da33c48a092533d860d0) (0x24423497e1ec488cb25b4a51e7b8aa05d8080c17eb2763dceb42c09d835f5051, (-0x292b1c92bd9b3f66b40622a3d6b20f9d773bb380a50b4337e84a1ac5a81b56920)) ((-0x14a4ec61854ddcfe4fd33c0f6bd3c646d99ab609f6fd5f862e03e152ade9d052), 0x26275ae4b376ea626088564f9e58028ecc76fc3d3d6b451bab642d3093a93102) ((-0x295fa7f18ab13618f152a6150d884bf2f0842ada0c4018ac22afea4150926f2a), 0x534ce1bd4a0f2bcdd7e31406f5b14812438e3d5aed07914f7891ad39bcb589ba) (0x0, 0x0) (0x0, 0x0) (0x0, 0x0) (0x0, 0x0) (0x0, 0x0) (0x0, 0x0);
  Step2 0x0 (0x2160b8fd6a8fb3321ca07e2a074063753c942f2000befa8f831bc9b4bd69cf4e, 0x1add2e319c1feed88955f8aa6a2adc8c3bc8f294fe85d27a81219ffca263c34f) (0x19d9e6147fc1617a019e85abf35d3420375d22c21df9df83af9c862313e5e971, 0x8da5e0be11605df075c62ca5b47f789388a5b1c1d4d3e46150ce5e1e78f5e318) (0x2c801308338d866049e896f39ddd7ffce00a12f1c3ed3fdd89fd910b68a65eaa, 0x8dc30ac0c675509a54110b2c64dc16b51c0007daf8aa4037bacc7d12407a6326) ((-0x4119f004d03b2aa6bcc05c2ff636b62b00f5d5e8a935b0d22bb03471ac81cd7f), 0xeed9e623e1d06e7c29d6ef806f366d6d7ff809fd942711531dab787d7621bd8) ((-0x1ce82f27df69e1382da335d327907179edb1f369a27bd1c50b5665b8abfb945), 0x9d70407d211fa8e0ab09fd48b8621ecd390c497d734515402fd8cf3823aebd8) (0x2a87080bca2337e76a74923e27183b5cb7942527f4d375489682459d5118e1c4, (-0x143e766a53e5fa4e6b6b4968a6c44f0d6cbf147053d6ae0b2e55942c4f84d8b2)) (0x0, 0x0) (0x0, 0x0) (0x0, 0x0) (0x0, 0x0) (0x0, 0x0) (0x0, 0x0);
  Step2 0x0 (0x7614c08a8fc336ed507a7554eee5b30b7bed78b931a2b2ee3fbc3635dab480cb, 0x1e43f996bf733a4c830082d571cf7197cfae70a225d1e2ec167f36ce13ecb666) (0x37500fdf3e0b33a7bdc1afa150730ae26d5b804c41bab69dba15c06141203305, 0x9289a9c4856027a047e565940fbb89f5986db0a7264e8812bfbc7666407ba761) (0x4bb0465c8c5e26cb7c393c2e4106554fa194872296cf40640c5d5549c2621777, 0xd6d5d9cb6dc88b252d9defbb24e7562f89793cf4291732c03afe5edb2baab90) (0x2650b5288d62a88cd6dd95b6570fb74e85ace570cedacb158da358898c0d3badd, 0x4decd253e214f360dbab8304be425ae5e086d8885721cf0ddc31440b62857c9c) (0x427412625eec09e31dd7f1a8ddd8519e0eeb4189db154884de8d6f6144436312, 0x2737ef7a2008582af2d89a6d63a34728936cf14ddf063382d60b87ae4d07436f) ((-0x1176dcea1fb96da56ef6ac4ee14e8d60de2650f6cc0764203f3b5e4bb96a4665), (-0x80f898f1feb86fe0fbd3c5a0f5a5369c2740ba32cc75286a8dd412c541504a5)) (0x0, 0x0) (0x0, 0x0) (0x0, 0x0) (0x0, 0x0) (0x0, 0x0) (0x0, 0x0);
  Step2 0x1 (0x5c7f2f7004f5642fac69c0ab6599ca9691b64f44e7784d40edb5f30fd78e7260, 0x79d32f28c573d5e4151ded20306411bd134b13018a253300863d5fb6af74f1ab) (0xab7f54abe576e20b2c61302d88e8279a906d926f6c1469650e649434ee525ece, 0x4888ff96304c92174e5aa660a1ff5dc5678d619b0715dca52cf1ccbf1b0f0c8c) (0x1388a07b185665e48ff785694d67880aefd308458d10b6efa16c750cb4c720d5, 0xb54eb131f41700544fe48bda83b716e8337e86e2f7dce86364377e159516038c) (0x2b98127b3c9cfe10e52a10216add6680ee3c94511d65c24616fe472e81b70f297, (-0x9806fa57d130ca1552b199acdf9095894ab4e6d3a668ee0b9b8934940b79cb34)) ((-0x73ec4ae00e9e960ba3e82045d2b116e28c276c65d0d9887bfb7d0c0854c09092), 0x7ba8aefde47eae24e21ca42432d9b8062da0cc5ec9957c2f4b615272122f3f5a) ((-0x9de69f57e9eb433ed7c647a5149c9e6f80b9895d4badabade3374a48e935f642), (-0x281af1dad41ae8f46159686b01617aaf6991280b3f469cb1b6670797f2ef8fab)) (0x58298571b56b5375ec1a1897efab7591e479276ab4ac76411eb864ed6a253f0d, 0x861dc877a92876226a02f86765fa8d3466e86f351758efcd40677f90c4eaf68f) (0x119a2beea3b6082e5e3db4d200356c3464b51d8c28f0fe75d84ad6d7ceb2914b, 0xac7bed26045e715109f87622048c5a95cea742027a43344bff31f966919c54e0) (0x160d2834916aee8b3459e884c23fbee2dcfff24144c594ea0dcdc0625b6e7911, 0x1b7a7bc12165bc28af5e7cc3247e0ccc6a6cb40b32c34f7a9fbb068ce705f560) ((-0x92496815610a2fc80c12a920cd2b19545af2b912be15a25792459a975530242b), (-0x380ce74525176867aa6249a14614aeb742899fb3e56098773d4f517720da764e)) ((-0x9abe11d01c2bac2b9bff587b54f72fdbff462fd1c2a6e199ae6d180424a84751), 0x81c1774cfe3274d29e58c27b22a4f234984ec77fc2ba48e8103bda6d7d55348d) (0xdd8c8b56953750264defc35416ca0903622e05c8febaf9045bcf9ea8c466324d, 0x40e68ec0825f067a60b1bc1af4c1d43a32e7a056d963e2535229a16dca3d0d81);
  Step2 0x0 (0xa7c9a853da262d0a20b896b3ed514d5d3f4d204c3c7fb3b0a0ad821618209387, 0x375142e1a28ebfa9292e4c2133276ffe48e1f7219d171647ae5eb891468527b) (0x6f0700a509f4f1ce4c2ca4861ed4b14666d1e0998b46fdc954dd3aacdaa5c734, 0x1273139c6d9d34a90d64a97d4bf4b6d0c53a61a0e9ab9ac0b94cebb61a304554) (0x9c072d6ba4ae71a243096ddedb1b6032cb5f95613d4b6c513db9564882555a1d, 0x11fcb035e0c44bd2de2b7092b1b61e12e87c2f8900ca42f761374ee1e9331c20) (0x3f4dddbaee65787d14d18283c0dbf4c530183bd1523b6ad4c284a3daab19cb6ff, (-0x30858681788473d864b7b741a5938c12d1047a6a079ec734ef2b7bb6c9612cf2)) (0x9a5787cd8e7dacfc9c82c42ffb1b870dc83b7997e07abe5a57a2148618e6d019, 0x65db0404a1af5dba07f89dc80da2a15b140fbd0e0b21db1413d0305fe6d9c1e) ((-0x5bdb0a57b7861630e562db8c0fa144e11c1424b536ed0ad54af715679d864ef9), 0x8c09fbd8da79d2283cca6324d6b92782c327f337c309568f9cb18ec86d2937b5) (0x0, 0x0) (0x0, 0x0) (0x0, 0x0) (0x0, 0x0) (0x0, 0x0) (0x0, 0x0);
  Step2 0x0 (0x8b2d81b75ebe6891520e46ec1412487c9603fe221acd9673bc98aaaf346af15, 0x5db9cd7a2ddf80305addafe9ed1cad666e825e8baabb8d9e1e75f04e304324c9) (0xadd73bd9256820df0ba88aa49d97f09290db0c7dd3a3d57115f5888f92a22022, 0x56783c3e78a10f6e1b70bb40e7de7bdfbf5ce1e2b15908170656526a5225bf20) (0x2cbfe1022c32e1fb3cb059802bc2ba2517d233af716ca34dc67384bc1ba7a655, 0x56f6cad02a94b8938d9f0381d1be4960e062026135ed69dbd8247c9a600d09b7) ((-0xd5d0c0e19f15f462db45aa45a757adf395509bb3f6c3e01db146e846e2471da6), 0x5ec2db0c2e10aa8fb06c4766396e7fd577b5759ba0979a147eaae56947564632) ((-0x5ffc52a79eaa5a08aaad09ce552367d6d553d08fa56c4dd19192608ebc366aaf), 0x8f2667dc1705afb4e4384e9a993ac2378b2f786a3e99e042b9fd0b53aefc09a) (0x42f6a72b15595f26ee6cfe70ba06f59469a37bbe663602ebbb8eb713c76de3e0, (-0x238cb35969788aa027bc8120be2c546c5ba1c61762bbcf762167714a67c15305)) (0x0, 0x0) (0x0, 0x0) (0x0, 0x0) (0x0, 0x0) (0x0, 0x0) (0x0, 0x0);
  Step2 0x1 (0xa57e00fc58b763013915955b39d94b18518327aab2a57f86e8dc5186c2206960, 0x735e48c8fb42efb701e43a481559d58a3ae0fe8ad9b25069aea2bc0e67fc1431) (0x4e4670cd084362e40e8fd24ba5238b96ae5ac8cc61cd5a6fde0097e029ac0ce9, 0x50b82186d3eb5fb52040b78de7fccfd6a8d5c223f335a58796cfc18e347be045) (0x36c56fdb4561d33adbae9727f8f22930040293129e79bad3d82d1fa5601f4b81, 0x4c4075e3a5b08f878dd9c190ecd5f7490fd7193f55243b11e27a8523bd2b97ba) ((-0x1863baadda72ba27dbb76f86b29c1407115f724d028982210da6ae9942a5fb008), (-0x11849eb757a17c310c9e26ce5047c471d078eaba569d25d49bb1777e137ba4e6e)) (0x436c137ea73c7135829e6dc7aa8562ed0fa2aae75c3b2026f0d5467ee1a1d25, 0xd1853e30afcd7f0ae3c04e0d7c464e6e46ff02b63ab0c4d9276d1325f44ac217) (0x4f7f849adac745ef6a7bcd44ec2d801006f5a2514ad5012388722d18e067ddc4, 0x41b780a8755475d2efceac346dd2e407ab9d252e97676afc9645583347660f78) (0x61d68a240f5ddfa3966873e8184f11e01daf52127554f73d3e30887f1c4d59dd, 0x6211b14c4fcaaadd927544c701a1e3abe68916b58f835930fdc3bb83bfd6f1c6) (0x29733cb90c99a720531e42fa444ad63703ce7a6b4f179df0093e97008aa4252, 0x928c3f0521d51125bc6ef4937a14b048762b9465b65646933b27803a172655ae) (0x9c172a8f8712b991f4c8e0b563e7e981f341673d00395627812242326b089152, 0x4f80d4a77fa9c743b8f47ee1d19170d7b3c6480f93808cbecb67e3e6e2512c67) ((-0x456c42042c41fffd917c6282ca5b2f4a6756c4f524e6785e94121701e3fcc31c), 0xffb21ecd2713068b73bdc7e1c874aa3d3e1f6e8c8a523a7b17331ee90bd800c) ((-0x35050318b268c88f953c6be792ba69d4c4a67ac022d94379570183db84cc9b79), 0x694b31338ca07193d0e21d9b357ab3246dca27901ba6f7e2f1e33e82dd2e17c8) (0x6f799c19142b3b158cdf50d2da6da897a56d8b793066744748ae6d26f6109504, 0x563105b97c2299b3bf852a1734f8687c23fc6a761ea9c23481a8ca8f1d13254);
  Step2 0x0 (0x980b25206f2b199275bce7b816f148d43256ffd85150858b55efe3530bc5a04f, 0x3d32360a753d157c07e10d54e95a331d0f97a77fed8a03f6cd186dcdac3ca625) (0x8cb965ff59240d1633b20e60b13e108059bd9aa1816b89d783e4858d67e002d4, 0x4b0857d14105afbffcd8820bce39b124cecb9325669f71725661fb947e59784c) (0x1815acb0ab4aae06b0236a6c2ee59540c028670f94a9de0da6660760f3e009a5, 0x83dfd5424f88494045498f21989090b0803c08d97d184a75c4b80148adfd9897) (0x35c9578d834950054e4e9f07607feab77970f11f3ea59751e911d6c717aeaaa0c, 0xe0fa683832762c674ec74f74d199382c1c00888d7fa30f859e81319ccbeae8b6) (0x55bf1b8ed9d29925248894a6fa84c094e6c29b69d16a30201df356438543e0c3, 0x661b538fbd1faf59c0d37b124b0cc833b174c21f47b91fc0456dd4514c42f346) ((-0xa34419945af8afd5f48f5eaf61220a668b2d56b7c8b9087b4b6dd89dde92775d), 0xd478d8a8407549d2559c710f694266ea06d410ef69179262974aee2a47cc52e) (0x0, 0x0) (0x0, 0x0) (0x0, 0x0) (0x0, 0x0) (0x0, 0x0) (0x0, 0x0);
  Step2 0x1 (0x67d2c20ea300fde54ae8c3165ae037b90e8754f75a664e97d7c1bb3a75a57fa, 0x3999501afbe0d593480cbc2153a7b7c94e3afcbb3c8046eff9f48393dc1fbf6b) (0x1170e19c96036f64e6b9c1898be952da7c79d3b8cdf090dbd61308062b558c8f, 0x2a7f879084103e6a67163e47ea9d87912a84588fe9c6674bcbd9d73e616be900) (0x111f932508bc51ce44d5d39ed6b912a038c56ac37693f5661b4352d0a826d99a, 0x8209d9ada723eb2fa2d39de140fef5b59482484d3e3551eeafde1849d64278b6) ((-0x131a18e6e4007f61dabc8cb301276d70ef01e4480fdd30fc665ccd601357a8180), (-0x14300ff52261ca9abdcc790192e7eb06b06cf0f91bf11adc02e379bfcc3ba68be)) ((-0x242d2ac6d8d60abe4d6c55b4b672121ad839219955feb98134f7f299aa6a80a9), 0x41a012b336dc3ef8e8d72263fedc0bf404c209530d1ddbbc4e57bcedea82034) ((-0x102cd3ec2037b95159655573b2268e78c94b9bbf6fbf1eb7ac5327ea1aa34509), 0x281f08569f221586ebacde0b3865c7da5873ba8bdc3365fc27c5249a2e8ce36a) (0x51ab8016755f39297829b60d4e1ba2045b13658a75f57e0ec44d6dfaff89fa97, 0x37876302e9669352a5a88503ca5064da22e502fb2328a0d2733cfeedf01eb980) (0x62096e8fca58436f80d89316d94499abe849d24e46bbe2a022a95c9c9a11279a, 0x742fab4b0e2e61d6bd2474ec1915b9d3a1c15a719d8935cb0adcc4f2742d7e01) (0x6971a947aecbafdbe681b396ecffa0d919a2155d8ccb6218f07a994abb9335e, 0x642541e9a3ec7fef65e6d56f0aedb9a7888c52adc584f9d6376af63de9bcdeb1) ((-0x26ac9d1d3abb88eada632ee7ce4e7ebdca0e745c92df677283f80d5f8d26ac8d), 0x3458be5846eca3d45c0ffafff4ae2b1d8caaaf1a69f90bdbb3a020f8d9eb0303) (0x2c2a491fb1f9d25a71fe47923378bebc340028a8c5fdd9cd4641f3a63419651, 0x31c468129a325fb0910746af9310239b0b8abc57faa836e7a33df21e682fa416) (0x8c960fea98bbe8c21eb0fd37ecaa0677244606697c16e33063e3c5f676960a7, (-0x3993d57b224e3bd9db65da914e5b7626e40abdb9dd7c294ab386e0d86b46a3d6));
  Step2 0x0 (0x22632581d3420c3b744b335611b81971b43238428bf6af5c4a66b19f0d4569fc, 0x90474e245dcb87ed3a8cf85dce9bcffe693baff52072fa05a429041186ccd236) (0x4ef9942402769aef320fd7972a07daa863efa66bd808c798025a2ee8d5799327, 0x9273adbea98a7116a55eec50f628fbde07f43f97c366b0e1e07954f40ea76c95) (0x6c09719cc6f1346ac97c03ad9e1f4c9ed716bb787d8419b4ec986076ae21adc5, 0xa77c2700dc5678bf5a8f6f4156b571f02e9e8725a4691ab5ad3676a4b349659) ((-0x1c6cc0f6d88245a2f990cacabc454d76404b6676cad78a42027641c9fb9d8a46), (-0x146c56a9f374b45c90fe58c3c5c718993186a94e874f6e8567aa278adaff4ea2c)) ((-0xddf2ce096041d110f8abe16e1c5463594658681c6cea915bdbc4147c2898bdcf), 0x36720d9a38f7742093206f66ad648982cec8cfddc9a37ead3c0d6739ac3c5ded) (0x33843102bc7d80c093c1f9b4ad7d0760caca61066410212fb9707214482d3b55, 0x9613c12a0e7b93fe2e54ba85e7dafa0f0942f123f9877714321b94035eb6828) (0x0, 0x0) (0x0, 0x0) (0x0, 0x0) (0x0, 0x0) (0x0, 0x0) (0x0, 0x0);
  Step2 0x0 (0x728ce47b71a78afc01d9eb7a0dc0d28e65f9a62bea814dbaea91e95bed71d247, 0x4b5cdf2b6d16cb721313ffa8ab51add17787859fb969c6759d525214e09e8600) (0x6ff8756e2267258c475eb7ddee0cc63ed3e781e0fe3070b8f2561fb8fa5db0db, 0x6055a591bfe7bf5bf61334ff303fa758c06c4cc2aa833578e264d04195482d9f) (0xf86e29d0f22252db45420f709bfe77de31054281b59b3f2288434cb61f6bff, 0x5de01bf81ae12301cdb87e77a239555c378eb3b843d4efd0a21a05f0fd7aee98) (0x2d1f0ab0c4986836a640b294096c5e19aa5ee1278cc5905ec1bf538b4493e4d3d, (-0x116442f422cfcc22ca2768ece31bab956418167dcfa27422b52194bcead4c1064)) (0x9abfbf55bef73d1c4fa9c5176f2b9e2d5411c0d5d6d6a6b0d023969c3a8e128, 0x5ebc75cc8cf8a7d79df6bb317f71d78485d68de6cde3666193d279b647670bc3) ((-0x3e2fed9f46b980e5b553358402819ef9a76adf835d72df8887abe7b8ee5ca070), 0x11db37bcb15b4f398aaeb8cd6a3a3172ced01d72f2dde797595d47527f5098bd) (0x0, 0x0) (0x0, 0x0) (0x0, 0x0) (0x0, 0x0) (0x0, 0x0) (0x0, 0x0);
  Step2 0x0 (0x99e86d5daa7d72a374fc0753b3b041b2851364cbed4e12dad95f23e1cec2cb62, 0xb1132a4ee7166fb34df66684f2119acb71e9632969fea84272f6c51cba5f8a2e) (0xa9e28cad8e405859b5ea82d050dbdcc5d3ab4bd1f39cfde935a7c3f4b600e6eb, 0x8302b732cc6914c3541fe79eb2d04528c9cdf0c368b3359610fcc4a005abd173) (0x7b3fbe7fb713191092e53b6bb5b9a2a80c89bd4e925a0a45b593c09be901b92, 0x68c612fbedaa1954b6a8d5d72b8a8aea732da96bdf514ab91afb3a981cd15c98) ((-0x1080d190f15785141ed72890416dfbcb5973c82e0a55451bf1cdebb4ae6f9b9fd), (-0xc2ad28d84a6f97df956d7ae1f927f384e1dd15796c607f5292b1121762a84da2)) ((-0xd61eb77c9923ac4477311be73e5784f1bd0bd7913d303aa9bab042b9279b7349), 0x12b133d99ff3d1bc7568a837c96845a87715a32bbff2ae68758b8ff673de32753) (0x12798a5b822b005dc844a1e9b2db4a39bc953413712295adcbc7dd21ebc44cab, (-0x558dab5106424cb7a73c2a402809e7568974782f71b28eeb39b1b5c359a86f98)) (0x0, 0x0) (0x0, 0x0) (0x0, 0x0) (0x0, 0x0) (0x0, 0x0) (0x0, 0x0);
  Step2 0x0 (0x5d48cb638c468114cabf8c3612e3203406510ad1081f86c2ed3f647857f5bb7d, 0x2dd39b57b5d9d801383d90e3d416b6f061c8f7647e2581ecde2e517f6be4c4fa) (0x12d1c696819a3406bccdfd37d082d3c9f4ba02831fecae8c55ddf35f37b0f584, 0x340b0451485ed0c20aa39a9371ba6f5a2110416fe95701af6598ebb20a1ccc89) (0x8e519bd372a52896d28bc753ffbcc6012ed57b40b558fe59996e200596aebdc7, 0x27a2588c952fe15ae1f5dd6e6ad9f0e99b16b3d896eadd0ab4ffbc75646da1f5) ((-0x7825e6f335ac08821c15734e8bd30701fb0c2c9ec8475c6065d194d2a8465b5), (-0x26d99fedbd98489c53120ef5e7e897535405a91a96d17c7677b22910b1ff05a66)) (0x18b38a9af346043a04a7ebfefd4bc841ac309a91981bab4846de37c114792db3, 0x2ee99b2990a6b8bc81b34b01b8499062fca2f493e360ae3be85ba3dbcbf2f599) (0x259c2841e5985c1227b38bbab648201d98d3d0e32287c80db8bb08d2a2a37db2, 0x4e679a71e859245a4f139e55da617e899ad06c3312b3c4f8ba3f9529f045d767) (0x0, 0x0) (0x0, 0x0) (0x0, 0x0) (0x0, 0x0) (0x0, 0x0) (0x0, 0x0);
  Step2 (-0x1) (0xac5b3e61eca08d5f417adf46f3d38cfba2c3f7dc13f6a69ca113af8a464eebb9, 0xb56daf1d4aabf20a67684aed3a1a1715839a2355c7c37400943a7b62593baf92) (0x912033290a815a85ab0368cb0aa958ee81ea1ac7da6c4815fa81f814b7eaebc, 0x23ed1283fe13c9345534717dcdbfdf499b79ddb8b62ed1a2be2093df2fdc3d57) (0x9f08f1cc588ac71ff33bf5d45bcc64dad1060d74e0ab0991422036be94cd714c, 0x237d6ab05c1b324b9f8a29f51b56084fe957af56ca8581493ff96c815bc76cb2) (0xc2b3a9542360e2131ae0949a5aa902c567d695f0c20c60456c88d98de2a851dc, 0x146134b26f9f0cdf70ce5a69fb093ce0a35c8f71fb89f3ca550d012a8e5fb9696) ((-0xc638a6fef7a753d1badfccb361a3da7c7d1ff4b8f4e0644228b6b4333d3415f7), 0x15728b0949209541e3a1e38f5c7096f053a6ef2e04f3e5aa0ec743d07dfb187f7) ((-0x16de699067f4b5efedf2353f428a7ade49780cf3355d49fe790f3efa2398704f), 0x18f27a33c5ae292ededaa7f324f0bc55407561369e0904f93dc4ec7dacc0a4a7) (0x2601e8b787caee3866cd929744820ea901a04badc85fac9cb1d35e7698604f3d, 0x5ebb9fb186cab72656509f20006609b9965fb1ab1e89791b72045d58e4ce3ab) (0x3d9f3c773c631c0d69fd54b4ff51f52fc390ec1c910472ddcf15728f46a4d4a9, 0xb20ff447016571a678a7e859ad79271dc967b36fa865b275096a3cf7a7529497) (0x207d2b9678813a5d7fd4d3be60b48799642dafd4ed6ce9e038e010273d9edef4, 0x520c983433380a6e20e90e5dd68a0ae737508b38b83242c3e2712c6f992ced53) (0x34137f57d090ce6e4cc85fcda4931b1357f713ed4ed2fc0a9b6ee41a2113ce2, 0x15e22505eeccb7e396d6d8223258388bad01d0aa486e91784b403ed374ce7e6b) (0x78aa5b00459661687b49a1bea981a09015f970c51e66526191d09d55cd5cf63, 0x27832506758c428042da467c71b30ead38509c68cbcf17dc5a6741547e3a4bb) ((-0x1b96401075bd60ee3c962f846c1a8e11218b74c68c7d316697f0af21c27e36d), (-0x1f5963169e2f54633b113127da2b6d4120b6fd9af3960c6475879d00decff724));
  Step2 0x0 (0x653a78c60450f967f454eb346a588cb7e7e2b80c8f1094f31aa90b9e4906eca6, 0xe595ebc079d490f8c99b6431fd676df1014822c6a71c3a234d003568ed15dad) (0x70176535f05d675de456890d688dc9258ff36cffb76f14c26d1086e9a00f2821, 0xbfca1b6ed59d14760c7f6408fb5be8ac1533a568e81b690b15d02b5b107354d) (0xa5e2b6b61ba48436544adec52b64d4595854d509911167923c481dad0fd607a6, 0xa22b25b53fe4d0cc9d9606102b4bf043fc7335e94d11469562fa59388c05dc89) (0x3df91e07e972ef1f3bc91d9971f464e25fab34f5ed9f8ad2f22ba0a94631fa193, (-0x108f96a5ccab165a4f0d790f2e361d315aa7878c5964a69e7988683868bf272c6)) (0x35f76d41bc499fcbab3edb9510b4fc4640a611a6c15f9c2e308c7623b134e00b, 0xff0a6dad0030f795b1ce5fc21492d3376ad2aaffdd35949717a6c18f42def35) ((-0x362f0f15a0e8b847e37fbe308667bec8ce550d7c81b3c2538d8f462a35793986), 0x5845579ca8e634a7e91fa3767a57d71d2378fc5a7fbc079cd843252e9aeb76a8) (0x0, 0x0) (0x0, 0x0) (0x0, 0x0) (0x0, 0x0) (0x0, 0x0) (0x0, 0x0);
  Step2 0x0 (0x58206e2b973b63b08748d3164f82ab51a3fd46d1dbb98ba2c3265cede67aa75c, 0x62ed0dc3c25646d27371fe84462e3efd029d97316a99fb9a0015b9b6f366bade) (0x59c380935528834c317c1ddc39de8ab2575b8f60ab968aa1fbcae831ff66e3a2, 0xa0b97d6baeb74f8f845cdc2e103147cbc84080d5ad77f29dd88b97e774a4952c) (0x20c5bf6b1708168ebce4fde08dc3960969e19f82b49f32feb6c876925ffb85dd, 0x5ed85021b2669c7ef1f6923f61ed21adbe38aadb567f9dbb59f381bc15b7f8be) ((-0x189c48b53ca46364f3192c63347ca33f60885eceb4089991d6202023b3235c699), 0x124af52c44bf060e530dbeec7510acfe92cc4978155d0d28a89e70212ac9d0eba) ((-0x40c80327bb36908d58391ead46c3e4d9633e73ebf669d9f21bcf6bee865a820c), 0x5fabc63ae5879f758d714811e36071d2e81dee7c2dd93f3bdd95293ea9932512) (0xac446fc80b3cca668e5853453f56b35518e702c0de8075a2689c7493d031fc89, (-0x3bcd646eb8bfbd1dc5117c1e0561ee4ead65380e7a73b674d32f8aff62943dbd)) (0x0, 0x0) (0x0, 0x0) (0x0, 0x0) (0x0, 0x0) (0x0, 0x0) (0x0, 0x0);
  Step2 0x1 (0xa1fb5acb3ccca75d93225299ad1e8be050a1300e0452b6f8c7510abdcf48f836, 0x613264f34682e7cbd072f1168ae76f42cca2137f4dd33f12790b41b305a20c3a) (0x17b019240e3deb1e1256a9ca3f069eb442ecbe2e40fb7c4108ccdde28767eaac, 0x7d1c5b5fe99b87db2cdff15542c00296c4145af29f4328b50a7f8fb397e39c97) (0x52ee9ba3fd0982c9652069d90bd9fb9b3bcbbbfcfb590f7e4d3bdb0553b8800a, 0x8cec23d1d89f10bf328ef648487f62574d2455b1dddfa40189a8f401889b8930) (0x23dbdbb7096a0bac1b9f55d0d6c70a163c6fedbffef18c227f42a8d472a6f0460, (-0x10f6b820572663907cfae6fb06a33741d6d0f7c1a6c0addf4ee8e0b24a8d3a114)) (0x284b617c889b167ef0a156902ff89922c094b5d54f25f2ad7105d619ee8cf39c, 0xacc669b039a154b2535f5407a6111d8c3ea98efeff123f08d0db706a4f6379fd) (0x14bd9a808a46632f550bd12cd5e206bce39a6be6efc6d23ff8b54e3f2fe5c1ad, 0x42e4779981897264c280591a8c8396b08e447bbbe20ff7b30345dbdbe7de9eec) (0x84c796b5dd28f73d478a87b11e55eb52efc640c44b9ce6371b2018b098b84838, 0x786f2ffc1470e8db5217fc42b2df4428194b76aaf63cf142467718e0e2f8f0e1) (0x1e358456b237ddd08cd44534179244b9d92e8e1e03c4fc6c23ecede47a8fc2ba, 0x4976c0cf286177cfe8c69db3f1b21afcdd0bce6efd1e7382a8d89c678734caa0) (0x416742c23eae7a8923f95b3ae30b558f4d0f1d070a982e6f420855865950737b, 0x8e5d2cad127d000e25ca72a847bb99e5fb0e2aa3f225c3d7f23713aefa8a019d) (0xb94b08d4125f612dfa5189dafb225f066cc6074b37f3617050d5722aa86ac43, 0x1b06b92050541556ae06cb13b39dcdd2006c8e766a06cade7fddf1fd0e6c954d) ((-0x3e6edb2a20134a969681d3bb9a19c0447b472af01e0d24c312aae5fdc024127f), 0xaf7c99511184dcffb14973ebf74280908eca551d31f73a868df93829b1731358) ((-0x490273770f50bb33b0999dfb274a1f1ace8724e11939e936e655a2c5d1b1153f), 0x2151846879d28f96e467481c1591c1587ec8d704000eeb256bf31c0b0481d231);
  Step2 0x0 (0x8782c8a4e13eea04dd85bbb566330b963f7b7cb6f945e0bb7ddd7be5b8ae3c2b, 0x54a73df5431e84338c2a943aeeacaae1caefe585a60cf35c684d5ad15987dd43) (0x7038fef25d8efbb66e4840ecaaf36fb6399bc9473b0053b1da77e6c079b2166d, 0x892c07a64c96f591cf92d28ca9a92563412d358579a2fe6ec9f49d78e1fd123e) (0xbfb363a6421ae9134bcdc4364cca406c8cb44a4f9faa04d00a94cd7a5b5d2c0, 0x7118f4314b4abc3730be4147a97221196f54d1a8e941fd0e5676728fda8611cb) ((-0x49743eb484d8c9f4036049b521a5e3acb578daed0b821d54956acddb375622e), 0xc767520abca76fd772c9bb1de1cd1a6f8bfde4c38e3dc7fc5c0d1f8a5297da20) (0x161df91c9377bd0ba1cf9c653805dbd8039591aa49e8936e4990b0dbba87403e, 0x7de30a0a7900118d3893711819edfaf64c179391ec454d6c7dfc63051709e854) ((-0x1cc1212b5dc3ca8616351b2d4d091bc43443f35a627e8294c6461a3e2828678), (-0x5576d9fea797fd727a3e993d4393b2b9632bec5260e6666d072980dfc193b6e7)) (0x0, 0x0) (0x0, 0x0) (0x0, 0x0) (0x0, 0x0) (0x0, 0x0) (0x0, 0x0);
  Step2 0x1 (0x3c1aaed8af91decd7c61903e8a396227b873e13b5302c27f9504d7666dcfb55f, 0x43e9b31a6213bba8b64ac2300c31fa81334acfe18a5154ac11153de519c58d4d) (0x20b69e6d129775770ab1fc9850b638a6b4e4aa5571a21c7624d104d26a013681, 0x4734fbde0529c0eb369d7b92b9d21c3695a4ed0c3c246051c659627d2996fd19) (0x5c69f658ff53a93322d4cc2d73cafa59fc5caf677677d27db5550fcee4cc0ad3, 0x8c8e05575886d43634923d8dfdcdb2e4724459731021cf02518bd6a0defa4f94) (0xfb7b007776e281aec67817830db89f9213acc3498c85e8b6e5a7130d63995b75, (-0x1a74405b3124a87bcf033dbce0fabda32dde768e1336afa7284a5069c88b6f642)) ((-0x1ecab24f7dc43b82c680ec8e29ad5ba1a7917c26b01d281d2267a558d96729dc), 0x2ccb42a433c65878cff176f1e067e91ebf48312493714b2e39d64751c3440ea5) ((-0x16f0c4a7b680fc183b0a79d85b5c28ccb886caf8b57d24d43469c2d4da117015), 0x3361f34c2aaa6cad4ec99e9e5a570a7dfcdcfb1c7628176735dc1b5892ff3f38) (0x93599068687c28ed7dd7ae20ad46d9f85de76bc9cdb5b047d8a83b53ed928256, 0x1b40d67142a457f62918240adc91018fe38bad457177108645a1f057df3622bf) (0xb363d4de9157504f8f2346c82e205a687504c9cab7513fc9db69021a9e3bb3a, 0x5955cd2af84f15afd43dd5032d80ed828a2f8aff1446945cd4dc28e46872ceb7) (0x2ed43cc0ede2c97b95c9f70c9aae97722dbffd2efd6c4858592950f768d6af3f, 0x183e9a14fed9b2e310d0e15fe6b7148e8dab4c8ed50741f303e977ee99668fed) ((-0x8eb94cedffe2d9ece3390da3fff41e978609bd29ee29ad54f1b4e88b8e0b88), 0x35dd82e22712cb7e5cdd34ca75615b43e3d43da279c85b31e9feaaa80f94d1a4) (0x6efb6f2210881321ec284941cc29c57bc90eb33f014c3c641e2f8179667b50bc, 0x2c119a4e727d105ab6417bf2030be8fed3f0ad7f68c4cc599b23997adbcebbbf) (0x16ce44c541cc0fbd8216c0ecbe1c504969b83482e3095cd5d9d578303cc2e37c, (-0xb7101b6d38905d72be77da0e77d0a197f83d41974030c97748c2a5bd80aebcc));
  Step2 0x0 (0xb53de78f3c4bff98ed7b2c68d017a453f6e215b193ec1b341f9b767cef6b783f, 0x86c68efbfd704b26be69428a262d21d3c7dca73553652c2c917d917efe6d78da) (0x30baa8e7d07369e97390fbba658d58a31575d6dff9d2d5d550c99660130a21f2, 0x3ab4e14f9a44e0c7400f6d5ac315bce8640e3cd338ab530c57650e543eb328d2) (0x708131b6356d6069cc679910c3e59d5494b452c18ccfb9c9a068e65587e87dd1, 0x77a9fb6080509d482ce2e439bd629a08c50161dba2f5184e43d41080d606bd75) (0x11a188e99af93b80357a2bd354af4fd253521ff5837304bd194318668d12d5244, 0x5481c70929f31feaa5c1a173b2370df6775242eeef6b09e987bb9949b112ab46) ((-0x1318b52b02da2c2d60ff9d12d5f34f31aabfe44465b0a53b97d11cebba1b0071), 0x10c0f63907d19e5b7df6efb51cae7e9c7ed888ab8801b40df3cdc43618afac6fc) ((-0x529c299a8071458cb111dea96f9cea986800df618b076484c30ca1b3ba21068c), 0x2b6fc4b1f0de40f354e4f7a5fd38010fa35826bf7e53549227ccfefd2cfb8bd) (0x0, 0x0) (0x0, 0x0) (0x0, 0x0) (0x0, 0x0) (0x0, 0x0) (0x0, 0x0);
  Step2 0x0 (0x2ceedacab7934371f79b2d01726e2b2b509777f55b083dfe48dae6a5a4c3a95b, 0xa16a00f28c279a45466604c7e094536818c7c43fc5be0035044b92cd0072904f) (0x7eb227f3b4be2ad1b9e56de56d39300719d437430ae193065f3629d9f172d3e5, 0x4ba346690be9a90e08cce19735ee9e144d410fc9dca37ed3fb3bda385e93a773) (0xff5092c84fe1454afa81d01a8f26216ab7758d5324f9daa7ec46bebd5e5bfb8, 0x523cef17895e8f23e44af2ce76912b4be9c379eafabadb29377edbeebbddd3e0) ((-0x12614c4a69b025fb27f3f7a5c0f41d1e9c7b269fcc38c6a1c662d591a160568d2), 0xa41c3552c61e248ad050ea1b2cb739ffb8356a7c7cadfb72eea608b4ef6e57a4) ((-0x112d7a90e60d8c932eafc388b962982f3e3ab517422382f1d345853aed657d99a), 0x4f978eb0b7a616d887f90723946b73b4d96fa83c08644b8e7f0b5f8f472b41cf) (0xac4c912204603ea1d830a4487455af1961b36ca5e824492ec77be8b8217fd84, (-0x493a3be7bdde150869996c7e1cb197c46969501d1e5bbf1248486dc33aee5751)) (0x0, 0x0) (0x0, 0x0) (0x0, 0x0) (0x0, 0x0) (0x0, 0x0) (0x0, 0x0);
  Step2 0x1 (0x3ab0b99dfc596abb07cb575e6e4199e4c95acd0b175d8471d775bf25ea02a47a, 0x7e117d7484d8acb5576c8abcb0cf5e4b556c47f09e9982197306a4ce520178b) (0x3465e4db42e31b18c2c63c58b5c97a88129857adf0b90fad8af00bb76796280c, 0x2c47899d178fb1847f08c157959aedf10a2f24d1346ed168a62fcedb6ad48dde) (0x4a95ea0b4ad34752743b50f89e946b04847a182ae2c222ff9a1b16e8392e8d24, 0x29db7993dadce640159f67ec76bbce06e9148451f28be09cef5d062d3c3de9b0) ((-0x4fd2fca6c5a5b81b428d122b3f9e2737328520782f8369e3577f036e14f64e99), (-0x10524b5ad8e5871ac47c348e2cb8cc7406e2fe63fb1f992ab5ca0763f381a31b2)) (0x123807f4b37a1b78989711fb6c92e68c06835118ebae525b6c4a301522d61b8c, 0x51323175e30c0e2a02150df8b0ceea1f0e3ca0109fe0dc0610968ab95934818) (0x153700768687772086a0ffcc27e9338d9969fdea9a2a4e71c912d1c8bada85c0, 0xd4f7f4775eec5434805517f59316b95eaaa50aa679dae7e1a1aac12ee931969) (0x673812fe07606a804070ae1aba725de97b6bd22a6797403959bac69eaca96929, 0x11722bdb0a5cf43a2fbd86ed67a6b6f450f7c52f02eec56fd098107be56edaaf) (0x19a8475df9bdfc755358cdb8186fc9ec28c57f6ef4ae8a1da64a6fd2d78eb520, 0x669087da8c6d1b0a5c61fc2b58b00dc99599241934d7acda27f880925d6e8f1e) (0x3adbc54bab8f0db16731d3cf80d3f76ec490a89fabef1ceb7dee4e75e02a1bb0, 0x8b5356fcdc1abfa53da87a3f63816bd9c20a6fb88e274f52998b486c0f05d35f) ((-0xf910ca95994441eacaa27ca6167d81fc4b45f9e5f87b9288302152a5e8b378e), 0x32e591c1b6d0e20bf175cf0a5ebbb960ad34e9572664bf63b1a3aa31ed8bf3ae) (0x371e799d7c9f18dcaa58158e7c2161b8eb3388bdfb7cc5b65ee89dbb3834ef68, 0x13c2eb0a5b9463c2c56ebdaeb4af953fd8a7bc02ddf018fb4459714f5b972fe5) (0x1a4db876ceecac149d353ad0fc90a7916aefbb2d4388d5d963ee25c628284bd8, (-0x1e7358fe6c7cd81263bf8eaf2ada3ef9e80881aa445c1ee8bd7779b6a62e11d7));
  Step2 0x0 (0x23d3529cff66661eb93d93512990f5aba0d2f75e6b7a7749418a43ce7cb11682, 0x5488eefc0217702b380e9c0ef62a1e6b7b5c746a52ff1bdfac5e85ab80996456) (0x73e8afdbaa7ff3ce5d69b9a795b9390982251717357391060b0b6c9b359ce2bc, 0x481e89d37b825454a9c7e1908ace4a32cc55775edefd1bccce69058f052a59a6) (0x340613f2f995ab642e7892eaf9bf27818e31c6b471e91a7b58c8ae399980b337, 0x3b3a47c41d2ae6f6f3e863c6fc888768ec5054c8a21e430ee59c8aebcba4d8ca) (0x642013e3de5318b3c22b654cd26c4061193b22bc10c04fb4423c4519c8df1ff0, 0x16be0b8a528ef8527465756f37e6fb7a06e52fe01bdb44f885f6b4bfba4105ec) ((-0x476109a862ee04d2c88bffad662c4ffd8d253566f6b435824b066bf42a5a1bc0), 0x213c0eefdeb9181cbcc0780a1bf140f7e3187c2e62083c41565a39df048e972e) ((-0x2dfc0b775b86c32936eae47406b93eaa20932d7a5d6a9c54acd88b7845ecbfeb), (-0x23e0aa4f4b474bb0d485e9335b9fed4dabe80750769dd539cd3b75aa178583f5)) (0x0, 0x0) (0x0, 0x0) (0x0, 0x0) (0x0, 0x0) (0x0, 0x0) (0x0, 0x0);
  Step2 0x1 (0x721df2b6693d22a609a0d8192a30801215cd22ab099a7ba40408dedd995dd60a, 0x4ce0c9b834f8fe1ba5eb84e7b8305fe444d29021a932b8420d5df0e1efee75f7) (0x7738fc9f6e127ac8249856fa36695273595d7a3065b5b829b5854732b98cd3f0, 0xa83ac6d465c8d44703d340bd1fa39e0e74e6af92c8842eaa8629b9d32842c173) (0x39f4e294f692f069e92aae1365d5480005a492c79a32b181ba3732193b798984, 0xa6f246ecf886af274aa875f69faf2727ac3a2f52b4d396132d2da8cb1292013d) ((-0x54b3fdf77730c81b1760cd686e0b0d565dbcd50c267f7ac5644f291eacb7df74), (-0x9d2402a91a127a645577f4c83ae81011b783c50a63975e7f48f187dbe68e8e7e)) (0x698b2e78c390dbf79cb09970eaf6afc52d1b28fe3e8ee6448fbd20300e736e2, 0x60467fa0e9595bb5360dc2134f750a9b3669f1a746f97dae0b4742d84a0dc251) (0x4f02532064cea425b496d4b6d9cc0c9a3ee54ef218f3a277711f403f5d08168f, (-0x3d93ef5a8bde999259c092c12877981c7ca69628bcd8e78674dd5d50c8290219)) (0x7441d647e423cba8fc6e4bdc4eca6634775587960e7849027d146cc559a165bf, 0xb3c7cd8f3f0ad06053fe8aa07b5441b9695efcfb189e8ff0af446729de7cd28c) (0x8a9a571ec737a3c605ccdb01f6f35b4db233e85abbaa6a0053c1ee3a567f4c99, 0xa38a559daf9d62097f5eba0e7b0117a1c228f3b67011b4c16ab69d63ebff342f) (0x5f42cc777573abd66e42d15c2c62acd61fa9929dbcd9a4b1d5cf1dd3d3e5f82c, 0x5887eb81d32c063a419c65646055a307d8473c7ca531221ea7f868ed0b4ca5e9) (0x1b46431e0c62e0559512f5e93e00528cf50ec54d3bc0f494cb5440995e6cf5ea, (-0x5541b01789ea5b484bb2e305448c2b8a84918a8b0fb24de345062fc9df41331f)) ((-0x1188748f3971d88d5ae6639e76adaedc4c2a36cc361e6594561f4d9263d1c84ff), 0xe55d1e26ed4d1d09c03021f98e8c8df9dbbe081bc18ac263d6ba66a69a527129) ((-0x159d32600599c2c901a8d44c2cc05db5df0b7e942dc4c0abf888a6bbb8d85073), (-0x10205d65f91a8bf1a44ee67d0101a7158c1b710adea0af8a1a3a3f26b55c6b0e));
  Step2 0x0 (0x25dc7347684795565690572ea61f986dbdafd699609a0fd6826643aa8ee1afff, 0x5ca5e1fa16980d44a5902bbba19848d63414d6cd9d2f333ce3500efc03300cae) (0x4ecaa89700004826f6edd7b70c391ca643f6170336a6519f402b83b8651bf555, 0x13e22882ac13e9c34a47810ba9ac28aef7a4fcdd6c0f54eef5266f9ce0eaac7) (0xb2403843b1ef8ad4d7be2e976cbe06f54af6b4cc65673e261fe494afb40f7fbb, 0x91b1f3fe53c2b9ce0f25a79e0febabd8ea32db33dc5194ca5d0a551b470c971c) (0x1a7d732c4a47ff3fc18e8b3f67b72698b43b1d3d45364398453feed77ddab3b9f, (-0x2649b9b88fcadf514523ecce1fb02405a7eacf4ef818cb4ffa89282fac403207c)) ((-0x5654be8e1d839bafade9b72b4ffb43659514609f0c75a65ad6fe2dd2d719dca6), 0x267e70e5889772b5c115b2f93558a83dd1f43512f85fc47b0d4455c6ad839dab) ((-0x9895b49e65f6448dba8306ac7da7890259f9394a0ec4366e7ba5390b1bea94a7), 0x401f2285cde254037cdafdd0a9ce4913bf75249d21bef380c3087082085d7ee7) (0x0, 0x0) (0x0, 0x0) (0x0, 0x0) (0x0, 0x0) (0x0, 0x0) (0x0, 0x0);
  Step2 (-0x1) (0xaaf78a59c85b5329b5bb2c71bcab2429ba826257ad796c6a2dd1b82c9c108570, 0xa122f498c894143311bb5e195c5dde565e5b5576e5e9603302c3873046c1945e) (0x38a0b5fefba19d69648dea35c1b654a109f3deefeb0890badd3ef6562e036b1e, 0x3d9aaaa165231aaf9e07fedb679e1a0de490e39bdb24e386e7462147e277bc34) (0x77cc1d6cbc8ab476547f6aaae067404c70d3547a519dd1b5538b66588a72b64c, 0x1fa0f6a7341e199891c5e3f307a03d1924920523094b7a0fd7511a3c7bda7b3d) ((-0x11af9c8d7b8e77835ce6a3cd67ca4b9afd1e8976c87433e136a54c3d0c7785529), 0x2495405d9fd8dc341c6855f1ae9a5cd8e2530cafc3f55d77b0e801890656cae8a) ((-0x7c8e40f8107f659461e00bde7f2b0057386a1ac014070d3ddbe59dc5a91bfa10), 0x12e523dc528db652de251e7faa9303d5b05f1b65a4a17856f5300678a3a178ed6) (0x7f876c0807079fdbee9fcf1e35d720b4dfe632ab43d50e3822dd585f8dfbe579, (-0x25073e1a1a16bc34755e0931ce828ffd8118900844ed0b78955933d559071de3)) (0x6b4cf6fc1cb6e81b4719113fd54adc650068ed9e57b0b0c56e7442772e2823e0, 0x58d9adb54d5388fb362833c9d3de3a527f00399274c9e8acd690d07176703258) (0x686e046d0752038e00b218ddf24e9b46a911bacfa3a63b739e4b624822a15c02, 0xae78ee4b58248295d3787663f2044171cfd07a8bad6be767dc55bf02f5a27ca9) (0x9614e11297ca6f3da728899bd0bc1f7891f92aba572aaef7aaac28d29cc115a1, 0x3f6b2ea4455169ab3a76a61dcefd3b145401cf1f782099c696b0df91ebf3a9cc) ((-0x4728ba15c4cba6a080a2a323e8627a2ee96162e6c0bb0e67f7b93d2eaccd4101), 0x29b58656f8174d092293b7c1abd9332350d8c4248ca92b60ec7ac75eb3c58cc7) ((-0x177565649717e8c9314956ccc55b3786741199f1ee57754f2dd8152c506a42d7), 0x689f46712386ac331d3eab38d8c7b82f739fedff11421829e067e901e3fb8d0a) (0x51e837b197328ff3d0cfbe830324cbfc6180c641b8e3dc3c22464781759fbc7f, (-0x59c19126a44c7291390d8af3570ccf9ab7135ea6f5723435514192ddfa123a3d));
  Step2 0x0 (0xd8eb780cf8027392a0e697dc95ab80e872364449385ec513d7c07949f1cb899, 0x616a6e870610ae09bb4ed78995e81123dbfe7e790f1699abca4c64fcde751381) (0x6b0495427dd7e7d2bc082f5d1f4dce4e32f388f350e1d215003d5d8f5e1a19ab, 0x339468f782efba990777b22576dba67a7f50678aefab43219e79e1af2cb48513) (0x5b69ae6238467a83f5477ae3de6d8a4339cd69259bf91bf0a361b81193a3b63b, 0x9826ff38bfc073c59b6a7a8a8a50daca5eab009304ac5b8a54987092396af92f) (0x2c561478333f35f75d28e6d9e755b93b2bb6517d9b4c74829ec41c6eb280dedcc, (-0x1adf6155c4628076ec49c4797562969a1f4f070d47cb3c9ed78a8ba507a9837ba)) ((-0x6721da849b7c277dac843350831b03a3e5e5704b1a2ba820eda67c47e961d940), 0xe7e50b4892350f7c798e8853a8e0c569f861f780aa9ca681514416ef7f15e91) ((-0x8391a9ca041145f2eaa98573fc33bf7760e59b74df13b3ee0a6a7ce2aab3ad7d), 0x7c22e0b3926a1af560cebd4bb6c7ecd3af324d54d1d269297c5457893b4ca2a) (0x0, 0x0) (0x0, 0x0) (0x0, 0x0) (0x0, 0x0) (0x0, 0x0) (0x0, 0x0);
  Step2 0x1 (0xa73b2df63e9fbc621011287ed1e384cfdcffa9cd159c447e9dd6c2d5f9d8dc47, 0x5953438ee68850fd0da8a0103ce8e726be64bd26c93b5febfaa03546ff9e9f87) (0x4cde992ea0436f82a9843cb2aa5d3d88967c484643df963d4c6578ea7f88b78c, 0x5b39a62c96eb2ee9d01a0a613f54cb178f2846e5e51f22a1d2808e71c8218ff1) (0x2b001567ec3cdb5f720e5d36865fb6cd25e5bbaa69910b06ece6750839cc4fbf, 0x90012ff59975beff4fc88d4c1a124abfb487d47c64fb294303cb425821a3ba30) ((-0xe778c27a8f0d92f4b6e9288716eb71d74969b75a57ca4abec2d8afc8781ca34b), 0xbb1baa5b7a13a31be1ead267d7e71593a243bc9ec112218e814218098a39759e) (0x41e39330209c123ca92b02cd8ed2e06ab25804db575d191b2a9904a5aec56fb1, 0xa3eda4d51282691029e36a20a836cf9c8c1a33a07620a7b9c986b7a84e46c3e7) (0x4286c0125e613084dbefc49fd26afda70cb92535c9714e1e1a6c48cc8c2bd93f, (-0x159a1615142f930c997cfd57586340c9a31f3496f93d9f55d1539e826e103178)) (0x27d0919b177b685cf746ec5e511090390eba707d49cc389f30da83871ad7065, 0x742df8155912371c617485feb8c3af61122b5574b0a7be94fce2596d71e1b723) (0x82bb08f78906524b165fd85f67edb9bf705ecc08a15704dc55213a12fc4c6b96, 0x5d04c4359cf4c32bba3834df5d8a3332084c5fc896399ba503177dc87cf7e9b4) (0x97c91aeee01874b792555b085ac6fbf28300cefd017e6db82c743788f1e0f7d6, 0x8aa4adef62b5d84dd62ad2aaeefecf1a24bb55fb760b63dcaf6f302e0dbb6fa0) ((-0x366dc2a11a265963b13e076df832fd0607929bbe25406c8e04fdeb4247548dc1), (-0xd4695954381bf12e0a187fc82b9cdab81aa9a2a43d5e88a2094f445463a95fd)) ((-0x9416be425026aef3c5bae7f69a50734d7744ef886f8702f32730a23036a2d9ee), 0x32c2fcc3ecc7b8e8e2ab18af19d9a4456d0278074e6abc6c93262b01fb93f18) (0x18d15accca1543c325cce82913adb789bd8f24943a2478d73e07b3afcd25ae7, (-0x225c0887f22451d70f01648372d9eebb3b7cc8cc59527735ffcd27cf98ef1a21));
  Step2 0x0 (0xaf6fd1c99b5dc6660d753d14dfb2c559ac4bfdc0adabead11bc371585adfc132, 0x35c8ef48c730df2bf711b31e18719aae6d89709f13b1da3e5116502bcb058d7f) (0x49bf05d1538aea6150a9ab8a24cbf7aaf49ef343ea6d5cd5ebaeaa8c7a01fe31, 0x36af5df947b68a6771ac2850114134530b1305a5a66da0eb3f353f3b997b6d26) (0x3c91d9324af18afcf544483929af7a4648a956e17a7e4401bb1d2da6da478a5c, 0x880f9b1b0baca553100de37d8fbc6a3c6cad8cece39627037067aeafb5bd5bf6) (0x8416bf2589b607026bc7f2526aa5448dd73de58d1bdd9b5a3b2f2df2f0689ebc, (-0x2bd51ef777705574335d50d63fb9e144f8f55bd150401ac064b371cc3060b8ac)) (0x8921f9c9243ae5ff9993976c26a92829bd477a92638b358a28e6de7d547de109, 0x678c65e724ba36ac9766ec3925fb99c73e36fa287f7a5aab7be22d782e6484a6) (0x203a791216b60920fd85ed3ecff7cd0b68349dc77c195372b04d7c5cab7eff74, 0x35b7b1858d27e97f825ae9235a3f5e25cd8076e265c01fe33ac9761284613d15) (0x0, 0x0) (0x0, 0x0) (0x0, 0x0) (0x0, 0x0) (0x0, 0x0) (0x0, 0x0);
  Step2 0x1 (0x40b140db087e21985d3dff135b9a6cdfb207226aa2e150fa4d7215b740b553d, 0x4d9f9646239ad05eda0b009c825f3da8c39bb237e4af349ea2f7e69d43c970ee) (0x9cdeacd90358ab9b62153368f3843070748a8fca18d013ed3219f1c90d16d53c, 0x72fc8e2a67b5538d2fe66c8a8a8bda2c6061ade383989801a2c6cfeb67bd1a84) (0x9a7629036e6bcfac3c2bfa99832f5e2550fee52885b8e8e702296f2cfd842b74, 0x663fdcf579fb84b7ff240d00385d0b9a2a4c141038d6a90727b2a2e4ba327fcd) ((-0xdc2fcec62716d6df16b91fccc6eff3f29c2f9be932677edcbc983fc4678475bf), (-0x4b228fc05cda0fa608b20c6957a6aee52830b28cb3288e16269259f2bdb2dc38)) ((-0x42085535615e595728191ca80de2c0f40edfb3268f4663428525353d3b9668a1), 0x371b70ee13bdc2633388ff51ee4ca724f2eecd227d5fcbb1d35e42358e6fdcc) (0x3185d403c973969db60f7d04b2c5cbdfd83088b77a0de66c116eefe518c4ad0d, (-0x24bdd8a667934578bbbb733cabb4e362696cdc14530417f999b94745c3ece45f)) (0x3132f9bb68ea8f6027be5972900fd547277f977dcad34ceb3dea6b4a618cf6c9, 0x478613476c91243ef3484e9abe7cef42c23ace337b1d67e62ac30202fe9e478) (0x61fd12c1fe817e79b943d350e20eabbc0d7f514743e278c93a24ad4425c585eb, 0x5faf54a81ef146bd875af1069ff6c5c8a18e58edc32cdfb776b789e74414c68c) (0x589cb88cccc0ad2b07879f22b4c41e4a34880e8bd6a180c0d255e6c72d3d6cd0, 0x310458f7fbfbfbd00e7736fde1fb4fb5cceab95db9351b2b8e0d8219e3d2641d) ((-0x1c618b11dc094c9e2449d09a9022b45ebfda77efe1e33450b7fec62ce347da9c), 0x28d4b3d86c02144e4b53e0a3be490cad00536026c2ebef799e58e51b18f74f4) (0xd0fecfc05f4c9b76ed377f60e74de1fa8f20a895cd378a721cc068697a7143b, 0x269dc1e9664891e1b6d62d8204bf2abf46cc23e89da86718729e20de915a8cb) (0xef2c85d943f9924c12a900e35b3bd8adafc634a51923a8d2cd435d5166b4f39, 0x6a7a1184d33691406a6ebf4b8c67b428d14330aa40cafd6a679b9c55c2dcdbe);
  Step2 0x0 (0xa7c65eb5a245f86065be9336fe18806f8173bb97d739af5e0bcdf8e39a9ea722, 0x347fe1f78eb089b16eea31737f54fc39093e4c12f342c2a00aa5d65dfeacff8) (0x1e58bac24dba5c7209971ae795b39c988fdb73fe374d5bd67b6ea20f3d4dcfc, 0xc5bcd20995c5019abf25f8edb9c6991144e69d02690614d93b563a95d790f96) (0x9abc0056121623eb782adcfe97f5db582fc90a7c5447367d61308ef7d85bb579, 0x292b4eee897f1ae3f0294feaf869ab2d0683b9803f2aea960b1b2f2b4fcdff40) (0x12efbce0d127608cb2f355ffa9a0c4cd4f1b60a8fd0a8d4d2deedeba9b84a9179, (-0xd73cc05848cf077afb170807f9c4911c2252740fbd1a46b9b5574fe2fbf66d34)) (0x9a54cfb74da516865359e4aa9e95f7b48d5ef99bbae50e6eb232a2d09942729a, 0x60a8da65bf4ec2b845e63288bf2f2b6e36077dfb73548b1ba6d1acc3cc5349a) (0x55759e46de943533c82c755c5e914c3eda4fb443e5432a8116618772009fb139, 0x4e702c057963c875aaf4119028a8ac7c999f7d95e22b329cbde4a8128a20c6e3) (0x0, 0x0) (0x0, 0x0) (0x0, 0x0) (0x0, 0x0) (0x0, 0x0) (0x0, 0x0);
  Step2 (-0x1) (0x9eb069fbddf2fdce0466f97a0163f39c1fedc1f21aeb76ffd8e450c0f13b20ac, 0x7187fd32eef2d58328286d3b56ad7a42bd97ed46efe6516bbd73f603d80079c4) (0x7b23a34a5cce68443c2a7800cc4d8e99bb35a1cf5e744cc8ca7e393c41ba152, 0xa936c62140da4259704dca9d3c6258c2eb67c56e166e930fd8ed5b7d97f3a5d1) (0x97dc91d46f1f04f722bef04d1608fa29be0b9449ac3a653bb0695393a2065579, 0x6e1805ebb116a2bfa3b24c5844623532eddefa1a66333a98975456e92eac9b8a) (0xabd8aace4d97abd1aae5c8cba5bef4192ab71aa6bbdedc48172359922ec528c0, 0x107b4097bc10ab3e30f6b699a28d72d925e51b1393c78534d25bb5692bfc7d038) ((-0x345ca1d0c4775da0863cb218f738501018de66dddb6f9eaf2d6fcfcf83d5262), 0xc5b551dd8826128c0cd700686ddf6f5daf85d083805ad4bac3fdf110a80f255f) (0xbe5fb4711ae131c8c61121e4e8ae1192275053205f7c0824552878f3a959a476, (-0x8c30b2381edde99e28eceda257f14af9dcdb66bdfe4904ad7a57533b0e59a63e)) (0x16fb0fc3b7f4ca887ce4a608643f6b12a9b18835eaa1e4e7f5c3156123c34034, 0x44e12d17533c87ee1a26019b75882a42d69aab01cb4a30dd9fb14f071b5e87b7) (0x24faa9c86cb532b3aaceed4f5b42eef5439e8a0a711cfa1de1e49935ae30663c, 0x6c181298dab87013031a2c840679d88cf0f272b85d03878a45a9601e38768c08) (0x86533ad73a938d0d7171a2fe648904641883abbe569f84024ed07ee44926c29f, 0x1e954d0428238a2b2c5c9f6604e76e81955573c6a93d9adfa5baafab5fa925cd) (0x20d6ac1f33541c0f1e6123e6984c3120ac156132eead95cc021bec1b05828f04, 0xd72dc34eee60a63fc196ce5affb84f7ab24da3cab9d5c30e032bfada56780bb) ((-0x312abfe3a3e8818431abf70f81053c24ab81df1ad1c7eca5b415f7da050e55d7), 0x115ee3f65c433c12ea656c2cb763334727501368bd3f176bc63e64ed59903896) ((-0x31e44ada02fc8040b8b2a80a365ea480b3d204de0caea9e5c1e57ce60f5c7756), (-0x35c3e09c179b1dbd6ce795e98a4dad3c5d87e0cdac6181f8ca2a38f19df8b3d));
  Step2 0x0 (0x1b9fecb9b65682e8cf048410aee7629348c634501559b7ebacae86fe6f1e3b14, 0x1eff31757b599b7ac63391a111ed3d3a416429c89ce8aee1dfe0d4c33250e45e) (0x277344d815b5fe4d2624899467cbe2c1c657d1ddb998b8968082a62e58872b09, 0x3dba308845d07ffa31aad76ffb162f5b15cdbf096d22ec385a3d65746192df2b) (0x6ebf7d26aa388f9dba8d771cf7662198d7fe9fe331a19f386d0fb19b73a06e8c, 0xa4358c36f71687735e61325fe66cc971926ac7b5d336c9a1ee2205ac2230d51c) (0x17e12f634cd3f904f0f611e7bdfd998273ab4cb4ac874bf69964b0a9be1faa650, (-0x4ca203aa6149ca88c5de166f9cb22fb55351d562855df6a8d0b19cc0d6261c84)) ((-0x65b4828e7a26ec696b219bb644a364a6c9805ac69aaa62de3b6a4983eca1c2d), 0x96591645e29be83b49a67e2fb635bd9e03a13d8ce72e6514df199e1de1edf59) ((-0x1025845c4253d305e929a0a5fb39de9754add8ac3b02d3a39be6b2b5f59a9157), 0x69b98664db2b033e5753884bec4cfecf1a6ddf77cb95c101011e6c23001be79) (0x0, 0x0) (0x0, 0x0) (0x0, 0x0) (0x0, 0x0) (0x0, 0x0) (0x0, 0x0);
  Step2 (-0x1) (0xb405eeaf193bc28c0d94cfd861dada605b5c162181f2cb3fa8d4fbcd3270f65b, 0x2914e97d599c036474c7ae0c774b13b8dd17a6d60d998959afa958730ca3f65c) (0x4685dde5cb8c393e4d15394cfa4979a968e503c36a3e2860d98e4a7834f6ee8a, 0x9afb6fd9172ccd2804f0ce694c562fbbb3db2c71090a929e32a3f88c5cd067d2) (0xb059252b2c676f30e6896b2a51640298e66a37a9ce9e501ecf1be3e9bc70e079, 0xdd2860ffee9706158b713e60ac730199a58f0c8570f1d653dcb0fc1d29ede6d) (0xaa8d3a9f54e190e123f7f4bb89be7e4e2caef54ba000dfe14108e5caece15647, 0x12629fc11206bf4e3feeb00bc003d81cb5a040f1a1e2e681ace38f324cd1b852e) (0x9f4d8364c4449b18aa9994ec85238f5bebe2c56bb20fb4294bc5c9a6eeb3f2a1, 0x5128d25f7a6d37ceb84ceae826c15823fe47ef91989e696b054c8e3fc7173040) (0xb59520317b9503d201a00251bd82b39654d858dafa49172b608e1441901e148, (-0x631ea0e614314470cdae0e97c32f9845361dddc28fe8b9b8b297f5ac0d3d59ea)) (0x9cb1a25c03465060774fbb55aa5949b8e2638459c7f22042cdd5e63daf84cc1a, 0x7563e935fc50bdc96f58c7c3a9a6caf094e9bd2ed13e0683b34256623417387f) (0x9233911b821901bc24f63f6309915542b01a6b707949e1d76c95d9044d84c793, 0x62a238b26c12800f46963449c6d525acfdd11e59805b674663a2cdfeaade0dda) (0x2350f648fdf31cd7a17477453a956c92e46c40fcc12d4d022f393ccf621c2583, 0x1cfab6fbadfd8861b0e73973b63d215cf1257890a9aa3309b526f6ef58cd2571) (0xe351213c10b1ac3b302824e258cf966fe52d34ce354f9a80ce9b29dbbd6e038, (-0x1c395876b7094bfeedbd283697ede2f4fb3dc0904ea6f7592ca48098f58aa2a8)) ((-0x108133e3f8003ce9c18e5ffda088e18be4dd086015c80aeeb2131014b35a870e), 0xc9dbba2aff050525ca65be309d310d0e86b4b056a835e81176e8a25f24e4908b) ((-0x89a80e941453db72102cf87328d7a4395ed698c98555bc11bb05bbd9a1f6beae), (-0x4c7e67f233100e768061828cc853af09db630f497e71b794d7277102b6b9c9));
  Step2 0x0 (0x7753195f9379415445865a4b69c356f905e3ecb403bd8f7248f0627b1a9f56e9, 0x2cfa9e951a0b7826607fc0ebbf4286ae1875b27b248c72f2ab8453dd5be0c850) (0x5320d609f21ea43579fdaad1986bf30243b50bd75fa9f727a5d0a776854f3b46, 0x551533d94e664b84a928b224d76c09fc7c08a1ed1ee7d449f4e435613ccf5760) (0x5fbc715a03582e107d3e8c795971a0920fbcf5ce09ae727655db1eeb8545b67a, 0x902f19f7b544c1da31eaa37322ff7660affc65f84af0f1b73cc017417d4fbeef) ((-0xdede5f7b9432ce24c38cc61a3703d7ef82be55d2f84916a6fae24a467183671), (-0x1a35daa27adab36a1cb9122638dc8b3a93851171f158870c6786735ef3eae352a)) (0x37ec896c9f06351d0b20770a3df0b8090607894f97a9d28a89e52bef98d64f49, 0x3ae5f10dab255e034d57d74c434fcb6a68447f9abb54f763db5d1653a7093e7c) (0x229b757fccf6fce40ca748a7e18d3bf099f3ef35e0c0870d5a21663592dd4eb8, 0x187041c8f8ee4c35733bbdf251e7e8c7d93aa6501f74ed74b576e6a09ab0d4c2) (0x0, 0x0) (0x0, 0x0) (0x0, 0x0) (0x0, 0x0) (0x0, 0x0) (0x0, 0x0);
  Step2 0x0 (0x9179623969c5301f7e6b915f9af529f430e7ff1da409a59846320cafba603fa7, 0x10e32c59a20258667b613b8c2ae22a4c15e36b92717b59e9a3a04b86e2db1426) (0x8ed798d4afc975d73069582eb643ccdda68295faf7442ba09e6503108eb9af13, 0x73c36f89f7fe4c34c536792ce636281d6e7c52d56a001acc40e85f72f5a856e3) (0x740f07de0d50a20bab340b466a3df9d04b5748b2bdaf769ad91a83e2891d460a, 0x17acc156eea57b4ba615bcfa78ebf4c8bc7c8cd5ee0d94d84540929739ce714e) (0xdff7f87d30f431a2bdf42c8e43f2cf3f15f9a4e576de61495b093fce7c2cdab8, 0xf125f8fe386548965fd744553b73a760a03cc1bba1be5365f4f008e351660d2) (0x70fd58eaf21044276da468ed96423683bf315e07089afe23712d195194ee3c52, 0x1af59e4de8e58457ea8452e3810e3b8e029ffb74ad117776c9b3f2554b38b685) ((-0x29fa8580cb56b43bcf3de6de95f8efb3b6f0f957bcb54cddb6ac3d8d6969d7b7), (-0x1e05d3109a85a967a693f1f487da4d78b5b0ceecb7b6a3909446716223340aa0)) (0x0, 0x0) (0x0, 0x0) (0x0, 0x0) (0x0, 0x0) (0x0, 0x0) (0x0, 0x0);
  Step2 0x1 (0x6682b10001c29418e6933e36fa468917ec412b9d7fd3b6bd6ad29e711912f6f4, 0x7ac552a6a520faac60165d9d1c59897bd6f3baf7fb4ca91223ae91ab08df5634) (0x67dfc6706cfab32d6896cf39e42394360cc024c520da8e32e10a0cd3ad6d7865, 0x75457d879f7fe5e60c3b246528e6da4e67b248af29d122d048ff9235f813922) (0x2a125db50d4c67493617d20789b413c86dbfb86ff0d2b5914ec70731401b79de, 0xa9ed1803bdf53f27800ab3ff3ad291c6c2cf54d57d59082c9a7a11ce6ab18d7d) (0xac173611ef1f1f29d752fbd177a5201dc64217825078e7918965283557e499c7, (-0x169653a71cbe166486c94f93b821a67d8bade5bb39f18c74c7dc4202c0bd81f8e)) ((-0x6bbf495c66d2678197c91a8ba587b81f6ea40a96481bc374217f441b3f9d1e77), 0x8a1c39a4d60edfdaa362dffdb8ddbd922e5236a125b424aeec713e0da01ca298) ((-0x7c2c1ed8cb826ea07b8167b22003b825976b20575973b5b683df50914e6dfbd8), 0x573dd179d7abce21798060dfadd86882133da66190fe85a14f61d60cbd679055) (0x795ec30c9981311364db1153059fbda4084184271a015401c63cde1b2cd40ae1, 0x24b3954dbb57b48a9187a8e7f6061ec151d0f007885fb6157ca6589b49c65135) (0x843afa7f98e88f9795dd530ac9fabc24241214f386e34635d84709a18b4b8d56, 0x551fcef87582e8877508850b6f0e087d610809a50a01df0327d06f49f709404b) (0xb4a15f69b48738f12f74a6d6b7d20e6b68c4b09e8b555f50368b255613871199, 0xa0b4155f3f659526cd79ace45ea624cd696cfdcaded42996698eaf7b1183eac8) ((-0x53593d62c518aeb260e388236bfb31943f510b88c66c491ac2d9d112c947a7fd), 0x4a54ae410eef8e7d5919ba7085e9ffc300f87a7340fd8f50be6eae2db0c135a4) (0x420b8abdf75d744463e37d6d7241695e54c39bb76c66760c11bf8bbd532c2bed, 0x30e20eac856b3bdb771226a360924c60b5e617066a46da76855cfaa26998232c) (0xc72da89af3cd434750f7b870f9cd6ff2dd6791bc8fcd73ca0f1ee4b1528011a, (-0x3984a5a2716904bed56b8309532edaa5c78bfeb76ce86c62c5a5d1fb705a8f6f));
  Step2 0x0 (0x3b9fc76943030d655cac83fcb0c669a176e53d141885efb2e04166137aa27eb1, 0x8f942d1c2c31d959089bb047a3caedd79ef77ca732568577d7ad146bad92ebf7) (0x1cd2802a48df18abcd423a7639fd01b2ebdfc822cdd31af2892fb8ef5f11e497, 0x7f97580321dd7b5609b6fcd86e8aa277a6397ad3577f1427b2eda886554825d4) (0x40a4520513905cee1b57f27d8c8036990f78ef91393b14e2fce2fcb9eb90478c, 0xb318c5d5456e966acc8466a085d17d25b3a2451a6bf6ca858aa300e06399732c) ((-0x1b57d323ae71529bccef3741a1a8fcef581ce8e1617c99dad2846303cec848ef4), 0x132fff30d53158bd3e4d8830b647e9ffeea6ee3f3c437f08d5c5acde6094f6ca) ((-0xceb84f9fc3299750911ce5e637a1e2b4ad41ae998f76d66082411bb6bae726d4), 0x5df1fd3e18ee656fef97ab4ca60840a51ac15c90f2813279c02e0f23c05c26f4) (0x64be15a6f9bd256c331316e6fd00c4abf81f8417b39b5f928ab2e1580ac010e8, 0x4392a95590753e08f7b780d19e3307c65e9c2393b36a60150e4f01f441223ecc) (0x0, 0x0) (0x0, 0x0) (0x0, 0x0) (0x0, 0x0) (0x0, 0x0) (0x0, 0x0);
  Step2 (-0x1) (0x22d2015adfece111cf9e47e42921d657f4f9d249baf446f4577840f23a212541, 0x542376f330b4f2a25291d83bbf8ddb777fc0aaa4e4b1d7b03724940bf99244e1) (0x8f38a1a0cb9f9c08e06dde554a6690285fb0d6fa271c976910731d6616d7512c, 0xb49f11755a46307ec8efbb6cf5858411da0a21efeca03d8bb887f137145e7219) (0xaa79d210ec8f43a9fa0b9d6b18f8ad2d608c47de20435a265a3a839f3365c049, 0x597884885eca0768d70ee1b36a07696f7306201ad0f60f55d864e1eda7f5c3a6) (0xd83efcb20e25430e85bb1adde8747b89a751a2c698aefbfbbcc2ab63cc6c32f9, 0x70d7f779b5fbe91f74b2c787789ae40b9c7f80a5c1abeadd3516e91048ed148) ((-0x4708f641bee53eb1d1dedd4c9dc4445cafe4f02a0900d91d2528d59e29ed1bb7), 0x202693bad5b7df1835bf2ddaa0f808e92cb6a5da8448ee899738e46d86ba4455) (0x1b1b88f91a769c09f75fd333c44dcace83a39d8cea59dd34640ae09196b13320, (-0x3ef225b55a65be6247794562ffd1262a8dbd55a29f94777e903774a94069133c)) (0x17846a496c91d1daf3bdd3ea3d7fdaa68bf2a96db30b3ca4a2a9a32077905432, 0x784b8861fcf7c93f15a2f2de9ebec01f5169d54fe353aeaddbdf2222358250b4) (0xb0f1d118edb16db96bfaf0437b5858e5894faee0f08068f6ca0443d0fd72a627, 0xa19c45c275776f7c95f449be4c80ddc6b4ed82b26ef45c11dde4c03d039ee844) (0x154a99957ec47dd77e1227103bc11d429664884a59187a11366ae00be8a6fd0b, 0x3518a19cb2e05b011aefcfd6ca8de4219a71ddaa2aa9bd976a64cb2675346803) (0x3298c28f87f7ddeb47edf9b6a5f1a3592423400ae86154eeb3cd922c67f01b56, (-0x4032e5e0925564a860f575a188f236f3eac60dc368f4e9c8b3bb472f700d0208)) ((-0x9bc4a284ef7ded49066bfc6a3a97ff845bc046c11121e19cb9fcf22c93bf9b52), 0x1f0b9cac8028f5e6eeb7269a4c97e258aaeee7196975df2a6750062d34610c1a) ((-0x1d72b82bd724751378dae87ad225b2c04a07043ebb09c510eafda7644572db0a), (-0x13ce5ffce5e61fd84f1422669d20cbc6bee255a49c4814595adbd7fb3cf198a7));
  Step2 0x0 (0x8b303fc31bea41abdf7ae27733a09b2a2c452313f748a23014d7fbac5778c133, 0x23f490023007c3d46da5e1a6f122d71e0a12c5b5af22b15aabdf89c32a71eb7a) (0xab9cd98ff650e0ac950236e3e7e6dc976431a1ee51e96640f7c6dbe44d7febdf, 0x91956b30274a7649cb9d297962d78b439fe821fab564326f7ad145299516ddfb) (0x51dfce96e636b56a4b283a87a4a91cf94fb4712b163edf010ff991764a93c596, 0x5383104bd63aefd0d6a2a8e344915088bef1b1330ecc21a9f2f525b441ae31ca) (0x14f16f8d73d88e607bf48583ab20bfd4e930ed9c721a199ac54dc96606708bbc3, (-0x353eec14eb883f3d2a549ca8c7e728a7c4c28deef1df4ccc80589a8328d2dc182)) (0x5c1d4d56b701da06d0f759d9f719a5f930267c9f0164d95bd4b2bd0f69a4f8c4, 0x36eb77c191530441fe019222e9104e5fce63e3f78e37d61d76da4b455608afcd) ((-0x24069a106bb8db03c7713721090d71f703cebf31903ea47ed3202fa43c9cbe1), 0xd4abb36e11fdc275c5c0eb2bb764d89bfec4ba908749a25d6d359254e8167a6) (0x0, 0x0) (0x0, 0x0) (0x0, 0x0) (0x0, 0x0) (0x0, 0x0) (0x0, 0x0);
  Step2 0x0 (0x404c6ee457b18dc1f9064a72d49a10b8221961d82fa134bf4991fb84aa0caad, 0x70f265f35488117993a69b856ade3c3b97e396fc3f31c1eac46cd9a00a814535) (0x26ecfeb3fb8ad632cfcd3db94dad39412c1fe711b609149a843b097ce237bb06, 0x915e355367b2bbe107333a247bbc51d9e2a0d0ce8e3a2ec026664c2e0bfbccf4) (0x8e73ec1c67617be6c4e90caf1499bf3362c1341d4c4ce5e06b0a413706e5e1d1, 0x9e418cd5280b77a07a879453c2cdb623e740892a19f2604ebc9bbf05157cd890) (0x990b28dd810626d47fff2e9043742c5e9c35836d805547bff9275d2af9cd113, (-0x2cd5ade470c571764acc9d7fb36cea9e788f97ed6ac5dd74ef92e37ab2da0b016)) ((-0x8be7e5843631aa548fcd4093090ad944ead78b86b6148ef818daf872db0e5891), 0x4fb23e280695a18185f1063e2b19e41066916662d126d2b67c9baf58b497518) (0x2a89182d9efbaa77aebee9dc812733bfef8ab4413168aef7220f698f275fb38, 0x523c510d71f9176d8e2c04c9b417f6c63ed76691fbb3e11ae5feed50ce551de6) (0x0, 0x0) (0x0, 0x0) (0x0, 0x0) (0x0, 0x0) (0x0, 0x0) (0x0, 0x0);
  Step2 0x1 (0x3bf0c9baf234d9108d3b049abd2c200dc749b2d0fcaaa47206c36628cdea2935, 0x8eabfc5c5d7fe024802dec64ffdf2f910c311d30c615fb4928b79e011b5455bb) (0x9edbe801757acc52b120bd62f2d01a303c21542f9b4c1d3b6d367095ebf011e9, 0xac38d931edc0cc6011be6e73704d0f955881335156379508b401c4dde6f33eba) (0x1128b2dff390cacab160120097a68f1e5b0390b9b75a4b7be7e8806542ae5ca, 0xac88fa1d54945cd4a95bb02bed78d82b78c86c6983a1fce515067b11979f9726) (0x10ce806472fc341fa1451f2eb3948dd3b0a3638df29f88cfa46130be1c3740c16, 0x8cd7b4e0cfe05a299a98452f4a03545da0dbc3f4889f1bc4551a38ead56af61e) ((-0xcba9c948d919760ddab907f00de1c72c9f3601aef247e6d38a442ed09a6eb046), 0x5dd8e5df430d893f9805a3971b1c1e440fadb87df1d078d204b1fea9fd14a9bc) (0x2997c0f42e6d220473d9f8228f9d35388aa4a3f33ed0e7ce21e7146acb9ca72, (-0x66b85a13982d337d50e120066d072195c3f46bfc286583105c70bbe558cc47a9)) (0x5db6bc2f1c83808d43603a2d1df9a34b84ecf470b92a8fa0cc3a5d9599c9097b, 0x806238d30f3cb14864a5c8c9bbbddddda3e08f7d1fbb9e1e80965bc855bf8b61) (0x609a8cd82a1b5960933743fdd194b3c881b7ba015c10a719333d2bfe7e12103a, 0x3d8af32937885deeea4fd1dbd699a93a328628fc0ed971be0c492fafb9b7df0d) (0x222aef5a54d453d94e1cd28b5d1d3e6f77dc129169b5a4a2551a39ecd4ebce60, 0x887d068888e118e5461350273c59fd1d8cda0e0ee5f12c1b6f39678d8ad43144) (0xf5e674be454fd1b4101268ab3c788f43299f16cbcd4636951e4dd58ebd1557, (-0x5ce253a67934a104889500b066abe7470f3a4c851d0a471dd03f8617d7f528b5)) ((-0x84b03acace759f63f5527adc566d5d800b4cb94a074b72226db6e9187b3c1933), 0x8407eeb6d34fc4cd931a4b1328cf797a0f4c27ed20bc9e17d5bfffdedb3eea46) ((-0x7bebd737554a8431c4ec84ba08f7e2ca8492004d40271693c423446f818b3d1b), 0x64c44a69f90accf60dbf41cca8dd34981f5a1811c186009b0b4da7ee93bea054);
  Step2 0x0 (0x33f1daf5677054bfa53afb8b0af65f1be52c970b913f7b04a7f972104a6fb97b, 0x41555d95048e4340a37c50d650503d7821db8e2c2162cb6d53edbd2306f79171) (0x6aa7515999408ed833502f19be2b47e9d8dd7a500fc274d3345b866d0c9a2ed9, 0x9a78f0c845702f1008c0e688b09591f19b9ddc341c6e0c97abb490a362fd0b3f) (0x46a86521a07263f15aa1420238c571f7c52115531282c4b64f2fa02b8155f460, 0x14a350df2c8e0f930d8630a77d0ff2b41f65581c59e0e47a76a8b6716f737a33) ((-0xcd29f4eebc1efd79271e434f59e9825dc3858e12ab51339ef9781cbb8f1c733e), (-0x5d6d94ec01d0611a76e1975b4b9601b1a54d0f014bafe9fb57d64db2f340c024)) ((-0x20095cb294513690336b5d3a36659d0bdc7cfa7e81c50256803012199a1957ae), 0x253e19ab52a21e035cea0b74270e692d6e2ea211068277d3c26fdc24831708c1) (0x3fc34f0762b924c75380fee3c74c7f89f6bcde43012468029d64b79602e1cc2b, (-0x1e16e5782847c2a776182628714af6d6e45f7e44cf37ffc051ef996d74cc7f1c)) (0x0, 0x0) (0x0, 0x0) (0x0, 0x0) (0x0, 0x0) (0x0, 0x0) (0x0, 0x0);
  Step2 0x0 (0x6cccb2634f4f255d971f44aea9208d4b24b06ba32175c79e27e0400b921a3ca3, 0x492277e74f49236763237b42d28fbb98ed4a56d08242d74d5870bcc22ac06bc) (0x375069f6e4e975394090386efd3c29a65af384d5c6507b3003df070d4c36fad2, 0xad7e3c04ac7ddb00ce563ebe89d1423b405f719e912638273cd770176bad91f6) (0xd3556b3d11d8a202c2a459293c2a1607fe1310946be2f4c2646a84bdd06b694, 0x5bd335bab46f320791ff5fb2a4a5315fc874c0e9eab5ea770ccfc656a243d485) (0x2a89ef32a561bdbd44ce074fd21e685b4e38241eb10a83bca5e5cdd66c1a97d9f, (-0x20233f30789f3f2a3186cb361d880a23854e591f59e65343a053a93312a1ba7d8)) (0x40b8ce42115aeae502decb3ade5a0e4ec5376875eeee3420c9e54b79374644c9, 0x5751e06ee08d2e8dee737ef6f0adb2d91508fc5b69f42be39390f3e0bf9d904) (0x1f9a4c6a0420e796d20ceb75a27323bf9602d64d5aca82f821023c9bdf10c1bd, (-0xa113d9d855471aa502e0b2f43de68a6f12128e5238c0e3411dcb89950d4d9cd)) (0x0, 0x0) (0x0, 0x0) (0x0, 0x0) (0x0, 0x0) (0x0, 0x0) (0x0, 0x0);
  Step2 (-0x1) (0x2f44b1a3363dd1848947c6b5eb1764dc719f8ab13b9697713bb5c4d03aa8ccbc, 0x66211157768ffc71fe0688dce8a8721da4f009f1a973635588d4672ddd47efc9) (0x42a8ce126959cb49406bb848f02ec6c663769e9a83b7cff8090ad02542a712b7, 0x5c6e8547e9a001b66c041ac4027ca16048f21c2b9acffbd157887620dc09e0db) (0xa955ba93d8ce92d28873045425759ce17eb5c7c41935a2a621d631e378ed9128, 0x5fd323f426fe8a9c2b6404301f52cdbaabc9849ef3a16b5ee1d4a8e740a30835) (0x2e599e1a9b09e528f40dce5d54374d9e603730cf80e8504b261e384316250eb98, (-0xfd80d133cf263cfcf0f6a6a0191dbf838fe9b3aaf0b727fbf59ea92d28e0d1a8)) ((-0x6633e33c225e6d9e0c5898638e84cd219b535c6cea48ca36bd029ad5f9025d31), 0x34f9f667a1a31164f7a34654c38ef4c7d9dde590308938df48a496f786867305) ((-0x5dcaf43f33ada8a56e66b581899a20ea3c5b29a0762463e3337217eed1e088e6), 0xeaa99b39f2048256d07268d8f61517fa3789d01343b5bcd4678b61eca3e7c11) (0x4d9134071fe0cb3454fa99e58bd3abc16c95bcb0428c70cff087871b8ef87d20, 0x8949d0bc33edc878b28da46884402d26f07444ffc7eb5f140caf69c9a77b883b) (0x76803b85095c4af65ad3019bafbebed157177e9af3edbfc9c5458383f267e0f, 0x1c93d0156cc98ca490180dd1a63be4abfe9cfed2513ce951cbb5237e3ef5cbf0) (0x55bcbea363b18f6dbd187100aa5007cc1b40519fcf0732086ba8d877681ef52, 0x1856bcd69ee8a6c79875f3f6a47092f2d5e454a07d8e10f859b8c411a6a26f6a) ((-0x430df8e95bb11888f73df40f924e002c784c133b8a095cb120a3f85965c6c3f9), 0x8e02033027fb82ed9668b9065b1aeb1edd039f380b45643059ecad43b859e63) ((-0xadd30f6df0b3c21e1f689aafe963efd47bddd233f9625a16f97fdaaf33f67c0f), 0x74dcbc35cbb058375ee4687ae52a05cd890ff1abf5d250dac76d49b03acc07c4) ((-0x46fbdff7c4552943a131a2f5fa7e27fe7192c97f32ac93b9985e63784e80f0bc), 0x47cfe7536b3e62c4f6124219edc16725b181f97bf2f890687bb4ee0ea363daad);
  Step2 0x0 (0xf5a4200a7e4de502b953bae6f8bd967e1359fa96fdbca9268a7526f78e20eca, 0x7e13d24f6911b5c6c7fd105994eceefa0392760d07d7dd660c69e45bca28e4ad) (0x593260f4f3661e58c78b0ff0968f0297865e4084de6fcafa3ff1e0089ea8fce9, 0xa15f4ef2eea7432f8c9e567566fe2ce43c45239336dab18a7065ea01a789c068) (0x3df688d95a6d7ce0b017843e3a36cb041457da5c8d184a5602fa4b445d8e51a3, 0xaf1cfd58db585a0313d61398b1d9f3b3e4200bc916ca100487eabec85d4668a7) ((-0x287671cac82e68ab5094546e21a3515a5a032d4ae5a2f9a4aa3f4371265ee43f), 0x48be7fbbbbe3305f6eda1a2a548915c610072931a6384ad4b0c4c52c1e3716c) ((-0xad24a3ba900952a571181bbcd3b3bcf67560bd9eb253ee2cd0af8dea8f3d0f59), 0x153dc522d471f54b58cb173d6597edfe75bb27dbc0fb8567466f5d3d2bfef46c) (0xb0d72cb72c07dca18ae736489c1de73e725f192d8f08809db5db3ad1392783c3, (-0x43c48ce87f6e277ff59033a795cc77ce0684ab31d57303fa076a4c0f28ad00cf)) (0x0, 0x0) (0x0, 0x0) (0x0, 0x0) (0x0, 0x0) (0x0, 0x0) (0x0, 0x0);
  Step2 0x1 (0x56ec9948d95845916e14523c8eec2afbbb01207699c3af936dbb1b2a140c3dbb, 0x7f6e3f89e0802ed8fb9d4034407a422a23bfa6463978b6cd31729e5f17087743) (0x3e8f12c801776e6e33d2b7802d6912ed8f7937c49eb9508fcb284468e5ee2b25, 0x56d9ed57080d1c5051cf25e4c6e572f2672c985dd30337f455800d84c3d09f54) (0x21bf816c3eedcb64066391e1ed1378cb878181e914720448a5ff0fbc90a1aaf2, 0x3db3789ae0636ba312922dbde064d1c75187e6bb1d96c957cc85d4f59c8ed0aa) (0x127b29b3bb320122e94302e8558d9533cef9d0c9865630e030e7716fc900b71f7, (-0xdc2ea57963eefdab97d02bb6d3d4190fdc5b38e19fcc9a3b674437b1bd526c74)) ((-0x88be1650c551b99c77e7a4761177e85c00d5a0d724a13063f15ec3a09e234630), 0x798e63d1c47dcc6aad422b41e06c4540b865f13237bef17296f2b274c5a52516) ((-0x5b81a4fb9f96e8f891b61b7105bdb02e790592dde1c42cbdcbbd6877260c2435), 0x362b13ed5139a429aadaa8afc392dffe532c84d9bd718a667b99fd9bd736d8a3) (0x52b2afbbe294c73a2a87c893e9a58b072ede1e241c36b22d64f0493739fb3a68, 0x4cee555eff20276011c6b984427bc61c593b327594decb4d1d7fdc842e3f47a0) (0x22845c97b50ffd04edfff79f0a4ec9a5241bf177d916c4767522eb41962acc01, 0x6c66feaae27a500f774528ce63a40c13effefc34d458a70f5b57d99a4ce708af) (0xb4695fb4e9fb6eeb50300f0a6413f6437cae631b882810d1e1b1d814531466c, 0x3a9117e1e97139228def256a6de45841fed88b61614298d1e385b479c637fe61) ((-0x2ae7fd8280908f76dfeb2724f0d4e5dccde0094409e0ebdeb264b1e8ddd22ac9), 0x121ddf30908db0d87b74275a398710880607733af2678318149cdcf90e40c24c) ((-0x1b6c3960f9c75ecaff540551b54628a3fa8698bad1019405da5a61265985f815), 0x45d10d55d0d29f31db2c4ae09104b963efd9924b86863160f8a22986fcb2386c) (0x1eeb20adcc2667abdc299aacc3c563216c8f41a7819275b85124ce905210b4aa, 0x20ed4c293c5c4335e87038f4fc0879a50d69cf611495d1b0100f34183e62f01);
  Step2 0x0 (0x3c28bfa7195c6ee22bb4d059139384e294bdf55ed146417b39cd600d9d3ed76f, 0x1be4aafa925f6e64ae1dcc69f153b210ba52081f37f82382b92043d64839d034) (0x89a73935cc254a4f32cf6e4caa067a5c3cabbea2b74822fb5f8e3270628e3858, 0xb229f767fdae8096aeb48b6fdee65a6e1a8ff861eb843f4a11e86cd33002338d) (0x56ecf7675d77ce652d1c18f08c629fa36e0ffc82f551f83d0ed560c27b4e9800, 0x49f282abaf54a215595be6eb8ffe6012c157da8c8404f28f27da4c7bb34e19b0) (0x152d80ee234d55c40f7280e65d6726ba0f45683061c2d50d65e1054b02341c9f7, (-0x511173119373cf603d5c01efdf536781194840132af7ade7ee80b272ae239d4c)) (0xb51e8610365659272b480c2f611bb4534abe672851469c7ad601117417393f3, 0x126a25be0050fb548fe0330e25850a8089d6fbb27e0386f6a56ab09491940471) ((-0xcb0c107372a2d93e832359d7f9cadb19e957ea60f29d8b7cd733a4d0e13b8d9), (-0x26d008b19e510979642d583c24942ba32d7ba5a9971cbd735736970b5da09e2b)) (0x0, 0x0) (0x0, 0x0) (0x0, 0x0) (0x0, 0x0) (0x0, 0x0) (0x0, 0x0);
  Step2 0x1 (0x95fc319fd40ddbe4a20c4e2ce2e58eeb44380203f73f8ae88ac4ad6baba3c1ae, 0x415af0bd07ab5860172b88f63fb8bd046f5fb857d6621629a9c1f92ffb5c4d5c) (0x9fcfa17c9efdcfdd8c7249edda5c3cb5a83a0956b691f09cbee399f5adcada2f, 0x5a23817f9a439f60c190653c168879a9c399ddedcedb4cec2899ed0ec473dd80) (0xb3e51ed44e38685ac4a58643bba799895ae471bb1e1c63cc015c58387f30ff64, 0x1881d67eb858e0b1a1e3b57e9e69f176a8300cdd3a8989da3b10b766b3cac387) (0x3021c8e92422653cee804fbb67872b40e39e70d32d2d2ab4699fcbdd3daf734ee, (-0x26f58c4173d1d899b729fad3ae2623bdd2ca98251c3185082f7d2699e5ffe8ad0)) (0x4c8f2c091e7b6cbafec927f41f66276fd9712ddb4d4fc73b3dd00d30dcfe7969, 0x6b91e9ae67c1d867289d220aea6a6e44080b0c87fe07653380b701a3eae9a02e) ((-0x515dfeed539f138c6b3ca5ce17f699a0ac1d6b7565a4e0f96f9263bbf4d62fb6), 0x407ee7cfb80762cacbfe24166b7a4188379a6a4e971b83578b8633f08b2b5cb7) (0x3773d5d7bc3eb37e5ec7bac79f78e973d297553c37e4757587e5287eee5450e8, 0x5e2ac36f3542da253bf09568d2557731ea5cbb36b9be64fcc601ae4a5ca703b0) (0x4dae11781e2050dd6463674baec8fec5289e7890f609654ddbefc7910b73dbea, 0x39b85b8e8eee7c72078c7d16396377b2c9bfd7bf5bc702ad9988488adfb4b0ad) (0x9dae2d5d9ec7855c891884451b8f818ecc961509d658963ec7f27c07d97dd4d0, 0x146861f6990f6a00ada2cbd1e528332fd8707400a06d7e62abbfe8f5ff57439d) ((-0x4cd90d923483c92f1e7a67ca891ebaa599fd32befdf733bad7acd49f833528df), (-0x28d615b8877340928eacb41062d1848cdb0a1ad9fabaaff82028db56143f4333)) ((-0x507036d3ba609dc72d15d317214d9af153ac29741608b8629f06722b69b40344), 0x394dbce115c255f285b07a846943854476b9c0ae52ab589747f4d80c953cca7a) ((-0x882d6103e64cab0f8c2783b78b93b69365fb0bf06ff1aa6796f14eab83b8abc), 0x344ce161ba6d0eef82d3bea4fb7d4d4768614d065fdc872ab3632e422a10f7d4);
  Step2 0x0 (0xa71dbeebc79231023397320cbebadf58b3997fa8645a768bfbab14deda00089a, 0x2baa4f0fbc7e1015d5515ea068919041c3374f3d275f6f3ce00f2dbf7319d6c1) (0x746704687042affc3adc95f720d03569c3fdd0e30b84a775b6e3ff42adeb8905, 0x260dd66eb3a658e45f8e14264a2998070e43582757521f97d8a1a978e55febaa) (0x2262312a8076d3ec78b357aa8dec2f4545a137c8d8f34a391ddb99c83989188b, 0x6081cb7fafe6d2e24fd885cbd7b769795874cb833166f848caf43699c9631966) (0x117f870990c9a0933e835a98adebb5bbdf55ee9fe657dbebc3d808aa01ecc72ce, (-0x22a0c303f082d64cdd7bcf97b070f33d7ab2761f0546bd802c72bca792fac7e8)) (0x8450c89fa5754b5c26b029156591c0d6b077223ad948f572fa7558fd91381a3d, 0x501427246a710ec55508142bd8a2170aa04ddd7b2a43143d8a0d76cc4df056f0) ((-0x2cee3b34dee865ceaf646a52c670d149bca7b0180ffa8d7a3a3daa92f59960cb), 0x8c16abedf626cf181cc8ec2f6b5c57452a9df8c783926ddde35f8fc245ff430) (0x0, 0x0) (0x0, 0x0) (0x0, 0x0) (0x0, 0x0) (0x0, 0x0) (0x0, 0x0);
  Step2 0x1 (0x95a0dfa8cfdc53962f7846fe7ea88a55f4c65f5b8abc928c86dd2f31f474edf5, 0x87ea5273699adb7d18c2782c04599f921e49d39747812cc6279c7b5f64e65d6b) (0x8e215a24925461c9ca5ab2497f7d2390fa0f3a68649cbb9751a3a35b09d2184e, 0x8083957699f6656a73b97a4d4db864a4c7d775312fc1dd50f43856f59a95a38c) (0x17f663aed0cdc3c86e76251b5745c1a5ab91a7b6e13c1f0f2663f8507c5ec0f5, 0x72a1a4ea6c2496df881a3df7cc496c47448b8a9a9ecd56edea48f2b45a8f5fdc) ((-0x196ca4856e7762f7d79d361efe71255222f3c969da33b9a96c3324504b678fcb1), 0x3feb791340ec7bdc0bd4b078a38f37485dc7be1c6c6152652cb370f4c305772a) ((-0x4fe0187bfcb0251e740d01796eefe1044986ec686354672636e6a89f121d7d65), 0xdf2cb888179a116fb1bb7b887f7eeecda96174cc75b5cbf5c5b73575ddade506) (0x71ccf60c339007b7e6764e8a130d02bcdda7cafa129408527399e15d374342fb, (-0x5d7480b54cb5cdf296c312634bc139e8f008cdebfe02121362d0ce422695c47b)) (0x82134b3cb466fc9ecc012bbcb9afa3aa6738fca73c0e2d02b379aaba491b07f8, 0x63da82a4182393975ad2a1c511a9ed06875a34a549ae7e6a2dfe7a455f10beab) (0x7e8824e2f21d0c3ddec002fd065d19abf89f3465635f932e85a1cfce173796dd, 0x7b665fd96df823b683ee3502842052dd88145fa6563aa9c1d349bcaf74ed5d54) (0x4c3accdc73a536120861e68e57b34e6eacb96e21019e22756b6c11787ce08a0e, 0x2369c5403e1826c53dcf8cb0b50349e2a159684d6d519e6ad17b1e2e48654ee2) ((-0x43c14c9e71dc5607e143b3a879380df8a3149370b3ed43c66cfa09d68b6485a8), (-0x2bf98f559bb359b9ffad36ed36798b4757d91a43863c419116394d8289e20def)) ((-0x1094b42255223ff46f3a8b726da270f42f49fb03dcbde8aba2a24732bea4a618), 0x8e88ebb7913028fc83a5c5613407f820fce17503101d778cb1f0899ba8587b1b) (0x5876a7ecb26b64108c4c92d25ac677358e2dc12dc36c917955eb3127655da49, 0xc32429b58344296371a65b516efbf00221e4e0ccedfa8aef181e21edea0f081);
  Step2 0x0 (0xa1bdfb97bd9c960e9607fe045daee2380ceb3e49000ba0aa61b483d41dc5895b, 0xb22c93b1e5461fbec97c57cd4d702d79a662ce8b88057481733a41c5552518f5) (0x2ff2d57b5630025cae4fb857dfa2883c54fe309b882ef97678008975a2c52992, 0x5efd6ab2e0a2f2543868c0e937e8232f67d933656151e97e57a2c167f504775b) (0x360bbf4aa47b1f8e878b68c33a5a43e5d9f6135ad3559d982ff61dd4d18198e2, 0xa7f0dfa692e55893d117bb1833c7602ea3ab2708491ea0e332aba5603bcb9280) (0xea97cf6c0f4512f2b1596453cd009822aef21b009fe0acae187fc9806a9789e5, (-0x12e22a3cca63f4f6e398a1b4c6fa0154f83b9ab516c56c69a5d0f1edf88089a20)) ((-0xccd63fb50fc1e09b59e85bcb88f57ea374a4cea71feda6d465d38a7b1e5c8e89), 0x13c3ff1ae796bb77b612ab0cfe949ebdf13119b73df0b9c349a35df465f8e6ac7) (0xe30fae9ab44e35c8e3f2b39c594de4211608c3d3d5418df205664a1ae3d35cb, 0x6609f6959d080bda8f62413122e7212b0cb6ab9e9a6d8568b770c5b465a52408) (0x0, 0x0) (0x0, 0x0) (0x0, 0x0) (0x0, 0x0) (0x0, 0x0) (0x0, 0x0);
  Step2 0x0 (0xb23a5c168c69578b4bdd16f31a1eba5511016c14702798f995e2230b8004dea0, 0x3bcc816b04d5b51a7b78ea7bc355b8ca93b83369315a4cc27cd460dd1fb5810b) (0xb3e03c3b9b49ef0c09cf4b8f94572cf607841f021abfe30bc3bc8fe568199a5e, 0x8312b103d3a4477b8a7ccec1c46d51801d8234367e94ab8c226dafdcb30fb8db) (0x7ff0e3d028ff223ffc11a82325129c43816575ee0b51b24ff3a6ce2e023bc88e, 0x5714ca5c4a28fdd70aeb64963ae6f7e370cc14845ad2e0413bc2a5dc5ad30136) (0x9080a5683ed5bfdd2c458fad683667026099377b43799e97691b10741a0ea212, 0xd5fd36ef98615e612649a9c20c352b666cf902e76ae418dac48a63001d5dd0a8) (0x870d8f5f3134316ca78b07c5f04019236461079c958a5f0613f7035bc7ca757c, 0x74f554db1ab9c3c406973fde5955069915bc84dd62ce26dbdee768f5cd77de1b) ((-0x69564c6502b3d99218359ff5c9e385551478e18e053446e11f1786292d198ab0), (-0x4e92f575a6d4b738d28b10d487a3c88514f0bcdaa7549271c44477fa53488b82)) (0x0, 0x0) (0x0, 0x0) (0x0, 0x0) (0x0, 0x0) (0x0, 0x0) (0x0, 0x0);
  Step2 0x1 (0x860309805005f304b016d27dfccd99d6b9ff2eff258fe90c4e9c8fd114474d68, 0x171098dd45afb0c85388122d1e21990d83c3aa5caf92fbfaa1fd53af74d1eb98) (0x834b83954828cad43852bfcd9fc0afeca1ea7f35c1c55c5d3d1ca54f057d05ed, 0xb54c06f205594c317c3709c9a9d85ab709e6d78dd7307b1167f0a1c51c220f58) (0x75cd4a0f45ea036c639f9399d744f4a48b8e6883129c791e46f2d5824c1e03f7, 0x471c075b9dd3b7b247430c06eb099fcc9baeac8a36f8ed5e4c804e95ea4cfb34) (0xb113387ae8cb283eeac61094138dadac5fe2dc0a461de16c088ddcced1ba6272, (-0x267bec6fce32d27665afedc04f1dfe6b14b72a2f7ecaab968a0794e39f8e41aac)) (0x5cb41653b75201b89fad605633aa241af31956464c82f8b1b3ef0217663ec723, 0x21eb85fa669de37f75f2dd1db49bf19e820bdaaab2ed7b65180e56a2ec4a46da) (0x306f4d4ea96212de20d0d38ea09a29eacef5aa2423e3cec9b43f35d57159608f, (-0x1ec84cb98d31dfddd1f43cad0e740fd31e5b6035d684ba9fd41445cf3d0435a2)) (0x10914c2a578e6b047751c368799b705a8f482c1c1bec1657254ada450c03fe68, 0x35ebfb4d1228c7b08ccb427dc442eef789e238bccc9a0da957f374a93d266e15) (0x5b5e9b0539346efd294b0674db51c90c3c1a669b77ad510f36864d426b343434, 0x3e6803bc4febfc9dd4d442c68996e0a3588ba9567b21d7658467dffee9375d98) (0x12d3cce04738cca2d48f4446d18ac07b01e5aaa83f4307dae3c98ba87539614f, 0xc0008ca225efcc6a371f1c8b43c8b7705e35314f33a6cb029146f2655f90b1e) (0x15404d38c51a1fb60232532dc5df90cfcc47fd01516e684f55bccba6ca888c1e, (-0x1adc98bb8e2344bfc1273e75f1aa3b3a2b74cc0bbcd60b51a9546a93bffa87c4)) ((-0x1e66bbc62cfc2393453ee11a1f8cb13d11fbad8c7321a9e9a2f1b57c551adfc6), 0x9cdb8d042057b610171703a5cafe003d8a1f621776cb0d5f6cb7235535d248b) ((-0x42b8e607f68bd7f938102916ab90bcda107f4bc202b0be2fa00c4c963197be76), 0x169ed6f6b74e57ec1b2077c0897cec456717366ac0fb22597919327445858437);
  Step2 0x0 (0xa0c4cc001eba8c7eb536991d290df8dd585750fb4fa20ae00efaa52993efc9ba, 0x1168676b37272e4651a8f783f078ddb8f0f7095f85da30b858d9cbddcd9d4cdb) (0x83a13f5a0b4ecf425f98fe414a6845cadf0d4f484b2034c7036c9679c2719e78, 0xa8a9dff5a14d427b367dc3f608c57a88f80c0983c75d29a45148a76d7d70a970) (0x4d12cf11a6b48422d09e8d4ab6a42093a15509f5fcbbad28f4199572b76cca32, 0x92c0c51e959c7bd3a99e3db07d9bdd3d8e9d54d11af53409569dcce167641650) (0x136ccddb1921a2450709a23273fa55c3f8a4065c6da5f359ac94a4f12e605a04, (-0xa2f40b812f69199b20ee7a03eaac37d5fe42c4cfa8daf8984f01b0a504537ad6)) (0x8a7e73674e0649b9c375006c98f9be9985d2f9d5536948ac06c3690954a9b07a, 0x1eb6482e0e783863091d23251243233a2b24e86d0a8aa30723b886b1f46f10cc) ((-0xf37645d47ec1d2a86b5fff1b593d30069d5202b87467b737fe9e663259e420d), (-0x61941c13b435143534380365de8d984a1627cdeb1fb681920a956f51d20d5cd2)) (0x0, 0x0) (0x0, 0x0) (0x0, 0x0) (0x0, 0x0) (0x0, 0x0) (0x0, 0x0);
  Step2 (-0x1) (0x56ef9b043ac7dacaa5b968c1b7742c8885825728e64d0ddadcfd211d9f84befd, 0xf37510ae59f74000c8f8e05f6766df5fbbca74e9205bc9f04715f1f5aa82eb7) (0x2c6faeddaf1bc700e55d0d88cbe4cb100874d60f9aace1174358e6014f84b99d, 0x708e30e5bd621031fb50ca550334790d770cb1f7e62be2c4634fd5c4aca05668) (0x526f0e70409ffb84a74a491b967f9cbf3cd53db6fdb3f9e849b0b3c8714df7fe, 0x277ddef54e62769e9f2552c209c35b98a22b782915fd66f4e3a70516dad9e923) (0x2a3da1c64abed672dc5b7da70fc885bbb523c9b383e184567b98f72146b01fce4, (-0x24206abd11c162ae9a5988f6b5add5aa799e5552d65b5fc1311308510ac46e834)) (0x26edd0425f5319f1ed752cd1bd9c940e44c408ffeb5b62242c88d9fcd1fd8862, 0xe843f70e83b29f8cf3695c0672c8b7b07c3d5860b2f71d658a9f0e55c8e8586) (0x203944054019cfae8a7bdfac9eec5c811fbc932c33eee882c2b16e3a46f9b73b, 0x220b524f9f8f5ccdbdeddf4dc92615ddc699d9ef9c8691e2024f1587e06b91aa) (0x55ee598570ca49a46a2f0aef86d8007a2e1ada8b040dfd11e1a91a6d1d9e5d69, 0xa2d827b7799300417b0cdd42a014197ccc183752f8ba75c101355b05cc1943ea) (0x8e4c39175cee271e86faa17abe52d3ba1f84da56567c8ea9604a48ab5a5b8eb8, 0x1bc18e2901adfea570e056f703a3b50e9286831ee36e46cf163abc616ff7d3ab) (0x83716db916fe26977ba3f1b9e33dbe74b01c7566062c939fe57a1c26953e27b4, 0x483961d046d61a44e4e646050a4be52e532a6910b5128b98bb9bf132f7fbfc09) ((-0x20b65b92c153739f297293835a5fa4dfc14edb5568f2c230221c7334c3d6f2d5), 0x1385644bab1e1c4fc2411f3e9cc40d29c40357cf960ea1265a3213536b3b62de) ((-0xfa7e4fa2541d85b5b23e24716c87a79fecb7d36180d3525ce3a1b5dbe2cb43b3), 0x9990030f70bbd0c4266bd6650622b74b6a27fad783b8893d92b81fa91596ab20) ((-0xc5ae93d6de57daac84ca9142e6a533bbbac40f98ff5668b9189cca3c09db2dbd), (-0x2f755943da858c4f8c5e72feb444d8dd69f1938c1836d492899264268d3115b9));
  Step2 0x0 (0x2b35ec4703923decfd41cadfdc9e3bbcb5d290cfe158278bc58114f8ab6de3df, 0x528b59dd378f75b480750aede03ee588b5b4e9a5464bbd7543260344562f06c3) (0x882a2eb415f10a01d3ea725261af6d96eef844f5d14e3fd63af0bee88b4fedef, 0x387eced19d128d95490adb0ef5bb041e8af7e567a559c8521acdad778e4ce246) (0x2397d19e58f622e2261d8b15e23de3a10a6164dece3a14f9ee23bfd78cfbb46e, 0x22df8fc130d2771bc62922bc940745b88f9058cc0a1e760ad9e2c10d62ae0f99) ((-0x178772ebb3b984fe6a6a7433089be93e9509fb31011220762f502173eb442cc96), 0x1748faf1c67c84687750e2271cd652af86887f403bf09e13008b9a15e03cd02e) ((-0x4086d0c0dfe37608b1a512a4c00c04387a9bd24b30890e3531f07475136177f0), 0x27244acf88cebe2236e538ce641c823c9de28e628c3fb9aa3bd805c7cb7f92f6) (0x1b7cb76772501f06d5886465eb9e5be09be3591ca4e2c657700eebdbdd2fda23, (-0x409455353ea4fa525b9630550818d3cac2dbf3d8ff4dd705cf8cbab2e73367c)) (0x0, 0x0) (0x0, 0x0) (0x0, 0x0) (0x0, 0x0) (0x0, 0x0) (0x0, 0x0);
  Step2 0x0 (0x94822f9e9405efabe99f23128d01f8084240ff26d552cc9961d6123a4a417b77, 0x1ee9fa97f192d58849036297bf892a5f8768294a5195686585e0611f20c6104) (0xc80716e75a99998ca003defb3f10f0f591f267a4819298c80ee719eaf7537ef, 0xa1454481be634565df94f0e29effa52d7c4abb9e90a843de59fd30dfe7ac0859) (0x509629d9fd05a863790a1fa3358e27c95571ef69de012abadd95e2961aacc815, 0xac1b114f9a3638678e14c2a553dabefa6d2014a89758b2dadf03180d3d58b9da) ((-0x8f9803dcd5b5f1ff14c27c62693aa271b8303847ba8088df646a29049ddb02e3), (-0xc3ab174b8185e04dd7197b2137754ff4ac259c94a506db99dc38d21485110786)) (0x78f913325415cd842a8d03cf7281a006631bca6b0510358baefc57bf9d549034, 0x3261989845cfe2510dfdd6eddec6c5fbb100d69efdcfc1fc48807dffdb5dc8f) (0x66fd6520cba5bbd9a3ac70412e265f44e721ec7bbade8dd5f79468ba0c340c79, (-0x5410f985a2cc5f2ebbd42569d857dbb02f66802275b33f07ecef79238690bce8)) (0x0, 0x0) (0x0, 0x0) (0x0, 0x0) (0x0, 0x0) (0x0, 0x0) (0x0, 0x0);
  Step2 0x0 (0x702857632abe61654b086f9e06013484a0729017953f76ea9c68ce44bbece7e2, 0x178b8677709bdda9860b742bdd2631c03aafd7049231a99bb7c95b4140b37dfd) (0x6cb03184737b251f946c1493e4832f68099d44bf4c71112bbc30feba378ec802, 0x43517eecebf25464ee01ba10bf9e83338c3cd54040ff6ec1c41e01c6378fc45c) (0x6fc7b6f779dfe19dccfa69da0ef356a9db26fffe1ec76949806102cb33a1fc15, 0x8ac7c9c91f8738174c2dbf7aa7e919bdf27736b052a4baf9a21cddae601165ad) (0x35fe9c48fe090cc8e3a28c9abe9d5e9fc678ac591575a7b6ddc5c42add3f3aefb, 0xa646a195b6975a2bb9094e0b8ea1500b3094e7d7703340eb1bc33a8e8dffd560) (0x3ef0520b7b2ae2f4613a92628afd98032f5250a3a35f610298cce35a2411ee7a, 0x1cfabd65a2362ea174df2763adec711e244f59eec95fdc8c090a0771ceb07b1e) ((-0x53781ddb2eadb823e85d8ea16151d5a000d4a11024317fe34242203349405daa), 0x2d646c02ea1a9b88f875160a491ee4b2576d192e213e430f720377cd4ce7a0fc) (0x0, 0x0) (0x0, 0x0) (0x0, 0x0) (0x0, 0x0) (0x0, 0x0) (0x0, 0x0);
  Step2 0x0 (0x81e38e392c3a5c29bb7ca2745c3d733a244f2c5ce58723d870d8c7fb89651d5f, 0x449dedfc30943382ac3d84849a0acc0aa59c3b78abbc190322d42b251f290bc3) (0x816a3fe06137f6ef45d8fbfacba532a2e28bcbfefee835d4816750dac496f9b4, 0x1e6b9fe01aa72d68fabb8adf23f4b4afeba05f8b76e9c153f2bd2a096f3bf43) (0x3da9c07ad86378d2c69ec176038c2087fd4f94ebedd1841d7f19a4d6957a05b, 0x448dfb46bff3a3599336deff94438e9b9f03c6c7c301311721f8ff2161b8acc6) ((-0x5eeeed936447e2e6f3208a508dc8f629816fb566571bd2fdb3fecc5917f1429a), 0x291b7827aa19264cd467d5f75c304bea3e21029900c626ec5f07fa0b2e567ea4) (0x28e72786b9db35ba46c21ac85e88ce48793a7abc937266a4cd810b7094e3ca03, 0x61ce5805b3ca331181837482991c9ea0ed042c43319e6b0b516ad9463defe3eb) ((-0x4007e269f6948d97ce3d7b7ba73ca05791576faa7937622d4f3bbfda9d4f8c24), 0x26d1a2aed1e07c5a05354395e9c550b288667a7b5417b9e887259f7bb9385b96) (0x0, 0x0) (0x0, 0x0) (0x0, 0x0) (0x0, 0x0) (0x0, 0x0) (0x0, 0x0);
  Step2 0x0 (0x11cecd355162cee9dcfc2b51a338a6ac5bcb8d122e05c89c430f5e0bccdccf75, 0x66cc43a707b6acf14d6f8c172e811401db64c18d4cc8be239c4390d820b063e1) (0x8ddaa1c6f936e41586d464ae11209393216962c12c5ea6b2ac28121c4425ae72, 0x36824bd8880aeb2dd21dde860e1733df9efb422f506f28ebc9597dae71d0a3b) (0x50dec405c26e1e04b51546e7bc096f27c9b4b3faf9d200d4f8d8f3f9b33d6c7c, 0x3c5ce63b5283f67d289dcfdf9da7744ae33735f8964b975a0458c08282227608) ((-0x1ad7de9eef2d63c919bc37ee5aa1aa8a8fb0b78cb7ddb93f4a08389125a79d434), 0x9a4e801c6311f6de0b8e476a4a0afc59fda791d209bb3f0411f24d552ece192) ((-0x7239dfa8e96998a007b1363e0346725fd3a58fe188b2bdb5bddc2a3dee713edf), 0x1416c6189d3623670f3e8b93dca2b24cd0a22b9de5602564c74242e9ec3b74dd) (0x7ba397bfb7c1e18cbfee95ff9f6904fa5c48147cb65559e5a87bd7bfc32ebf, (-0x729ce88ef52c7615071e1c2a731cd76c73ed07ea52723263d7484a5f7b7a8f4)) (0x0, 0x0) (0x0, 0x0) (0x0, 0x0) (0x0, 0x0) (0x0, 0x0) (0x0, 0x0);
  Step2 (-0x1) (0x79c6c3e3140a55d9b09729fa6fb3bf8ea1755e3005d6a6bfc5065d8e1c2338ff, 0x4a2a293a70a71b2ed0e89d5415bfd4226505714365398575aa82ead34b909a77) (0x99d6142d4404bf8aa386e184f04c05d9da5433fd5cbc45ba913e58e8b50a1fe0, 0x6c478de9e5568c634895530098ef519ecbec4ec9c5d2cc66c724dcb886f0297b) (0x7377fb2dfa4a3ea0d9e77c8ed0021dfb0e3c7b4713ee60cd572420cfe9b50674, 0x9d7969d4eb6a0d7faa99c981936ebf871102bf755f50868967c6eae9a95af7c) ((-0x14109971727b06b7483abb990e52feaa45d5c9057396efebb84642d4ec7e72626), 0x82934a72393a83725c7cf20d604ecfe2cd8e06e0721d7f746b770a4e2a105824) (0x150207a582460aad8c7835fd79899ebbd4caf3f54662b8071b5a44739aad6bf7, 0x631c79c572ea64bac93d401cc403cea173ae4ebf71e088789b1d5ed078e43d75) (0x4d58ead1719dcad86ffa3463074703236c11f4eec6607d1bbfe98bdf094bee56, (-0x4af3426003f2f7a2555db589bc1037bbad7955380ae35c6f9f9a8cfb5b4cb2de)) (0x44fe42a15693ae807efcff00569a05e12e5a27dceee22993f7af82880b929a62, 0x5f5f7dd782a4e54591d31b8733e90312b93044db70b822e487e0d1a3f808b8a8) (0x33f9c8284d2d4742194cc4edb9d389a2f7f8fa684af32dccd8d3d6df6be2bb70, 0x580c6d4baf96dbe2448c71c6a64dc462ebf1e0f7d7a3181419b8e0be26b7cb4c) (0x88a26c6b654b4d5235e25fb0a53eb6efe03e6ed48bed3e8fce1807cf6d70011d, 0xa75df07dd5163e45d6dccff6e2781f078ee7079a9ecfe44e9db7e9878b423c26) ((-0x3ff3f833943c1300cda8ab068d7caecf73c86a24b738cd320367599b3b1ac7fb), (-0x2a08d1175cceff88848572e7d855bc10b324cf3b519bce50409613356abf4432)) ((-0x49b3643b3e90ea84eb7f15ac2c76e03349478fb531c7e608839185bc9fd8a7f3), 0x4835a12c1d3eadbef0c9b51f4768a9df9544281a95e4c8bd287230d9e7747878) (0x1162f85782ab70cb3e69e9af0bd5911ecc033706cc87361554f0d4359778ea4b, 0x3cf69512f5fbc70d74154a4b8894e7cd9a3dde4f2382213fbaed549c58d8d00c);
  Step2 0x0 (0x961bd2d3a70c2a4f75a0e1cb8bb9042d6fa2e92edcaed1f6fab5edee581c3e0c, 0xa90a15099756190870c938e9339e505c572c5c1637ee7af4dce1d1432ee05fce) (0x65a0b75e034b235ab84132b8af03496257b412db488efcf25b0369d800933892, 0x19f5e298eda1354280fd4332356771658adc22ad9900fdcece4096fe8bd60ba8) (0x2b669210e894d3b3d1dbd77ba77f1c8763d004f64899eef6b2cd114667781eb, 0x9b7f7c8fbda89d3e289c8ad86465c3c5a41aa63da8f98b0c433c5a4e78bfb1df) ((-0xb91b15dab7752f3a7ac3914565ee4bb1993d0fa31e8466a55783689ffbacb998), 0x17a7fa26d82a14ef034c12793a793449defe06193d35e23d8aaeb6261680a3c6c) ((-0xbdefdbd7e1eda600b7efb928f1c31986640a9bf9e98d505f9aae4d253143e032), 0x11674aba71cc83648ca8f84dceca428e7108133befd4c7cb79763355aa6bf3250) ((-0x9c121134dda17588386be32bbc2dfef24ab1813b89b433ae1e1b9b1eb66a67d0), 0x515d6eddc64d2135db75a23bb0702af97d171b66603521fce997927fe73c4bb) (0x0, 0x0) (0x0, 0x0) (0x0, 0x0) (0x0, 0x0) (0x0, 0x0) (0x0, 0x0);
  Step2 0x0 (0xb0220517164de1d8442b78fd60f278ec9715422d7b67bf3be54a4d2e86cc6d06, 0x19ae6aac35653bf1f6a1547eedeb5314e98bededfaaee439352bf018b1592299) (0x7fb0529c81c48e649c083cc0932808ccef58a787242e199fa793f5818f8d25d8, 0x6ea09505388fa9d740a0c13ca488201bc7468066b7ec0886766fb05bc4399014) (0x9c3ddf0d15917f6504b77453ce678c7430a5f4b9c14ca3f341182119ea2f5711, 0x72bdddcfa9375f4e2a0cb72667f9daaf4ed7056ec8bb1afad086cf4b5ccc0863) ((-0xe63a44dae1c3028ea657b6fd7fb2824da461290a00f230081dbd8d2c47f93f34), 0xd676d6447bbf05ffb963bec49d034d945d36ffbaea0f66507d92402066741382) (0xa2fbc3dc1f494a808d1f2994a6a63ea7376e41cca50c3c12caada05eb75b1a3e, 0x31a380362bbafcc05f434e8599ae54b3fd710e1f761714ddcca8b695d13cd368) ((-0x1533424e8adc2b5a23073c1600f2a32808379382538e2d9c812540005b08a28), (-0x557f4febf3b33c4bd81b6b497d7136affff52085c0cb1b07e32b1810990fec20)) (0x0, 0x0) (0x0, 0x0) (0x0, 0x0) (0x0, 0x0) (0x0, 0x0) (0x0, 0x0);
  Step2 0x0 (0x582e0e0c1e696fcc18fc973a3c8993e560a3d3f3bba57f1f40708de663a61b76, 0x2d70d946d173f094ac7d72275e9cce16aab01a0b27164c0347a9e5a1e43a7f50) (0x470e3ddf810d219d8d490c6082da08bbf5193b3c0cca48d1bd6d36719065d609, 0x11c4d40bb4c3ef6cce2224c7d674f92887146cf91e112f15998306dd0e522e9a) (0x623a78c930b1cb73a5763fdc9f92b626aec2fb5f4eabb7fcfcae2dc653b9b18d, 0x89b5d8da288f9e14f823941f7fe6e367f2fc41d1fbb8aeb92902a7c9a8e743f) (0xab480a85649fd3befe15e5bd14300c5a825fcc35aca21ee97b34e581856eb87c, (-0x1141a76ccfe5ac80dc282cdc8ae782e74ab08f7409163f39a437e1ec43959e38c)) (0x14015918cf9d20db470eaf1874e2cda14e04140ba7f63a3f56c08fccc8619547, 0x2bf8e209b6725ea8292263f2222fe1964f83e56e005230091ab67a3823c3a356) ((-0x12e7606b1df50e54312f2b3bdd237eb000c5cd9a849d8127c362974b57fd2684), 0x3b0c92d7e8c601e59b8c9c506e72d37d54f6401372f62eb42cfd793d18d39092) (0x0, 0x0) (0x0, 0x0) (0x0, 0x0) (0x0, 0x0) (0x0, 0x0) (0x0, 0x0);
  Step2 (-0x1) (0x5c365e65c6f26e3b9abb4b7c2d83982c06c5b64dbce15a10662c2ea809a94942, 0x55f5232ee4c9cf0f0caac8293b0eb51b2f22603f5f61cba3a7e73ff18b993734) (0x6d49632dceab21a39456ded9d1ada1bc6333875fc4ecbbb4139c7f3bdbcfc630, 0xaedf67c498739cde908a03bb3ee10fa5a589cd60e3483aea52677a119f1a004) (0xa4f105a25bfd6c4a1d46dd75c1f69260e662e11579094c21e71fafcab51bcaca, 0x3554bf65b9b61f8f3b4989d965420f2a428f6cd70a5c0ce5bd0aa2b56af9c471) (0xa72a79b4aef9f0c20e7fa6a8d7f33dfd478d83d9f4967c70066789ba1ba985d, 0x3bcd29dccad1337e9e01bbfd1a8cc02fefad561df60d55584223354ac7a0e0e8) ((-0x226d42cc3985fa02e9e37698005372b795219c09fdcb2a671d7f0e06f8356236), 0x56fbb87fb46c6f9a8f25b1c087602ee0ddc4d11f1e12e37995331410d0e4fb78) ((-0x19cb8bc5b5bf4583b42246da42304cb4855d9cb3a607858b7c09847c198c9bb9), (-0xe92318d60e29f81cccf61631fd98b01e4dc1e7fec9daec4375599848465cfb0)) (0x46c3939342f78df39ff7b972da49c1474cf8bda6d0c1216adee5bac005ae650e, 0x94af7d294869ffa35c6fde909ea49f26a652dce2d6002b027b3b023eec5fe51) (0x47d520d70a77fa2db4b70e587c18f431da7575a5d044bfb7527d6c4a50344729, 0xaf88015b0873b00229d1ac5816a0e126f513aa146345255313d53531c8711f44) (0x88d9d39f4f131e667946f1d86cf2d79ea89de7bc564fa6e8c31c4df5147046f, 0x17e4008ff3bfcc8ff9eebb726d53ce84b56ec6d9117164518dc52827fbd879da) ((-0x218b629e893943f32f384188210b5d715b5ccdc7d54a331e6b14cac8f04aae9b), 0x2ce6d1ff14bf84615806308feaaeecc5754b1a46d2b0f4ea75bd33421d0fc358) (0x1a874e1db712c4aa4ebb71021e81e6b1bf4caad831506164d2d4c5b6096e6666, 0x73768ee13b2a2272a38b8eb665fd36e8a2549580cea655d452c193ab806280f) (0x1f542004fe318729a08287950b7ec8ae5b994c0e975a6a4ba48475dfdc643b9d, (-0x3e0071c74673c78b081025062051c6fa4935cc49cbf339efcef6c07ad4f6a724));
  Step2 0x0 (0x3da0f8006ff4dcc360927d45e628c5e13d9a360aa408b55654e382f480b5fdaf, 0x5f5572ac054ae8234eba31b607bf17d9377b7c8d9ff5e56e07e7afaedd684e2e) (0x296f2ad4c85e9eae4084f41b7100b9cc9353f1221d221c418694d367954417e6, 0xb2a3a2f28aa9da8d7e85e4bc7db1ef32cf6a50bad576bf875d6d7f768bd9fc0e) (0x2d1466092bdac40a435f8ddf3c7f6d132fdd928b453bb1038f506aaa15e70e99, 0x3ffce6be6efa83936f02f1e5bfa01a7243af9c8caa0b2f65699788a8d784b20f) (0x37538948e518a4ed0c70527d5a5e83dda71846c2745e2e193814d798a214c8eeb, (-0x186002aa8e4c97cafdcbdea1d7f4f181659250fcf3693eb8e64cdc85f2848a588)) ((-0x4ee5988db7c78f1f50a1e5c3994a67dc1be330803aa8b17a2e5d9df562cbbbcb), 0x4079a8720df82524a55f6287cfbb9b5f4738b10c7c08281df57c223f87d29ee6) (0xd87e3b51367f5acc79af3c9584e2afcf3ea1b1fbb253f5ae812ff5b78d4fb61, 0xed9a55e6fef9a04b46367ce7a231110ba1501035628b01e64557974095dce27) (0x0, 0x0) (0x0, 0x0) (0x0, 0x0) (0x0, 0x0) (0x0, 0x0) (0x0, 0x0);
  Step2 0x0 (0x9a2ca5f6e07cdba09353a30939f9ff07d1d39eb79e7cec539a82a8c355885536, 0xb09ca2fb96427c5bcebcf4c69a6825d03728479af0db2200a4004fe3ab47513f) (0xafb9025b8d5730017f1b490b50e5b25e0eb816e2d4676bd5ab11e8363fd3d35c, 0x1c9fc45df88b8125c9d079116dd593aee478b33e7f8963136113a030d4e1135a) (0x6b7130f010fe179a3566e1f1ab3046c3f9ba353b3c7b14987cab6cd6bab685c, 0x22a6ca01fbf5bc82e6b1f333b36c914d4e5c014110e569da0497374b68d488e6) (0x352939b88221513e90b15ea44ef29e86db030d54890edf2451f0af9911ef8c884, (-0x300c799153c938629c9664ffd8e4db05f58eddecca12322945f9c9957a8a090e)) ((-0xd3df5807a50dd9aaf13a4d826ca5c35a1c3d63cfefdc05d4401acfeb191e34be), 0x12acf4513abcd5894536da446472d3297451ea86223033f3ece11d5eeb86367f6) ((-0x1945988280a8634ebe66777180b1d89f948f764e7925870e93ea8a58bf6386905), (-0x33a8fc4dc7833df297380556738728eee1588f2ede30eaf7b0fc0061cb04fd3)) (0x0, 0x0) (0x0, 0x0) (0x0, 0x0) (0x0, 0x0) (0x0, 0x0) (0x0, 0x0);
  Step2 (-0x1) (0x680f5d83b767e8345038e052e0808ae7498c6e93c4af3550eca19a5e97d7f53f, 0x14a7fcf4078af5b94134e49b9add4ce78ae336781201a1a01ddc9e795f323f65) (0x7a59377af887bf791c30bf5e759f8d2a36b4e77f45f879cdb880d0442e18a14e, 0x2698168aedbe9ed3f2392617c289adbff419f14133d01cc549f8244fe63b33c0) (0x4ab05fbf03510a70309ce9e13e0ce731144704bbe33ef37bc663cb16790bbd33, 0x701bfcdee42be78ef714f6392a266d0e4e9e24b45e5fed7d276628844846e67e) ((-0x1e95ac9ec629858c129a897047fa9fd39ae525856fb0e2e7191f822e385798da8), (-0x7c8045b9591074f89872c6f02da2097774f20531e77313987c8eeec0dc823494)) (0x36bbb4b0c61db087ac672f9c39ebfeb7416b97e5d7225103024892e08048cf3d, 0x17969ba39bf9e5f6ea7fe96719197d6da7b3e3a71f1c360b494cf8c7172cf3ea) (0x20bc3b11ecf27015acfdf8a257278663808f137cd00457df01bb0ca55879e20b, 0x5b58256dc4b83b252769f1a805edf9bf1625163e1872d8b3cef4891664a5a8) (0x7ef9bc222a70bd3167c4eb0eeb37d9276b7912b54e6c2805512900e379c73c70, 0x5da0043b78b1946691f7042401523541f5aebac8b0ff3c931c10412c24f342ed) (0xa4dbd946bba86f2fb9aa64e44907d42fda1d604a8be7b2d2817597611036d462, 0x71e9c5ea7de5fc24caec230143cf711883ae2cdddfb5ca99c7751132bc39845d) (0x6f17654404e76724ea6d4e439bfc6e0a9db51cf8d6760722cc82889436f7f991, 0x7372765f3d8b825fbf20e483e7f9046843f4f9a064f620e9cff4a23e151027bc) ((-0x9086db6c668e2bfc3981711efbdffe759f88df94e606b953dc5628c040342df0), 0x1fb88442a0e2e8a547aa3bd4ddcbe1e0b5fba453968a7c0a1def573a91f10551) ((-0x7ba7fa5e41453a2942d2bc5a9eef575e322a7d15ee6c1ac25acd72091b4f3e1), 0x82758c3244026929d84964c7c4ffe10d183e0de959a8b92a1cee4bb95ad45daa) (0x2fc4a475e3c5a533ca3a5c981fbdc0c80c0c45967fb30d0bdb433595cf180346, (-0x4a505ba5b2491174e78d87232fcf0d8fc575534dc57c2cbea9a533de9a9fc586));
  Step2 0x0 (0x1c8176733e0643312761b09ffc4e3d7b6397c69808daf853da68b51ad4960d82, 0x7b196ccb2aff589e16a41f9ab9172e35393cd28b24ab05011f69828ab87422fb) (0x7aceb6a51eb94e8c4b46eb1947bbc026b42da859a58ff6953b7e36b39afaa598, 0x9f0058c8009776c12a1acd87f265b9ae927437e4615d072286e62a754b09fc22) (0x66a5ff66279deb92b65fdc80d5e3fd47c17e9430c42b4be154739729b2412fca, 0xa70bfdad202202b60fe0724bfee4fbbc9e9944d47f9277a9282d7e89e558b0a2) ((-0x129573bc2bf188c792009bb0ca7fae45479717a9ba6c622c1508c54603ac62f0a), (-0x1b012810852debba1ce9864afd87191ad94a868082e1d672b61c17e63044c6d8e)) ((-0xa1d597027b4de3a4fadedbf23a6253fb4fb6580048bc80798ceb053125514cd2), 0x268206cb78855a2e372ed992911a28e8f2af702c127d4af7bdf86b530a59bd50) (0x437c7432f0714048294ecf21c1967b533e25d203777121ce8033fd0a4c65d453, 0x1559da102aaba3cab7dd46631fb9784ac4f63b7a5ec8548028d0ed146dceb41e) (0x0, 0x0) (0x0, 0x0) (0x0, 0x0) (0x0, 0x0) (0x0, 0x0) (0x0, 0x0);
  Step2 0x1 (0x8e1c94ed87aef4a579bd35ed2ba94a1fce12fe9554fd1ef821c7bb1db847bb6f, 0x95517067874966d66adf2c860384626136be2c78a2f815ad0b4fc0e48d9ae24) (0x3446c89e930695459a8c4b0a9e2b50d8428de8302cdc7f64bb5356cc57879f6d, 0x720323cb50403546e0001ab82d58412dd13aba04e0170a1f548f30894a3c21fc) (0x9e942808897662fd09d4a71f0ea7685dedbd48e6040cbbc4140c33f8e16c7cd1, 0x2c8ae6b5c4615c95a7c1a4ab11f1ae14e7a231225b846404d44d63c768dfcaa3) (0x2c5eb6ca01f8a22b67a6d3c44d066ef567ffe5697f0e131d0eb1aec9b62165534, (-0x173d2cb23a358071ba576427cbf558e32583fac2c696fa3eb87a5a2b3a0da9b64)) (0x6ddb86a4edd4a42a0da4f6a4cfe8b2e0b4319651a1bd6759527aeca302b28834, 0xe8dd7fd13423765ded6cabbbfa2b44c3736436bf20e5916792b7c7dc8b67658) (0x3263d198b4a01580100c6321d5ee13fc1b454cb668de7f234bb17a6114d9a6e2, 0x26b143379d601588e0e55916966bc5c7ef559bdf4f5a64c8d6245ff69efbea15) (0x2a030f69ffde864b4f9b991d28e990b4756ce0d3ccc4ea23c7ad3122279270b, 0x15eb11ac7efa0fd76ef5df57bef1dc39ff448d091cbc266f1bafb0fe02fd5b40) (0x5f264c27e258d5ff140471ac0bb3f5a31beaf29c8534ceb6167b94ee7fb52769, 0x9d93620c9b7a99ed9e222d5bc6fb6e42af8e4394ce945e8bfa5fdbf30a5ad2c) (0x4b5c236f1f9ae005d927208b13aca900496834dbfbf60e3a5797a4ce9280992c, 0xb080eb0b6a8aef0523100cf81fad3becef45a378e8652fe72b30f1cd3d15f9dc) ((-0x4b0b822d52eae72c9dac88d05e3dd130a31230e4e0c433fe8f1a957f64e46ec), 0xa08c2b977081bf11166c38fe6bc40f625600ebee946c27705eded72dd4b4d4) ((-0x53bf13e08217bfa5509dcd27943e04582df547e890d9e31f879bdaaa5cd8b18), 0xa1ae86622dc7f8ce047a68c0ad3d52ab561fa643da1be71380e5b3664bf323) ((-0x19ac113e830d2cd17596379d5b535b6aa3ceb13373f111f8b705f879f8d105e5), (-0x3a7c7bc1807a36ff6e1b4f117436d134f9db6c0738e3ec9d2266ba4eade55fb));
  Step2 0x0 (0x44dbbd0d0e0b970f1a91f573bfdbd1bd4b473c25507ef0947eea166f65206460, 0x38b4a5f04d4b3751907fdbfb197c3b4abc31614ff9f8e723edefaa0e905ffb0a) (0x4231722f533b655f12185a35bf7a8e7c82ced1562759ba6731f16cf2e6e1caa8, 0x93072e13943e7092ebd77aa294b2861670ea6df460f79264114110a58bc54e0f) (0x637efcdf20c9c40dfe6285520919e160f9f8693d59bd96f59f8209036e8b2963, 0x776b189cb9cf37cb3b189154dc9756044d82b4bca8086c604b66415b82db10dd) ((-0x1348f6031163269b18ee7f2b3754b59cc2ad3a6f56181f6877a5c86f086e7ae6f), 0x956b5d8a9d77ed8b5ac6234837c59bbd2fbf164fb2ea4003c5519b30d1d7a348) ((-0x9454e73b449d3dec025247a914f7d5b6cf753f54ccbb38d461654bac93372ea), 0x2ad977061912dd0d913904ecfcebe5c84cb7d4c7afed3930812db554ad2412cd) (0x604e1c6184156f2ebb24970654da2cbada60a134a90fe9d7ed02eec512fd7551, (-0x2ad1f27c2e8480fbbcea6d83ab4c23d0dab613a0c15d8ea5116c762e881f5bbb)) (0x0, 0x0) (0x0, 0x0) (0x0, 0x0) (0x0, 0x0) (0x0, 0x0) (0x0, 0x0);
  Step2 (-0x1) (0x991e379fe693bcdfe42d0ed981715726eafebf84accba208d2038c087f8651d2, 0x9f52853cfdab92ae88e122c488fc971bcf1cd853f6682146c0aa43ed620f2691) (0x62ec681331bbbceb7d20f08dbc73357401fe7c9ff91ad6fe1b7d7b2c2325c05a, 0x626e989250a690f78699314dc033208e7740d88047813514c91ca10587c216b0) (0x2762d7049623eb391c61c527be184505a5ea785a926447c40913c820d9bad81b, 0x116db0cd52fe53dd70daec7ab14423746650cf3144074fa91167c9dc9df7a59) (0x185288c0f3ac50295b5a9fcfe949cb868238fe2272a4c8f9c90260d420aaff796, 0x3636ea826d8dc257cfe3fef390d8062bc4621b23f07a245a9a2c26a2b6858272) ((-0x95ea596b2f2a1c02b30b9cae145bfac130d6c06a7ab69178995650438de998c8), 0x10bb5e730f6875ac530ba14207f8dabed493637194f8344ed48cffdd2f0a01d4e) ((-0x7076a67d3be8ee94188bff0818516df20fe865a9f7bdb876d2203f74ca360ba0), 0xc372515b07db9d07e1869bd517b43724e2ab24a6424a818ea0ba0300dcb0e5e) (0x647edf336d580eb6c62b7fce6e335a523decbfa97d3fbcb9dd02049c1613fcd1, 0x5a5e615e66fe83288c63ea3fb812b83906fbedfb32dfbf6b692514c932fa2be6) (0x7d1f33dec249c5829022993a3f1c4031dbdc5fe9c351241dce56f48fb4fe19a6, 0x891b5b34733b11b4201e0041e8d26a159809220ad8484323efe97da22f2e6e68) (0x74888a79a56b1729da53260e0f003bde9a9c635df92c731e0ed31685bdf80d26, 0xd98c59f2206320bea864fcee7cd7947d51f352e75c3801117dac6bbf1693078) ((-0x3b1acd445a589dec40b393afa49f760d13797a8b81968d3f6766185f6ee5028d), (-0x2464712e19b0a095675424e075f58bc7489de44df1cf0efb0706b7db2f3c712)) ((-0x223427b34e61e4d25ab54553cb58f2442ace6a36e84ea417244a977920f226aa), 0x63a95784dad90218df74637795cb6a02c38059e0d922007bc3f82071360a2e6f) (0x17e859771b3861e3d6a168c6c3cbb6501c012fd222f0f6c3d17e8f0191bec00f, (-0x2251011cb72f88a5c82058bd0fb740fdda1cc230699649d5995e92f4dbf9ac65));
  Step2 0x0 (0xa20af5cf9a70c80c0101b3678e405d4c56291772041b256a8cd6131c6b7143a8, 0x5f5ad236246dce801b93d3eec2f65f1fa636def687fb3ab6b6d6bd9d9e3dd183) (0x144a6fdd531d1caee679995d5c86121db26a3a71c210587cb57a66146b8b3859, 0x7e9b9fe907c05f235abf9290c00f37a1c3515b6ccbea414b89e0cbb6c4e3e80) (0x6916829c9aeaf8e69dd914b5995a4d8a2170034bce912c3040bf329aa0caed35, 0x952f4198a51161a2c1e7534f2abf9a5c36288e5a0f05b3eca7a6016d912fe840) (0x21bf090540035c321a2f12e1c730f23bfaa2e12c22f2e65b072b19a8c9cd8ca64, (-0x1a2a7adbd84854e68fbed78995bbf0fedc963a57aa604ca3c938213ef6d90abec)) (0x2c4b9562be12e63c50e22db827e87c3a9eb8378dd23ec044753021d75dd804fd, 0xa9907bfafd5c96695d5ae28288a41632066bde9fec2aa1297d1542d44c7e3f20) ((-0x29fb9bdd2eee118559e3776dc8cc52b254a94a7ed5d52229e75bf224fdcb58bf), 0xa9b7c7491de83d05f347811cafb8db409b532d4432662d5d579ae601fae9e9db) (0x0, 0x0) (0x0, 0x0) (0x0, 0x0) (0x0, 0x0) (0x0, 0x0) (0x0, 0x0);
  Step2 (-0x1) (0x540f66c548475219de90267df4f9040d9f69a6a7c18ca2e7284177384167acf0, 0x439c47771ab0f302001cd25aab9bd2cd6cb8f6c4c33ef35e7887be7798c33665) (0x2df0a14a1110d53e705bb1f0094b8376853f2625bebdb78361f536ae281d34f7, 0x89845ae25cac48d79b4c09e432d11a21b4ddbda5384c21e30e4d115c2ea436cc) (0x4a8529de9fd4a495f5cd43c0aa9ae84b6c8b00e61aeff374c0383dce75bc151d, 0x6b61dfe4f6a848cbf6bb077e0f38d3e386b60b687be96564c8541916a3b036f3) ((-0x8126b148ad229a906ec5fa701f16fa9908668da9a2c69ea9c379a7bfa7b66eaf), 0xd24d847193a99b1d35390634f28feda7496e1923e0391c50a97eab5df68ff4ba) ((-0xb646b1b8e8cc792e8e6201f5c20dbe90e0d21ae05c728c9577f4d30d84fa0b7), 0x3e5e62528f3fbbe0fdf678601bbb1a57034965df88bb0d1ea55ed94ceb1eec24) (0x54546bd8d883a0c7be11a3220fcbc0bd984c59fa5a68bfbca36bf99721e7127e, (-0x454b1027b2a6f7803b171a300295177fbe43fafb32088577bb5c00ed9a2cde3d)) (0x860f9a6c598fa59670e3c25a005c29f82e45831c00b7e2b2543a925706f62f9e, 0xaa7e3283d3bba2c30f6e902be6119af890f1f09c36d3cabeb8e29a5f3bc2fee4) (0x936ada949835464adc87349c9daa40749eb5b84e278891078ae1157f4b9d69cd, 0x28f62c497d71513e8326e8eb721338d4c959292705745b20e5ca9b3209f55b38) (0x90cfce152138652030cd89e98bc43e0eafacd1f95dba60d9bb682dd5c9b0b89c, 0x24732ccd132dde71b12eef456086983f2454413f06aacfaafa265fd093abe720) (0xdefa1c77e09d9a689c3863f84acacdc75cff6f4a5d8b64b927cf1dc915aaf44, 0x5c812c9ab93b4000760d803ac451455f407edb2609767022fb76a3c15903f3b) ((-0xdc600599e06792c5c2ca58189846f8a09635a65b4be138ee4fc5b5196b10fd97), 0xfad341788b28769761804cc996abbf3dd7409b4a56c2993e313e81a80b168ac7) ((-0xff4c793e75d962d18413a23c8b176a29a83aba542089f961757cbe34744fd8b1), (-0x17e7f3b94d3f78660739cad97fa4a5bbd67b37c323303aab79533defeae8410f));
  Step2 0x0 (0x8a98dc99992958dae1722ee417fd853a6c6cd659f06badbd728fdd5a70a6998d, 0x15f5dc344d71e0fcdd3586a447470273fcde57792f41f1432a3a3e7e9219104b) (0x6f6342c8bef5780123e4f9c14375270a7b17d5c808f6f4cc66a9c27fdb0023cc, 0xa6ada125fb9d4f1802c0efd7a4925752967f62e5e601ee26b437a42e02484aca) (0xa6429bd4e5bfee0dc19269531b12417ee5b56f9637c7f079873be01bab9c0fb3, 0x797aea02da342708f0728030850d76c35093cd43078033b4076f86b6d1dfe17a) ((-0x63cdf84439b458d2574d32164107e4c0fb3ae6d97b99240ef29b5a4bbe6ff69f), (-0x6c75ae703faf6c841dfc57fec649fea6ab0b1bec2bf061b39db08d177fedc888)) (0x641b97828bf1ce026d3efd935435796a4e983d8c7a1c0ba071c20d741e67d265, 0x21669a1c854b0939a6e4bce8506442bd985a8927ab1ee29cc87c5771dab78234) (0x39b24b1ed3cbab7ea5a45faecf5d1197b6684842a6e2c747947322c03e7e4c12, (-0x5b4367a82261027c532ddd9d67ced0d19bfe82b0f4606b14782ae058bd1223ed)) (0x0, 0x0) (0x0, 0x0) (0x0, 0x0) (0x0, 0x0) (0x0, 0x0) (0x0, 0x0);
  Step2 0x0 (0x1edfdedef8cc07ed1e817ee596d963975846d890a340fc8a7c6f2d000e1736a8, 0x92addd011c4b237abed5ee3af17043a4271718af743d7f1c80538fc24e654510) (0x8669e0ebb78401c5a84f0e5832ba867bb31e6c26e502855ea84bdbc69a3ae27d, 0x7da6ab4e8940ebb463e43a9c79e7d064b581e833ed8d2b0eadaf3e1992c6929e) (0xa2bce5cd8648bafa3b2675dc324f01175e80a7242863b1141916ebd64642e3d4, 0x757f56e94d8def3b4678ccb94ab636ebc44de3420c9b374fd07750fa8f3946bd) (0x177a374a073aa3ae721e6f5503b29247947dd027f1a3c34ccd40e643155f7a4f8, (-0x12e719f4faacecdb526e231b85aac1b7a51e46fe640d53e87456dd6ea71bb6390)) ((-0xe6df147627f713f99995bbcf5dd2cab47a43d7883d44916c0b72a338e0024939), 0x31b2729d1a58af1d72aaa7cf9711a77b43237e1736689bbd9733ee3974985166) ((-0x45f0a88f50e3fce8ea64936f1bdaa36c62daa731c78b11af88890ff51d4fe31b), (-0xb94d9a60962143909c92b470378e88710c1e9505799f3a1553c0edd0fffd1b3)) (0x0, 0x0) (0x0, 0x0) (0x0, 0x0) (0x0, 0x0) (0x0, 0x0) (0x0, 0x0);
  Step2 (-0x1) (0x20a6934fbcf67ccc6c10d79fb57a2f821e8b7297f6ea1c851cda062c2f60b2a, 0x7c9e7adfc8bf54849af5d027830f642235c70412ab9b5289fadf9db5783fb7c3) (0xb25c0bebd24a6996fe672ec5c2bde4e54795eacbd06d464d04af54830f56e280, 0xa6fc1f7e2e276bc792ddbeb40353f2917865e9951d15ef72f1bd8e676533be24) (0xa24e7824855bcfd3365c17cf466c94124de205b87b2c1208c32e1c856e852acb, 0x675a456446bc373f6591b45e94976defebe183c2981462f6301053162f6cdaf8) ((-0x5f59694309dd1d736bcd4991aacef346fa1f4a072c3556fa0fa88b44abf6dabb), (-0x14ad685aa6191c050189f8edca8c706bd10c3112710086d0d33578ddbe7341e08)) ((-0xaa66c2daa84800d3fbb3d6c976cd3857b68f0ef0016de44165b38282c9c1d8c8), 0x2ca6de2c271c51feb5816e6e03723861e020d9d51b8846595680a79f96be7cc) (0x3808d280c7ae12e6ab1f02a173d86cc6fbe28da10caf7d27f5ec57351728dcd3, (-0x1e832186650e1def8a79592e8b50acc108af793f286904b43f0705c1d89e7402)) (0x4b4baa59ccbe82c9ca13ee9270aa6a3d8285d751fdfd8ed6a3972a104cb210f4, 0x25bffe432a756ad9c6eb4aa2214d09b57192a0c6d52c99148c9360e5d58d9664) (0xb266cb9f752e8316947766e9d8c1903b0066c1d0c83ada42d6695871f21f8912, 0x39756903cd6a501edf52c98ccc6aa76a17ad329e9b308e0f6cec32655162a5fd) (0x4ec0bfc09fdd46dea16beb32540deadc69ec5b475d6d20604e7ec169603744be, 0x32616980fe0a310ad1e50d50dd6642c6976bf703ada021a0e37e48c431066d5) ((-0x251d324d3c1d05513dc5ad70ee480974a3742d7dbf32686e3545fb295a131fe2), (-0x27484193f8a2e9157a381cd4cfc5021604a19a191bb0344a0e530bf6da7062ea)) (0xf782bd4d0e4c2f7370d36f4ef858e062ef297292836ca2489958ffd66bc15ff, 0x1f313fde0598169b008b1138a9af17f62eb0043239abe96d571989ab762b1a96) ((-0x2d63ebded9b11ab32fce6428f9528248e118eb4c21cd86581cda6714d6e0fe1d), 0x2d3dcf98c9e92058da0e7e1e8224c0b15fc2acdeaa4fb2f27b051ad2ccdc4363);
  Step2 0x0 (0x75d8e4ec9ed96f6fdfa8964dd5c82dab434325994c56e796e69a4f13a63dd57f, 0x77396243027d4fc7f2f9db70d7c1f8e1f4ee9d30a98a48c1f774e0438c1837d2) (0x8418d980d002799faa2cf39c43b46f0223840fbc5391de64b0a63f6b7c23236d, 0x72443ce2ea93144e1a648c19916e2d5073031d423616c332dc4e2dba1d2efd95) (0x3015c9cb50a4eb7c93845ca52a1069d41c4650b7e85fa3b6e51a52d0c5c2c1b3, 0x6923f522bace6f7ecefb6d128929eb500eb3f2441ee226201a23dcbc88a2f2de) ((-0x1419ab1ba10628bf3c5fbd12092d8ac1eb5ffd817e69d719a983899b3ce50ef02), (-0xe65cd9920443183f7c27749584b78cb40cd7a58fb1484ba8f3d29eb3e0e095c6)) ((-0x4fc8f93670abb79a60459a69a3eaf12efe775b2a08598b57d6fcbbc5c816a0f8), 0x9a2fb999b4392a4a6d1ed243ff4910aa53bcb70ce7616eb85fbb806153fdc591) (0x684446f5a4c168c2c5f3f34ddeb8f0de8816cfe541cdb38f8456622b74bbba12, (-0x671236b93d3d07bc4db3ce5c4cb081e917d52343586c61d18315457dea90095)) (0x0, 0x0) (0x0, 0x0) (0x0, 0x0) (0x0, 0x0) (0x0, 0x0) (0x0, 0x0);
  Step2 0x0 (0x639d7287516315037187d7942e07fcb7ad9c93404f7bf50d93224f82ffe7b2e, 0x2a13230e9fc82596379d9e235f33636b33f4dc4dc59be03e36555e9a026b3d1b) (0x4022b29c0fb3b643287f025b3950cc75d6fe1a6649ef37c2de767d141d3aa062, 0x258f08d321ba19d1a1ab62bdca9f388fcd03738df8f0c883d945cba270bd2fb5) (0x299ba3b6eacf56df3f666b0136b7216993005752f8b021064285883cb003e40b, 0x26da3c8f19f49a8e2675cd1d6062ac5134b990dc71f9c46780d6e9c9b7742818) (0x30cfb8a86cf1909233e62e874c75d496f421d7abc1a8774dee35f1c53b003d93, (-0x1d38b97355e49eb37e0c3a5b1c5766c88bf9a4fdf9b4b90ec40d226b0517e1e4c)) ((-0x1336dcd4fbceb6e03aafb1213c32fb738103463fb2b31bec9a4b43fb74595772), 0x2dfeac664e3e9ac785d6a617c523d0b35b2adb21c442f74d4e625708e2e9439) ((-0x2118a75e147539cb456a0b8540b5a0e41f9f5a2b33cefcc4a6e5d214440dc554), 0x124f6c80218aa3ff94d8054c09e3521cf0e18f6ca27abe22602457c40e2c84af) (0x0, 0x0) (0x0, 0x0) (0x0, 0x0) (0x0, 0x0) (0x0, 0x0) (0x0, 0x0);
  Step2 0x0 (0x31694142aaf04e901dd2593595c18ffdf5aa62516a20d54a87165b0a99660d0f, 0xb37ef107cb31b055ea797e8d27f8b0b6f8b979370414e5a64d86be7ac3492b72) (0x21411946e100a10c25e9ecde29fe72af7393a4acdb61b6aa5b84baf75edff9d1, 0x39043c8536c67a6a04c1ad580392f42c54e398ff2264c443312798ea172623a0) (0x9dda77af794f2041194f3956fba348e5f1f97c268659db23e2e2d7b88965c768, 0x94afcd323991211398ed19bdbef33b43b832bbcf4f76e35c62acef428489df92) ((-0x97c4b96c81b176f91c937c0115fa1456287dfc127c1e1d127ac7c6120098289c), 0x17b8cd2e4e01e26d47ed106e542684f68e56c501082093bc293335e0bffd7c60) ((-0x1542ba45e10833a74fa74b1407578c6027e62a4f5b097150adc8ae5b6df41caec), 0x615433dafd2c19add62aadf0d881694a55bea137855ed5e0414ba9a34d98323a) (0x2eb332ff5c527a2a19b61c23aa995f82892f80a04f2fd9da4a469f7fa43f3038, 0x1923a3da6729c438e214777b0449172115a03aa29bf5b522c5eaac47045b0c1f) (0x0, 0x0) (0x0, 0x0) (0x0, 0x0) (0x0, 0x0) (0x0, 0x0) (0x0, 0x0);
  Step2 (-0x1) (0x2f60ac4b5b5b2f37adef514f0d8d31113ed8a8461f719e5dbc130c5ae91555af, 0x71085ad8ec5a5cca1bb2eecf91ad07f8b194103d94777a845b6180bbafe22b43) (0x7bd450e53f81503092dfd5c5322416bb85b65c23f951cf4a81af416480fc59d3, 0x9ea03dd553a5ba90aba1b0728924eda8f9a1c20f2827567f9466b1f022f46ceb) (0x1111e1e62dca93ba5ba449a440e51c123e4cadb0af647fd4ee7e42557b013d6e, 0x9c81abb7ca285d5820cad2353bff051be413157e1ef3e6259d59b6663825d2c2) ((-0xc5f91bf2badfab7d69b8950046f3262816ed9ae9d0a25b8dea17d4d223fa56a7), 0xd2afeea54ef31a9ab3ce6af5f051a4697daabc1c4e1626239d87c0134a565f3c) ((-0x7fe4111ab54b10ca5e8f563259a2a18039c2f91916cf2a57ab3604995f60bf5e), 0x3ac4905c15cc0fad54c2edba2f61fc5b7b084233b591782a5f84c133b76cec5b) (0x667de41dc273cec7dd698148dd8ac2953edf6c4135599223bbf159350e8ef0a6, (-0x5296eeaefb49086a210b7e2bec841f16f46326847f22264ab8bd28ebee0d50cb)) (0x1ab32cbeb4896d8415a637ea18893f6352974f4b4a03e2f64c52abe32ee28e2d, 0x9bb1c9abcdad875f9ae59d3415554e5e37a2eb139c941f84bc3a45173995c297) (0x26bbb71b7ef25dfc8a6a05f787af03a00b87c1ddbb5d26e7b23b0ce453b10b20, 0x413a7540be52519d314cd85741409a31dde471393d67d04aae50b9a41c5839d3) (0x1c5f16b0ba087f8b8e5f4cb4b5cea9853e5d36b9ac62d34f4b92dacdfcd4c5ed, 0x935369f2b354f0657d7369906d03072b927a20f5f5bca066a092e25595548016) (0x208d6e8125d528facd8487adfb6dafb9c6cdf9e94bbcf7fa557d7762f350fe9d, (-0x3e56e3bab4d25e3811dfb49d8aae41c04eea5e9f0a5c622c97e0c355875d383a)) ((-0x1061ae9b1a6fc90852fed98a4d4e6f4b964988b881bafcb0d060816278d77f253), 0x2d9e73e81f739fb3c83ca7769c9113ac18979239a791546fa1a9d1d867930923) ((-0x931c55d21d74819c0300ce6f1af8377633f4ee888917c026831ea1dfb24a7944), 0x566133a7f2e8c601e46a3ad8e37dd3745812c18fe94ff20d7ab7ef3df2da1fd9);
  Step2 0x0 (0x524034c92c4ce57dfc3adbd5497b8bafe8ebc3264a8c8a06bb748563a85d952c, 0x60ce3f8fde7f073181baaff1b93f0fda0fb141bd951f5e59ad006545fe8d09f0) (0x9088d070ed65cab2d88cbca2a1b2f2ca477ecc07804363d96a05de40fc934d1b, 0x491d126e0bdee9181af3ee6370fcbdc19e3018ebd96e506ba2856f32a119e5ee) (0x4aa433c15a33408e438cadc996af7f72036ef015fa1bbadb4fe53b82ca7179b4, 0x715ba53af97028e5d163283af3c7edcbd0ec1f22c975f1ee444c3c3e2ff753d0) ((-0xac0898906d2aff2a79fb7ac8ee45aeecade95042f58eef222b4d9a8912510e7a), 0x4ff102529c6939a70f1f050add68b5102cc58d4de3d43357b32017f8e2fa6b70) ((-0x41b853ef6db74d8bf7d318d73b0ac8f2b85fd5fdf2a2623d3de545dd7b8f5ae7), 0x5760d52dd4d5f6df2055833ad13fd41d677472a7470b99896d1b11be95bcd85c) ((-0x275f41f2e3925bd9dfa3f380e94f9856179ab829ee02f5c6600e7ed3176a7ec9), (-0x3bc1cbefaf7f3c3d2f361059de20ecb741a16e1124a51423b295f256c5f14462)) (0x0, 0x0) (0x0, 0x0) (0x0, 0x0) (0x0, 0x0) (0x0, 0x0) (0x0, 0x0);
  Step2 0x0 (0x15e64fb1625b54ec623216470c3680d2d7f1e5f1ee33001fa6a0035f44d88add, 0x79dc55412b757bf30f3a309182ebaad8a84520edfb2b7f049676cdeea3c52260) (0x2e2a1b8b787d7b2573fbbcdaadaa51b3047a837d75ed3f1bcc9ea4b0d70b3603, 0x87f8be98b8b920b331dc2f39494a03ff526cc24125a926d898dad8ce25ee6600) (0x3e85002ae724038de817563dd36253f7d64569927a427ebf76a11c47b0301c17, 0x92bf37a7a4dadb9a683084c7174793fd8537833febf92915e2c832f5e9582930) ((-0x1c521d2e16b662a697acd980a0be71c19b02a6461e44f4c48059596f441ed66c7), (-0xdcd6b5aa2400fdef9ff07b08d3ff719d89a9a87802e8070da018b0cae217d32c)) ((-0xa054ead4efaf07565a834874ff83664e5d0209ab88da43dee4a5582c9e36a630), 0x1d49458e9131f97820518ed97333db78db39c22cbcb22b0cc5e8b505f7f6bcb4) (0x5fe146e84763f15c6e3edea072fc85f0b47de4df55e86a32b017fec60885a4b1, 0x3a38b06bfa579676b428b755639693967d1cb1f75218713935c026bf7bcccc2e) (0x0, 0x0) (0x0, 0x0) (0x0, 0x0) (0x0, 0x0) (0x0, 0x0) (0x0, 0x0);
  Step2 (-0x1) (0x3bf2969842ad00f4abcc07d1aac47b6bfbaef5a8136f026410e965ce9ec3d4ae, 0xf0e4a6f035bf2055a5246486b01c0db2bc65c2e413b44f691c6999348e6542b) (0x6cdc8914723e140ef6c8bf6aa788cda8fcd8a95192a7bb4d4464c639f150de55, 0x4e7bcdc78bc28cdf1a3cd7f60b58235a7ba42cea189ebd03aea5d6d687adf04e) (0x532b0bf3a4f88d01bef8ce3fe6a10035da25246f6369573a52664847b2e40ff5, 0x8675f46e6a06355936992bac90cdd7417245d1fa513300fd0cdd4003f22376c1) (0x2363990d4494c16916c288642533a3e5cad39194b0b2bf8d3cacb00c4e088badd, (-0x63c89405677192cef2e7920898a071bcec9ed2e813d4d9bff22b2e14c00f19fe)) (0x113b26a1ec8dff52dba78bd475602c7ddfdd6c94e9cdb629ec12adfb7966d103, 0x9e796b54666f3867d69b34712f00cb07e1dc4194908a1153e2c55428fe37f9e) ((-0x1e1f08f00bd0dfe800cc3951a4330d94670e89bc533f16014d01724c7bb65024), 0xdbae9e8156916f240c451a1089d6be9e34ee2c6b60909865eef55856191cd69) (0x6b811224c72a13bcf0b2539c95bcb64f160a9371cb81db7436bf751130ee0ca3, 0x2101f0ca97fdc96aa8f04d038173e67defca2adbbc13df57ebe62a5216d42b8e) (0x706595260a1ea50b598c913e3228baf07c01c128d58bf37a3cf74e40ca261fb0, 0xa8d298b0a2120f4db02c57ad1e893964ac28f5d2d2d2e0b3be391396bddc6bb2) (0x49f8bb13c29a4e4b0b7bb56250b31b9feec3a09957fb97122c2e12830cfc8ca7, 0x7b934ac2d470be552c41557788cc5c890f20e9acda5f4417188da84722ed06bb) ((-0x33afc63c9ff2945d8c90dcd30835657182582093ba22ec1cb78487394fe1fafe), 0x16d48c267834ae8cdd8ffb7cb6fbe17a942e0719873ff63ef052413eb6421d34) (0x337525a6db8ce83452c564a8bf1f0e026a0b9b745d040f5aee1da92aac44af35, 0x26f0c48ac1fa91de35232821c32c80b481f706e32c7514453b26366e12f7784f) (0x1ea33254ba7411c9a99abd886f2ebb0ddca96fe633a6eddcfb03787664ef445f, (-0x35edc368c7b5f29813007efb3bf7759433fd7e171cd43a578c2c3f4ef85dafca));
  Step2 0x0 (0x70c489945cb1dcfc59a47e301000750f7f57382d52fd9edf9916c31570bf1c1d, 0x3cbb301f291fe44cbaa584cb540e8a5330bd5980625e5f7c694bbe199e1401dc) (0x9084a39b6a743daac6cc88c04c64f656a2e3dd7dae06a5c87df2dc0fa1d95b6, 0x72ae87993bacdff85329e0be1d16a85f3dc7ff5d4a4280594a90527dfcb247d2) (0x9942f5d30390a35b02279d8903e76417e57e61c5663b36b9737376dd9411056, 0x2b4f52d6661ac0330cae884e786632eb060f749dd2e5da81bd160898fbc9a8ee) (0x2912e1d05853023c5a1b7e4d807769379de7914de71032b7597006f912ad8ef76, (-0x1a6789ba96a0cae38adeb027af2ce4c6136e91addd56502bf8e4e0957c1480162)) (0x1d4ce858549a62265ab364486b70b8cf8e038ae9b3ec9df76302a5746841dccf, 0x4b27bc98ac8e7f517e930e0fea52dfcccae008e0d9271ab46f60d4effba278ca) (0x1bdfd139283ecec2eef9dfabdb5877a7ef151afbc3e845e65f2d8b78aace6cb9, 0x43f1a8aa3b5aeaa62c565842cf44073c48a32d7450615fdbb3fe920d057c3cfb) (0x0, 0x0) (0x0, 0x0) (0x0, 0x0) (0x0, 0x0) (0x0, 0x0) (0x0, 0x0);
  Step2 0x0 (0x1ac7778ead5e9865cae129f6257824d16cc553cef69039c4b9d08aea078398d6, 0x284b943e1d08b58f03586bb41bdf975315403b3e1584bbcc024dc3f9421d3f91) (0x3b7d09d4f22fe36acc5b4b38ed9ff8ce76a61ae0830370da7ffbc511dc41e713, 0x8e487e004d83d9fe3cb8de638a40ced91d57363140181b9918fb6a9ea0a6b204) (0x7873353bc19142288a9b7f61e376711f7f6735b2e1270fe12df5f6a9105262ab, 0x1e263ecd26f56e555c1c3f458b47437cdd0864e820e0bcaca75aeaf1a689d30f) (0x18c274ef5f64f2bca34b833a828532e75b6aa77fb92ae20e7fe74f047f0e0ceac, (-0x1123824ba51fa88065ba020e1fc952bc4d3560bd6274302e0a3143f4eb260084)) ((-0xde23413dc5581efd4f9aa56ef5c367b25f9299bece855d962dab91dda7951e1), 0xbd77819a907c6d5bb4d625db09a4ab6ac9ca396202cd6372bb2d5cf04019314) (0x4ca9bc7aba4e401e88adc411531b287832564ab17b1374ac7e4a8f8aedf5289, (-0xf361f8b888b6f3805b3f05d6af04ba07f8f89f5c31bb72eeb2389e1f35b862e)) (0x0, 0x0) (0x0, 0x0) (0x0, 0x0) (0x0, 0x0) (0x0, 0x0) (0x0, 0x0);
  Step2 0x0 (0x8729218d1c71803e65e13e6e9dc0422fdbc24a6f3ce2cefb7b7090d7dc1de138, 0x7357a866d0877cc78336d54da053edc78abb65ba6714e8c4a172bb02f1e9ef34) (0x66905a147bfa62a7f09065e924aca0b4d2f6a484c06a7f0bac13b93727ddaab4, 0x4a7629eef366527ecf18d6bbde01b75e9f3b48d80b8d12a05b89cc29fd1030c2) (0x73f37a12eb193a99af046104109ea2f4831ee23eaeefa8f6519937b5b8fb0fa3, 0x29e62c3dff20f4ef3304a554616d430fee7b96d3c79177f22920fbdf0cc63a33) (0x2c690cc6123a55c13549be4d501b85639b99ef08c14eaa094d6726b97f23180e9, (-0x517a2196bc1401dc4bb3d6f7aebc19242a010398cf3a85ad90a0f5ccac9c6cc0)) ((-0x2dc1f7c21b5309483e0ff11dcb94e39b3fbf2ae68b1de17d3a6afd0f79094dc2), 0xab14bd85457954b436ac5882cac909220111a218312bed26a6f5c0fce5046bae) ((-0x75caa6223417716a42928247db1677dbb32d1492fc16248c4c1e1b88c4f15a8e), 0x17095277255ac37b293feaf194d449adbe9a2c8e9ac536eb2af208dd6cf85e82) (0x0, 0x0) (0x0, 0x0) (0x0, 0x0) (0x0, 0x0) (0x0, 0x0) (0x0, 0x0);
  Step2 0x1 (0x5bcf66c873fbb58a2ee4cf4a937f42b1c84c812d168406e432040094708390bc, 0x2414f9bc3be44506bc00c6e3f1814bb3d3db987f66499513f3798e6ef1fe9f95) (0x94d794dee1a04e404dc54bc037629cdf45719e5f48ff6eb6f1509b63ecc5bb36, 0x74869fe6468e4a592862cf59f568fed945c17bfdc62e1ad7287a4552f945872f) (0x7fa8d134c7c46cc28d2f3a3f81327b20b1d5b0c0c0cc7714c7ff56dd7a10b204, 0x26d64914afe9790179bfce33e97c1e5fb7c67dee3fddfc7dd1cba510cb922116) (0x5d051b0b0f8107db7923093d99e10136ac69910aa34589915bbc8fcb5a7333a4, (-0xa34cc3b385b745a6cdafa7e6f29c3307cb78382acaf97bdd950f5aa6d7976b12)) (0x1ff69474ac7fc451303a1ff2ff2f6e3ce961544504acc860d5dbb31a1800a000, 0x245a6d7b2230bfe37a7a6099dddb911f91e82e919bad592e124565fe492ea7c9) ((-0x6a843c82241f2fbc1b3827ebc8604e35b1accaf59dbf1afe9d5da57c9d0a1c1), (-0x1e5a3bda4d5d772aeee598629a35710bf777a067dadac211faf8fc54aab3e52b)) (0x8a739b8c4e0a70838a63b8006286f408322eff01f19715e01abc42ba755bb390, 0x48f7126e43a80ab90ed6efdfe22b9e0c29e87bded59da887328e842eade2f522) (0x1a13e0f7fe92b1bf1c171f75f4e380faa5b9e2afec20fb94a6c00222514eb7dc, 0x408e84db44f5c6538de9d76ab6dd2a3e2d539fa0a94236f26ea5ccb3f72e13d2) (0xaccc76a538332c3a8ebb18a7c114628203f1ca3f0cec1cee2bfdc3dee5b631bd, 0x749091a93ad2edb6740d0c496e7794747a90a2fe0026c2f6bfa4d320b8b941ad) ((-0x54ed0c02ba73f277e5122dfff79fd81be0d161964fe53354799a89fec3e6ee97), (-0x187b75c770eeac05987192b82521124453b4447f78a4a5b7a831df1b59c0522e)) (0x2ec12cf77ea32022c0aa734d3a1dde536cd0a06463305051a4bf2bdbcf2c0aa7, 0x6edc37826cba32fa1b39dc898073580a85725a14bf3be3f06c4bac8999c45656) (0x33a6307e718ad27fd6ba3e3d0052aee9e1630b6ee1e5ea295b1e78d87fa5eac7, 0x58a12b01a90e4946508a9a9aff577419c88469c0422a91cabb6d39d405b85255);
  Step2 0x0 (0xb509fc5b612f91252cce53daf1169da9292abb718f1fd3aff7502e976edb8fe1, 0x224d0529c347c163aaf308e5563e213f3c0b984386f679a360b0da08aebe34fc) (0x180978baa408fb618144c8fdc04331fe7000bdcf01658616fad8abd760700ec, 0x4d9c8a7876324b037effcfb3fafcf379b29a7acb749edea1d909d529c0bb1f46) (0xa1fc1c2aa30e41a405025d6eb9b6b8b0d169e83e4867cfeea3d77774e47d4d1, 0x5061940a06c42a1f4efb66ff1c50630e9eaf9981f9397bb1a52bbdd4fa6315dc) (0x17d8ea7def5656da9e8db55da30f538a1d465dcf7a94fa31afe19091e2a4455da, 0xf13375cf34c6baafdf05f1b8cd284b623f46603b03b5763dab9344726186508a) (0xa6ecb838ecf77b5bfcd94964f40ebd98e2c7855fbf98d44219b4f8023c802b81, 0x4425589f7b07dca7546495e20c62573bd1d3dafbe91c2cc4785c9533b945b9a6) (0x1d5378d3eb6c97bb480b879f3ccbbad905ae10e7385eeeed644849d8f6a4ed6a, (-0x857bf14a32cf1a27d75520689abcf794070810840b152e08c26a9a367a781c1)) (0x0, 0x0) (0x0, 0x0) (0x0, 0x0) (0x0, 0x0) (0x0, 0x0) (0x0, 0x0);
  Step2 (-0x1) (0x331f16be2d51f11bbe7297322a81048c8cf02d34686c5e7dc75402b7a2ef0613, 0x35d6a70f16616c791a335a09c2d2a949576bd89d5b86642aaf41c5520dd90ad1) (0x5dd579b54f28d97458af1a239c7adeeb974731ed886a38cd07204773e0481502, 0x85a7cf92db53f80f8412a85d3095edb20791d5a730c4288e80ce08a78bbc4906) (0x6bf346681833c60f2a9f8c315bf060ba7413ef629ed3d96c787589433db3331, 0xb027712eca74cce7e32f798685c6a3e952e7943549bfb18c420f2f3902cfb5f2) (0x6cf77fe445257f2664299d5adbf1341267cc868ee71a08ccbe2dd43193313e16, 0x2f3cae0a6c75790667a84c5351b4ee5aed3019a786092bbce90b696b3a636cc2) ((-0x11781e2a5cfe21f674fd3399a1b1aea4352aec281d7c7954c1a6fedae79fbbef), 0x1e341da8b4b972b9d68cb92db1e24c50166348c6c235a5013152cff4f4132784) (0x73678300a942344797020d8d522a2e0ccbee5f6c43076c16b63ae1104e5600c, (-0x2aff01f512d5dae78cce06baadcbbee4fd42fe96f7c737ac92581ac3133b6254)) (0x1f95db9b1f57f60fc3b63cac02482f2a0080165f5f77a84bfed0f08471830eaa, 0x16990ce49d341a7af68589b67e543b58dd312845ebbf75605ff2de72b4296615) (0x5db8bb4a321f81d7e86436245fa321f0023152528cf439969824b53ddf9e2138, 0x4e1a403e7cb68a1d8f7c94bd668ad2178574cec1e9035679fe91a042ef96dc01) (0xe6384475cf7a8160aba2d63e93467d67686e3fe33857170f1dd831c108a712e, 0x41f2b3f40d0d2407fa8ccc14409dadffc66bfeeb8b1e7650dc50ec434bb42287) ((-0x6b6bc7e0a7eaae91480a2e7a73ff85d302e2e9d4af25c03f7cb41efe7e880cc), (-0x4cb2b8a89874197929aaddba1ea37aef059bd92bf486fa73133510ff9e84381)) ((-0x21469eb0bb3729cefc2d5faea486b8553fcafc724a94a11452805d9514791f), 0x7d530e30606bbd6beecaba8f7996b1299b48d9de1ace8d667fadb6d902a02cc) ((-0xdc1c94b4d1044057a6cb8b4ccfeee27b4a7963d108523df6ab4e1b7f41db8d1), 0x9a4462aa49f23526fc8e257063b8ca8056a3aefd63423b468440b74569e8807);
  Step2 0x0 (0x4a65358f0043f76dc7fa58611486db1f98a3572a0f8c7658897863c356ef83ad, 0x570f354cb3a5871733d89908fa29ac26b75507c7f4de13ccb1be2c9fad23c68e) (0x1f16ca9b6df001a30067d66311510dd7969748108ffd5eb8093c5cc4b5400b1b, 0x876150f7bcb3a18020db7da946fe2530751bfc224d567388d010cdfd8f039a1c) (0x696e99143f884f98b6012b376097e95ecf0ff75c02560c707c7df2c2f0aa998d, 0x3c5281b6e08a68eb6fdda5c4e2aae879cdc3f44088210bed3affe9501509a683) ((-0x3a0787eacf48ac0626aff0a87d6ce5983771804cf9778c50162d848aa930f04e), (-0xad6595135a0cebf45047da78fd74d62ba4f2fcb4661e31472d536d599a67abba)) ((-0x34ce80ed331d08e1c1e4e716803f0f3f9ed4a26421364455a15bcb9b3eaea8f2), 0x47137f1c622b64791bd85ba14bd8d47db827a43c75da448f434fdeaaaf8ac666) (0x5049ff74622dc713490afe86edc7cd0bc38d71b8438f1de958c6479be51d87ba, 0x689c0bef0c2766715bcc301687beeb534d3f2423b3f0ce45d189e9a3c8e9491) (0x0, 0x0) (0x0, 0x0) (0x0, 0x0) (0x0, 0x0) (0x0, 0x0) (0x0, 0x0);
  Step2 0x1 (0x8c06a956d0196cba58619e4f6653ec0d5cc100f43f492c367300b3fe852f85df, 0x4576700aa661414a8672324f6f0e496d10c5930427d414e77d2b5744895ee169) (0x23d6253425bc970502d55edb03a226ae58db73e1a9392ca6b8d7ed218eca3ca8, 0x8c0add2e697c54a1bd2bc4df261711d27fd348f4c1d5f5a8a9799df51e829493) (0x537dcaa18c4c44ab8a0ba03b11a6b3178bcc110d972f99d8eb89da4dbe0abe24, 0x91cf85e6b0cc3362ad1a61f9cc18b7be978017cffdd102f83c99bb41e4cb5da7) (0x29185114d4564e740a0a360512dfcb50d2a3a3b209a645dd8a5d79d68bca961fb, 0x227fdee6e51471fb934b75c64ad18fffbe655052e07d723165a0ad7460d3b09c) (0x36a279821e428142d9e3363b8e76482b6d6a5d1dec1329c67595faa61f605815, 0x6abd2590ddac80c3eba72cbc977be12d6c3c563ece65706e5c84caaee365cc1f) ((-0x17f6740654349c3a353f3db1628a10510fefe677c76028befc40b979aaf75e), (-0x5643e6acc993da3a9e80189760d24b6955b8ef4f4caf5399bbcb7ac84a5d7c8)) (0x3d5bf71fecbcde06b5d50f2547c12ee86ea5baaa738115302a7bb64c84c93a18, 0x15e64367fe1cc1bd572e94675955a7bd2ffcadd07993d090d73a3c85d1f6ed36) (0x6b914b035d896f88aa5e981b60942b0f472f5d47913b49a785f1d511a84bc536, 0xb26af7939fb20943a245e7bc32c4b40f4ac3bff5f44ad165175b9e61dcf3ba24) (0xb5a0679f78ed3023c94c11c95313f19fa5faf5742aa0f120707cc32568172c71, 0x678a7fefb2eb892d0704bb5f97db55d78cd1621663d7ea14b7a593a4374f2689) (0x80682d319ad320e4217f722ebf14e5aaf992b08910d27157c79721de2d6df41, 0x2d8ea4501c6ad3ef5a45958df9fe3d32b70ee0acdc7691f0b29999ae73931f) (0xf652ea6ebb8ff239fa6284c20d6e7569f6acddb8ce890151dbd014b1636b06b, 0xebefdb106fc9015dd16abba4c2982463303e6caf2ce2eff1e2255dd834f4348) ((-0xeed793a61e26c2e184318818bc8cfb38986f069be4ca9855a50afc6acdaeced), (-0x158a16a6962c636db6291dbbeee4363fe4f2957097037b120ac816ab5461e36c));
  Step2 0x0 (0x89cc3e598a6b834fd1fbfdcd42d7c4a65ed99debd6d0f7612a4c93bfbaf9cf38, 0xb5f2d3adb1d429911f057a9e3e40fe5f7a21d9e105e3169323ce533f387f3b) (0x45b94d0e637ee5d446a34450febe3db6e924185b1b48b2f3c92f495d20185e1f, 0x8bbaeafa5cc790ed8d04edd89f6462dfad65889a0a748c499190229dc99fa37b) (0x9c6850a64ef02d23cf111839b2f086987cb1bac040f64965844d420c8d0e4d65, 0x63caa91d808d4af8cbfe07ffdaf4fcabbf0699d0ec3634bb88aa6ddd06958d14) (0x46a91e19c2aad74f37989346c40c38446e5c6fb19337d806269d95caee7cd4a38, (-0x1d9d83bd3d05d2797ddcf4259369cb57207b01edee89c80c4d7dc958044113dd2)) (0x682ead8bb7dff9a574d33d66da74fd23483d1a0a0e41ae75e42381c95e0f11ff, 0x11323c97e4a6200259c8e7894a1484fe813f20d5c64beb2708d9630424715d1) (0x1c4fc4de78de529a2906da6f50c3c2f62091a0534adef33784480008a395bf3c, 0x1d66281f4212ab545a2a94761034486720d80c1d2e45ac8fbfb02d869db812c8) (0x0, 0x0) (0x0, 0x0) (0x0, 0x0) (0x0, 0x0) (0x0, 0x0) (0x0, 0x0);
  Step2 0x0 (0x1a226d44b605663465117cc4790e22ad9ec03262ff7633feeb3c77bae7145f10, 0x4ac74ac2dca563c7732823d35cf9c1fed1dc2e9ccf97af401a50dd3871f6034f) (0x4c2bd1e96f03ef79ac5825f0f5c46363aaf808dd8e94b89a681108446520ddf3, 0x6e4c01d9a06abf4fb8f46153806b9f34e1122b4f652fb70d7e9d4506fa1923ef) (0xab683c3af220b23e6ce61382936c5cee234b731c855ce7d4ba666d51bcf4f088, 0x4477401aa2d2b1d4e537a3882770b8913d9611d14911537c588f57839171fbd2) (0x1bbd5e7c558cb8a90366562ca382e2628e101d17b027442694e45ab4416c751bf, (-0xa3c56ad0d4360cdea6cddae5de5070979a81b695f42f771e6cc9a71f705d6728)) ((-0x399ddc0dbaca84adea21c9d773e1bd6ba46b6ea9c70e1d5a23714fde78790c2f), 0x157242a9ab5888768093a49eddf4f5e1e0893b460256d8eb10c3c2db4baf69d7) ((-0x1913f05809cd456dce78d4404c2a3be1abf76a9adce4e112519983a322f465f9), 0x19347841e92453990cd4c6e6f68a8cc52264e47f95f558657290401eff84e86) (0x0, 0x0) (0x0, 0x0) (0x0, 0x0) (0x0, 0x0) (0x0, 0x0) (0x0, 0x0);
  Step2 (-0x1) (0x8b225df0e9e05e31a00670d95644209824616f31f420559c1e27a370dc4d56aa, 0x5acdc52155eeee8ee2eb63e987c81f8582df3178d4403ef9223cf44de7153312) (0x509df320185677d870f8486af31a56cc810f4f4b06e42ac165366a98413578d2, 0x633867a44f1c3c957ce851af1791b6d18b30f7e8007b55d027ff1ae4c136479f) (0x79b0bc52a009d7809e1c6884cf7c713dba0b107a46b1a0af1642d50d805107f4, 0x10326589b4e330e9e98f7e32a42a2dda708284bfe24a9c2ebed81de50e1d43d7) (0x1ae43b085b02fa83942136d3624cc9a7461381ef91d1580803db35e859a24aeb7, (-0x1402f610d4c72ffcfafd8aada54fa8549eb73b7ce2d78268adac8e36bb7489e)) (0xfbc212e4b3bba1598a50247a55992e7c76963595a24b78b41b8c85bf9e4a174, 0x8aa4d0694de4889783ea1e3a8a7bb348a75a5fa288a0f19b4ff3d35ce8462e07) ((-0xe6e7be5aa65b5f9a44b39ef423fdc3ec7c8e14a70b5a74bece8d3bc379ccdba), 0x63db61f433d6213965ac06dcea9eaab91e3ecf5fba0b7317733857eafc9a63d) (0x523044469c247d9af95b7d43a7bea5f4005de8b7f9d736d5b01b0569381bf699, 0x87c2157ba55fd47f43f56e866d965e93962397030377a1c52a6b5101309f2177) (0x14662d444fdf707890e137bfb61a21fd32bb715897f8eaaa0610a5f6fdae0d12, 0xa2b8dffbe28e1b4ed96d4352237b32871061c30f3eb0ca162c4af45d8bd10156) (0x8a9b519b4663ce3c87838a2876b3bba5475e6f13de59ecc1021de0624f202a9f, 0x181ec9129bc4eb99b84da1be0c015c6986a966aba42327ca0b2bc9a2bfe52d4) ((-0x3ed5b70495a389a129ad425fc570b3ba7e3bcb987d3deecb33223a95d86b8c00), (-0x370af3990f99e1b8199f4826dc32f3be0ff5c2304972a12904747ebad478ffa)) ((-0xa5303c10e785c2d13be0f9488969361ca79937f82fc34500ed8eb831496d1830), 0x7a71d0e283a05eeca10335c638a8786ec8fd2d0188af733efbf24666c56c30a8) (0x79c2e5ed2b724ff492bf748f6e585bfeaae09500906501a1f3d0d071465093bb, 0x10381acf87fa25e30908cd1a278054e054c91a823a80a24ef6f16500653991ee);
  Step2 0x0 (0xaff99bcfd61d8cca64a6e7d2f9a1553a98e3f53ccf53a8c480d342155ba924b5, 0x1c7e703d99a9f8e3aa11c567f515b8ae599b96269ac0969a994e96ba0f1141c8) (0xa7652f0fbd131adeb8ec062457ebc360e5acbe36f0725855b494e54d09ed4313, 0x8ad55295a8a3fe18b766b3fecbc6e7e1db52a37f4e173b71d67ee8247c5bbd6b) (0xf09abec77bca8086ca0b1fcee726f0ac89ded8a69003fa06388dd3854fcf6ed, 0x5b440b470e76feb0052de9728088d47a68108354783d0fd45229b9b36b8f0c84) (0x46b98b7d9fdda83cc7bedb907b22a430f392cb9644fa06ac3961e68ab6fd7b90a, (-0x3f0734c003a3088118bfa0bd376e44a0cc40d4509accc8315f40288c13d68350)) (0xa101a0578633fe10655a3f66a07834bf400b5676f197f57c005c6f98386c46ea, 0x370692edffde81ff1b5be19e1175252fda15e2999622625ae94850de41a3f0ed) ((-0x95679fed50339dc202b5b2c4844d3a2b626ff804c96d127fb7e6d49b684e2605), 0x1590da72248dd062be1273419a86baed3e272a272a8c98a15e95e069b702d3) (0x0, 0x0) (0x0, 0x0) (0x0, 0x0) (0x0, 0x0) (0x0, 0x0) (0x0, 0x0);
  Step2 0x1 (0x92924bd8f11304696aa525f4b2a23a0914d18c588025952e6550acb8fa1aa8d2, 0x239bb3248c0b884515e9bc09b73dce17afe9c26ecec5e35f730fccf0a7429496) (0x646f8ce16b95a169210fa60d2f74685d7740f6a2f2b1f65856d7da96d0323b9c, 0x1a8befcbf31d01def224b347486d76360f4cf0f21d78d6076bc5978ed648de46) (0x2d30b503cb02e381fe2d3845eeffc8d7fc320d82b1cda850bd4588398d431c2d, 0x7eeec7847402dfcf305a0de3085fd466d840133af70bcae00c9c7f1ab17e1966) (0x7e2a3a992d69ddc2b9199c768ec0967a76ae22a98740ea9ffdc60c4278dbccfb, (-0x2646e0a91d1e2a73256bd5a6f3bb7c4319828e53aa0be10d0ec035958357c8de2)) (0x67f699775a41d84bbb664495ccfcb11ba8a829ce500d995b7ef12792e65b3ac2, 0x39464b30f3dcbb2d40b18e4621be9a3edb5e61350d85fe7a0024077ac232a1ac) (0x9f94237b171f023d9559565def3f4b8639176bbb8c794971e0065a018e23a48, 0x676323c4d1184e44dad6489dffa969300b68b04424b08dcd557e69f6ef3072f2) (0x7a6e35fa2006e7ba9a42d9a5c5a455743229db16e459c1801d353ee0b2795715, 0x6677b6d33a6cf28b38732df38f6aadd86be324ec34a5dc49d8d1c7a254496446) (0x8cf2c8a6349d0c6071e8a2cd0f53c41bf9c806ff4f1221091e1935c8c36895a2, 0x4513c108144a38807011ed02679c98c43591ddcbe1663a870e23b5859feb67a7) (0x97102a8adb5a16857b6fb1cb9cbcb9ee74d3e3d6cf00b80f2a3c007b4e370b18, 0x550241adf0e835c275995198c5685b6b922712d57c2e8f5e0421dd734417ddf0) ((-0x96e78dc796bacb07631f167acf5eb89b3a8af162043098791b477efa0368fd6f), 0x2e806681958ba3b3733ff66805d9286299869c7ca49d578d4862f814daca49f5) ((-0x20fa085afbdc649e432a4c9ddee791aed8293184f1a206de3026e4d9c02ab748), 0x89ab7b0a84aaf2eec61625db250ca9249675d525a74be5c02e2b16eb66c35ae6) (0x149bf3d3c92e2816b33c9e05a9d6c2fc02d9e3ebd86d709f0658860dbba5a8bd, (-0x335938f1cf59dd0bf9f2919d2b5a85bf04982ee299721a268d9b494ff45743db));
  Step2 0x0 (0x9f73bbd84d0817cc644999bdaa61e6232668260f3a14c7fae16cc81aacebe3d1, 0x3512132293beeacf5fa31a7414202dfa8e52e9fd90fb35b7a40117b595062405) (0x70595d8689d1498011c62736176aec0c290501c2556e73a3c856597438f54ea4, 0x4a03a1d8c38a01a4325cbe3d0bbe1d4fd8544f3e6aec4ea99130af81f34c60ca) (0x4a01b9b72ec3f906b394dd55d86643c8929fb929ab28e4e801ea74caa74a3fca, 0xc4f455da2fbdf00a500c9b13a44c50311e3640da0018421c261c78c6a113457) ((-0x49cc7809e5f00a2cd84afffb1af30f5571a09becf8dd458a848872d0aacbf2e), (-0x53cf1ba7f8762cd0e1a3a940c71b475c50ef0c2bba3a306e7e582914462c5f94)) (0x6c9917e54162895ec0c37da301a070d9742920809da812e55b33c4ff2c11ab53, 0x5cdd256c2059ab5e727cc4355f91b143a3cbc10fa1b5aa3454bd813bcac0cafa) (0x1be5a564c346539f0f5f156007cd51e4762a90bf39be32ada6c8b0234199b662, 0x40231fe5e5e97b95c3816d284ebf32429230aa0eccbe59fd1431ca097ad2d4c) (0x0, 0x0) (0x0, 0x0) (0x0, 0x0) (0x0, 0x0) (0x0, 0x0) (0x0, 0x0);
  Step2 0x0 (0x1d50ac456cd907fbfb4ae01d2b2c3f09d9c85e97763a130db48761df0bd45d4b, 0x1bbc111e28aa62e15cb83a56196702ebb0d588da49baecaac219d82c35aad8b0) (0x9b13458803d67b61d1ae17cb5b88b8aec154aeaf1674db0f296bd5de54f9fe75, 0x3cb889ccca74e930fb4a0478f4d03f187b6e2b0d2a131d2919ea090304bfe7a3) (0x5ab7f4cc2575f56b38b167a8af6abb4bbf51f49bf4d20ab4337a2b4c4f7d9cc2, 0x6c8eae8d0abf0258be68f986ba67c891146d846915c2c8aa26f96628ba2d94f3) ((-0xb1c588a9dc8abce5b524369071c766d18e0f661984899a7912164763a4c5d6c), (-0xf74637ceeaff33cb7671852e40842318711690436e8ebb7d5b7a0aab63d9566e)) ((-0x3b9d3e153f4bb138609eeb9e8d27261ab7f920fa2dc450bc19619472d567c14), 0x8ec1bbcfb58bfa3e1595c86377717bedfcb4b366a5d3e572b5cf41e7150c5dd) ((-0xaeb2272a2e5525f4413d040fb13fc4e0179753fa4263e2bd6744e36463677b3), (-0x45d20f5cb28acc7b41c8b864d875dcba7cec1d013cf2adc3961f5d03ac0b751)) (0x0, 0x0) (0x0, 0x0) (0x0, 0x0) (0x0, 0x0) (0x0, 0x0) (0x0, 0x0);
  Step2 (-0x1) (0x34f44d4c18773a7b419db52465a827b1d494f5664ce31d988e6d44fa937e0f2a, 0x7f3f55f3f64b4c73d475b2c08298a5fa1b20e7c16e47c88f4f66053052e29edd) (0x9fd407c8bf2b800c93769081358d873e7e42e7c3914022d320ebada2d609338e, 0x2c9b3af5d86977f74900d0a5d7a808f7936e9f58997442093675d6229a2f1e19) (0x9f83db51d8de1ac6e8f0ae4968e7fb851b5c703baf7b2083e9331489d983d279, 0x86d70375288151b2aaac6007ad6ff8c1a963279a636d80375c592a920c8a69a3) ((-0x20cef9c3536d176f24fd591a3336d02131a2c7e5e002ab375f7c814b59a2c061d), (-0x783cc1bfd63ffbb50ed0c7e1ffc42c4ade13ebb9605291703f8c2c58b94eaf92)) ((-0xa24d76260cc804dcd90579357e228a39e7ccf6cfbdfe48e0978d5104204a309e), 0x49f21677ae80b2af1296ac2f2673ba5827ca9b241d361ff9b1811a3235d3d2c9) ((-0x17e223f073f771af49d19580f9af76e3f381a44da8aa978841c13381a585fe4d), 0x15d1983a1fc69ecc3baed97f0ce97606dd9080a58a8bccc7cf20267b56b06ad) (0x4ec39e190eeaa6d4d7630806f9ae3f093dbac2cb47cac3f4fc5fad2c88173e97, 0xa0dff979aa82270e46342b2503d2c0baa5db28fd48d085ac074f9f53eab31ee0) (0x1b1d8a6eecdb9c694c896d8b5ba321934ca1953f45afeae154abf13df2bd87b2, 0x940f283aa718f529da1bdd06eab146944ce2a922f46a344725d53177ca9d999) (0x2a8ca1ca93fdd7fd3757940093dc21ab278aee767788a184840e175e53a8e1c2, 0x731b49120a83091ff7293da3c5a3e5e7f95272c768b54debe6f21d4912c2daba) ((-0xca8167016efd892645c7493ed30ef25ac12b5f2d867accf61b055202c1153e39), (-0x35eaef56e1be356565ba08122921336842e8a033e0d4067af963e3d15568353b)) ((-0xf9f93a5620f2dea59f6acfebbf82284faf97afb5b00503ff58af0b9ea26accd2), 0x8b0d79c485ceb1045900488eec411167b19c29ee7b4fbe6e6e1665ffc1fdae11) ((-0x50eae4ef14bd434a605e3d620d1131762f4e7ce1cd0b35f0f0634efd8d42103), 0x846d20669d44f13221632efa41bbedf07195faf56925eff9e77b8ff6ca9b1f9f);
  Step2 0x0 (0x30f3d04be095faa42bcb90601d4a9abb3aaa5d916dcb2815595ede7b21cfe176, 0x77c6acce60541fa7baf3b7e9e8f80214c3c809074e4a279b880b83e869fdc741) (0x878a6cd70963b6d89dc35a5b0b068dfd06ce6c3e2c808f03755f0a240d518e58, 0x34ae4a6abede9148450e1778f9b6803ca9be6cf2d8dce66c849f642fbb6344b2) (0x18b164d2644091e6a3b86ae43e9b9aef0ccef4145d76d84a5ee8c03cc2d89860, 0x5c6b52d608328fe0aa25c932f68785fe7a5f612d4302b42782602345c4ae4c54) ((-0x1210594515cc8f4b07fa4d7562c7819d3d068be28dfe8e0d7c12b09063fd1996e), 0x6d808cdc7a15f3a87b7c20c3bddce4d91e930dd6f7e28f5c18c86253176c5170) ((-0x90496f21a4e728e61b77be3f804ec7186c348030e727d86da8cd80b962c260e2), 0x4058013f4778156a5e90763d1351459c713c812173ee2c1b917d6fe9c7d8e0a8) (0x1bf54c26ef2f36c012f9a78db7b9285e501c653edbc89641e0e84c78e1fe5dfc, (-0x52ec27b0b41198c12186965ad876f2fa71da539656ef9aba9e182df4c563fbc2)) (0x0, 0x0) (0x0, 0x0) (0x0, 0x0) (0x0, 0x0) (0x0, 0x0) (0x0, 0x0);
  Step2 (-0x1) (0xae7f379622e51b0d986fb38a0951be0caa391630a930702f88cc2df2e9c9405c, 0x56d53c8229f7bca187242980a5062f41fd81050390144ec77c62509fd2d0cdb1) (0x567feb1c81cd7a47f0fd28dc76363c0ed0c30f1add918b3e1113a2d0f10f7718, 0x9d04e63992851e245dfdeb7489768a48484caa574af89ce350eca13c882a6f56) (0x9891fc147180947ada5eabeb784d146bf425e03c79077ecea761f55fa0832620, 0xac081fe739a2e445897320009d1222de670a54fb2b72b628ebce6d5785f1f9a5) ((-0x153e37ce20f70f45b6204b210cb80699123b68462438f058840da3fc1bbacaed8), (-0x2291d1f9c71c0d8a02519feb8f576860c862b1c0f2146c5e5e06048e56babe00)) (0x5454a4af6d123c172ec7593520d60ab8172662dd3ff704c229d9669d8f66057e, 0xa6472ca4f8aed1720f19117734ca762015ea1ca7910a5aa46db16b2e1e54e8d6) (0x9260f33ce0035ca3435623c39bf8a1eb793d8c0cab78feb2ae75cd209701eae8, (-0x4c88ba4511550c25d5542be026e168ee2e3b3486077181f2f6772db88e1bc89d)) (0x87c5117491a40c5e71738a150176bcaaf949a170e104eef55853aca71781159d, 0xaf7ccfc980269b607df0e819ab1a7e97d30220dfb3348f3fceb58556297c7e41) (0x48d9eb17e32eac5bc40dee3732b41ab98fddfa7bbe9f1a0b291bb61c7dead633, 0x5179a9204b1e06d4e7b7eb8843a3b176aef2573e560956445957f62ad86c680f) (0x327252ef4464a943b41aa41244dc7349d54718ab8e21d8ec336b4c860408ee67, 0x1727cc5e76188119cf47664e7d7fcad3f9f1c18164ec5c026e08d1be686efa6f) (0x1592e6359181b42c0a2d2e531144e737c417fb8a0b09fbfcd2f4b6e9cb2beac8, (-0x2f95e7273237c4bf2060abd6782199c6c04550f29ca8ab57f6153651adbaf49f)) ((-0xecceef27c447972430824d7861a35fcf32d61e5f77fe46a0ee8ed103ff74f60b), 0x10576c9d08565209a12d162c917cdf44d52468ab7cbe10312981a0fcf17193da4) ((-0x87506440d4f88b9d7d0f67b532124d17577767e62d1dd1db856751fba70602f4), 0x456b66ea0ddd7d1f267eb0005253e97e7c1f88cfa939e0e78727be8c7eac7ecc);
  Step2 0x0 (0x4fa5b925e90ec5214c45d006b60eff672b944a2b628889027d40f7fd8e640f0a, 0x50c73979a271110c46105758773837f363f030a08db244c908e1933ee7ed3e49) (0x408dfde0965f1293535e908749b3a4a19718f1495fcbabcfedce7b084da86f69, 0x9912755229572c3bec060ad39fe91cb0d03b1a96cf5fd6930e4fccd520e8b4) (0x56f0dbb2ec946f7a52b686cf9e4f7b286cdddc1ecf6d5ac4905d28186c400caa, 0xa8f5e5ec800ee050c9c99148e0b8a08165fc9d8b72694bcf52ff4fa2bd7aa0f7) (0x863812c2304d34536e5204e7601f62ffe1148c6fc6cea8580a99b35b7cc78017, (-0x8273c650a1b6b7c3a51288d97a1f4a06eb2d0ece2b3f1dafa912d42815f549d4)) ((-0x24cc6f7dbd6198ac063acf21ba3e15c108bc5d2887631187f07654ae8cdd4ed1), 0x469a92f7f4d8a21f57077666ae599e60ff4d07226b1087983949aaf6bdd3ac0a) ((-0x44117bf8d8f1d8f9253b66c640085ddd930dca20b66dbdc20f77917a5c0ff3cf), 0x2705c1268583d951772e727ce52f90165e57f81f92fdbc24f793c0814f8c1d6a) (0x0, 0x0) (0x0, 0x0) (0x0, 0x0) (0x0, 0x0) (0x0, 0x0) (0x0, 0x0);
  Step2 (-0x1) (0x4613d254ed4c126e416ab082a40709aa1739d8acd85a65cc7b6c2b17cacb72ba, 0x6d7068ebb497e18edeb58080e9f2d06a6110643e50f1fb45bcacb8554b432f8d) (0x58dfd7b7c02809a3adfdcf94434009147bb4587d87116ef254c070d732e50e8c, 0x7bb66c6c019ce9eb7c2ba1c093a207b1204f83c6b453a2b49dff4e410708091c) (0x883df817016f7087988ca909cb5fb47c07c996fdc9b7ed7396ddee9c1f0c7568, 0x90ae6e129911377befb185f97111320e009dacac1d114c1d60d6eff5e0aa5aaa) ((-0x1978fd32230a09569a1727abd4ab45e54563d1b5d7675142ec36a27df37d26283), 0xe914040c0f2eb9d44933599cfb054ccd77438e89e6df399a09fde6b832b7d198) ((-0x687cff70c72c702eb8c966c065ff4b45b6e007407ce8db53305c728ba1b9c17c), 0x542953c88663b26f8305ad83fc33f431c25481e1eedf0a5229433499822529e0) (0x8a81b87bc93f49abad970145cea128da029ee5c06d2ffa88855b616077eb8450, (-0x3df15fcfb13668c53dd14da6573b1c8e77edca606900bf43decae97502e1bdd8)) (0x609ded179a76cf7084193a5245c85403b98bf77a43c027f79fa725ba9c3266ff, 0x81083cad68bbd4d4472fe13b20aee6f9f9747b66d197fc0dd892b9b0cc8cddb4) (0x774f39d0fc5e302a6e61454273140ef8ba8f133969da09723b2a63090e36c59f, 0x813e2687eb45c5e43fe5586e5214a61958292aba5d8922df3abe3f4afed97abf) (0x2341228cdeec81a447f7887601bfbdeee33b6e939d99282e1712423d4f1755a7, 0xa33fd0abe93447b27bfd0b8ef8238b03cf21871a340b4f73313c51ab65cd8791) ((-0x200153ee5bf9b4f66b7b65396dc9540f911d7b0115725adaa14174e0b8b206c8), (-0x129a0c0aa9894e48ccffd8f03cfceb005e57885397f4f1013b7977ec9d76030d)) ((-0x837d0e85ef93a6f463c8c10d3990d2c434a1204249267cb5383a98f733611949), 0x88cf040659b8f40b5ab8ba714c0180ef9c02ca18c3b651f28b1c5b0d5d5b3e2c) ((-0x84dd1cf13a03c3c7f88d78b32a2e88c8917aa73cd9809878cf537f601215014), (-0x187ac9f5d830ce65ab6fea8e8ad2b18c202465595a6615ff033b696544215004));
  Step2 0x0 (0x6a044e33f7d9effca812f3c6202f0102a1705130fe748f44933533b1c627dcb9, 0x729b28bd3296f05dece0fb152e2e01562ae7e5d5ee9bd22522c0a02dd78b401b) (0x54a603caa7b15ada36af3d5e632d2d94797383910a93f3bce099540dc10e81, 0xb5309c63b72b97da76f2fbc5baf215ff469437b4dcf8a1fa8e3d9f1d40f3f9bf) (0x7e35d1d444cb79dc60c3592112c0f34859e05417f5c06d3c3f82da5e80bbc149, 0x1fe9b95a1f78c2c76caf1c3e9a06a354ee1be8a6be7e6b93f49ab2c837cc6771) ((-0x36041409001f86eb6a414b114cd74664fba81acf6327e14cd5e52767d530af27), (-0x1116251251e2b39b03ff5a4632ba7f747a4b861e1c62c0ec760acbf689e1a5202)) ((-0x527776149308f8be130555fc204179b78b1af01a45aadc5d604d4f4e488054c0), 0x8555d1cb5d0d52eaeab7f6c3978688a171e4c9d6b58f3e3dd50ac3c33ce1a53d) (0x868b4b97c48bd0807620267bfbe54b91342840d2298d9826286b99a65447e316, 0x2c99b645138728e7808de50f6d1951e584cf7c935a99c17172d1513fdbf7fb48) (0x0, 0x0) (0x0, 0x0) (0x0, 0x0) (0x0, 0x0) (0x0, 0x0) (0x0, 0x0);
  Step2 0x1 (0x35e9ba5cbd8a0a86afd9b0f2ce382da13363aad17b38b65225008db297ac3f42, 0x9da73f375730f5480801d470022caf3ad0e4340adf4ab877bc6bf557279a8db5) (0x66245e41add3a015c16e9012ac1056b0122873124658504dd1b9ad81dc308a86, 0x7b86bf039a1c9b0cafe593e7865688f3721e3de11f0ed34fc6d71d881fb4704f) (0x69aaa3b4555aeafa2d88176e1fb58d1effd9220db13277cbf241cd4db006705b, 0x7b486a4a70bccc0cb35321460bd5a0082a17e2013ccbcb1048f8dedb0cc9f925) (0x4150f8b222ffa5b1e861c8a7d6494952d79c621741671bf4867607eb5ab812ccf, 0xeb43126efdc193a1342c1d122b89f063238224aca3ca4a9b17d5a2c889a6cb54) ((-0x100cdcf9a617d235abc5282e680c6612badd02ad71d3afd3fe062471367978a2e), 0x5d460ef6dafba0cd033a8888f055c1bef37b658dc95cfae259fa5675299fec53) ((-0x81e14fa4111b5e78bcc9508f3bb004aa51fd94555d18ac085a9f45b46c0470e6), (-0x470349b5a8f337aeb7e2689bf66705e0516f6f4d8e91dab55628843af6b3936b)) (0x5ffe899e954e4c9a26900e17a1983ee5fa85b165ec86dda9c826835ae7a77046, 0x3cd22c0c448a84a990526d63edfd8ec897b1e859dfc626d56760a5a0e2b99905) (0x6dca906b08ce21bff3921ccb541eb930560d0a69926874a1fffe12189ae78df7, 0x8d0253f1589211beab8b35ff5ddd0f8dceddbac89b04fcd959910d81b3803db4) (0x93230f6e6fe8300b56807f674890a578efc1c9a4e98b47a22642ade4f6fc3575, 0x650472b62cd213e10323044c2d4b4136299c751c5c47c9839db59856629283a3) ((-0x1f89f8036cb0cc9b3da9f8b678f9d25cfe328b526ea37fa0ace14a76ea0ff4ca), (-0xa566a7a2cf41da9b2e981c21f3f2d3792588db72bb2fda6762b9c468844934c)) (0x9f79939376deb445450dadde892de5f75d5bf0c0d71d9baa739546d108e03a2, 0x40122b0b5354bd7bb52b8b2e74b7a19fb08a4143284d16789fe9fd3a5e0236d8) (0x7a3ca8ec4f4bea7e72a897a33cd126a2458051ad51ac725058922fad7bb72ec, (-0xbc2dccb4b3f9a6cbeac17484fb2fbcabf3310b1b8e40f779d32c0a5916909f7));
  Step2 0x0 (0xa8ea16e1f2be561a154f5526808eacc66c628497d7893b9d04f6b13aa2d54e29, 0x36a17259c406714087a9466a3cd0879db8ce57b0ab7290af689dc4466ccedb21) (0x83d6dbe82ba3c3ff203fe184059f18bfa264d06ff4eab48d7f625062ecca0d75, 0x980d6502f30340667493c58b2e4baa56a44a8b6d9bf0e020e52350c9755518b8) (0x61ce428b7c21c3af19781b1971df51e90c87d01e494325622c8d1b1fb241cfc7, 0x7c9e7b281f762d433d6f1929d8db4f84f0ef5c3472dd1f2f7a5d29310f79ec65) (0x25fcccabc46afa5648372b72cf5393c4f21320d33d302d2d6e78afa0c035e8437, (-0xea381c05fb548710e93687e130403e97d4e1456fde6e2b81b1b028e98316e6c8)) (0x7bcd850d1ea348d325cf72f354083f7042d68f9e3d4534255d27cf696b92671c, 0x6544355f3a7e5a0d23ea7f3a0a49021107e812b9382c55b20217a24805557cda) ((-0xdd06d3ad7e3669a7a476e6f7ef89fe8f28970c4df131bc5593bc430ab9f508a), (-0x10d81ea223794527fd4709d32d6e809a10a0d8f63fd4eda73657c985b73774b2)) (0x0, 0x0) (0x0, 0x0) (0x0, 0x0) (0x0, 0x0) (0x0, 0x0) (0x0, 0x0);
  Step2 0x1 (0xa3722be468c28e817abb5c0938e83752acfb3aa5313443ff4a48a1c1c311ea8d, 0xab66055dc97ef8f8fb3e4d11b849fbf6e88e966250edd731d858df3e82ca10f2) (0x99a3d2fecb7ae345bc537b0f43b057c83f6d352db33c07941a2241b4d745955, 0x5ebeec75a33aacff5858cb2950ef6e18233cf3fe0d00c3b094624a3951fa2b4f) (0x7397c3d88ea1a2f8aece52c9c7096e7ff0836f887e5b84d4a9e34bad4cc1f633, 0xa4a3c36c5281a446869979db0dabf17feae71b826114fe0ac73628554a1ec9ef) (0xb5aa423440e258c10dddca6a4fe17885449a703cb049c8c0f152133d61194d5f, (-0xfc7ab197d36ee7bc954376167bb33b06ce4b20fd9095d73b8820c8cb4c06c1fa)) ((-0xafcde02bc0a651ef088e955fddcf235a4b833e7bebd3fc591406cd6828625ef6), 0x1336da1d86bd1fcaf9bcf481ae764f3201a68f0a3b39eb19fee38ad2b70f9c139) (0x1d60225b1875bca604f969fafd1f583e2d96920406a92577c59294e87ba4b4a, 0xa65a37da692c9004c0e5e931352b9e3343f54bbcf89ce266f8c76872916a3795) (0x14516a4528736e7522824353df2fe8487824cf6c400dd518ab95765f3bee6eec, 0x6f6c3ffad86f9acda4029f8acb3f4bd4704d02106ccadf40f33bd367e82c8682) (0x224b81238e6ce0561007792a968c57d76bedb3b8cd85f5e6c2a0acd0adbed68, 0x1b19ac576d744b70c00947adafc440bcca201bf92f97ffe10bbd5b8d0006f68a) (0x1c842cccfc4cb2fbce8b3448aca728a6cbe5533f8c7ff79ad1c8970f4aa52802, 0x2d7510a8279d4bae1fff520baa48604fc1d8295543016ce22d4d2d71ef9d16f1) ((-0x2a88e4edbc45f1fb3a76ae48a07454a3c8ab9f6280dc6cac23733a124f1f8d64), 0x202d95c48a81ce640ccec40d85e0eb2965b770331c19b35ba0fd9ae864808501) ((-0x85fa12fc05bbf7e5a27f42db2b3c70d1fd1462b6413c3785a6bb3a6d26f91ad0), 0x18d80438ed2d1b9895124efd0322126eb9368e4f152f3949a6690cc5c58b92ce) ((-0x51e1bd8265369a353b9f1b92e06db841d950870654b3862e410ab0eab84dea91), 0xc1a087b10d813c36aaef0acc8539770dafe7d46732491db50e389fe5c0c774e);
  Step2 0x0 (0x423a4ceb57099219d7cca02bbd1a0e45589a1f92b047398363509c0d7dbf1ba5, 0xb0f05b8614716f8be849e8413ad77cd9ca56e4a2d485cd4bb435ccde734d79ac) (0x9bcb13485bb05085c0679839b3c00219ff017bca2aa46ed317e31e569bebd9a7, 0x1b6c64f9b105814c63246b70a91b18ec5a958064c0fcea0c550b9172d05e6f99) (0x59f95b5789b24408e2c5c2fe4f67ff7d1121b82c907e7bfa850a0e1c65f32f2b, 0x58f489bb56b38a5e925f34fa64caf2f69b223a0948afb5b1a448802c019a5915) ((-0x83b3c72a8e53e74b0acb67e28bb0ba9b2ba7cf3684d386da78c0bdeece230ad4), 0x567ee19be30ef71bdd4d187c570a2a80277d8e0b942ed456e683dc80e85ca802) ((-0x13f7fa90ab977e6b6e822eafdc2455e18c106e1541bf0086ca4f3f0610f1d0c96), 0x809870faeb271d1e425feced50283dbb48e5fa3f2bac785443ac3a502b437127) ((-0x37351224f3e3e60f9aae3284a616da05c4754ee324324536983069f10a864320), (-0x954a23df7be0b8e7fa6296a0b66ee41e3e7d6aa9b40c5f26f7a6cc534c4adc29)) (0x0, 0x0) (0x0, 0x0) (0x0, 0x0) (0x0, 0x0) (0x0, 0x0) (0x0, 0x0);
  Step2 0x0 (0x9d58491caca629e1fadac8ae36b5cc976f52aa5bce99ca47d663a3ce6726a15, 0x2a43f97f21209fa9d9bc7aecb54b5630bcb41b2707684c86c49ed75c3b420484) (0x553437ca04f3c9f4efb07565c3caf67e526a5adcb119a82850847348f49f378b, 0x963161ec548e16a24dfc2ea393b41da1fe4965a8fc9ff677b6c01de1b0ae206a) (0x378418f77d6d892718d82a6bd6c51016a2adab1da51d6bc6406ac2d32bc3ff08, 0xadd39cd2dd8abc045c9829f5234cf91ff66f52ba2aed05963ff478c1d5c2d8eb) ((-0x1bf94d2601b94c4fa1aa917a01ad6b73474d1eb04a387269b000602bcfd41b35b), (-0x5952b0be3e29b72c3cacc7f6a46a4d84aa0ab307946c9f432d18de9e9ad09650)) ((-0x1312ab42ed4acbbe72c44bdcc2fb7f47e5b133b0503a39f89ac3a851c7f40640), 0x48fac535ffee6502bd5bcbf697a93a1dd0c7cf295a4c1824ad069960695f3fc) (0x3cc074de3a56b791087e02bcf0ffd62713a6f85bc6885992635eb37b217f79f5, 0x9beec92c23ad4aa49ca066c22faae89fffa76dd38fa3d2aaacf244861c16467) (0x0, 0x0) (0x0, 0x0) (0x0, 0x0) (0x0, 0x0) (0x0, 0x0) (0x0, 0x0);
  Step2 0x0 (0x8630dfbd47303a96497d71ea4251d3c335783bfb09e20aa2693fe02d1e9ceced, 0xfd0503df9004412393e287cd1c0a1e14d1c76b4bb18a6552dd70dd25e6c9e22) (0x26cb9bb8b1b1574b88198a1a1c77c688dd4e5fbc809524e7b346f1ba89d02d97, 0x56c777333626315a9cfc8cbb58097ce912b7437d62735f69a4279cf2b42d4294) (0xae1ffff3aa42457b03d2b2608930bf0b74cb0acd24782aba1fea577bb0f635f7, 0x23c26ebe4e8bab2524fad361910b79a78413d7345d7aabacef316ba0f7481c1f) (0x284913bd98af540739a6ba61ff4c9381cca9f80e7c524c39d09b92622882f6389, (-0x9bb094be8f5a0062fdf4a2ebe30289deda2b9998d35924000fc7eaa06843284e)) (0x600f86d26cd6fff9335e7671eba4eeb8812a685f71c380dfd6b8ab6af4b852c4, 0x17498e9762784f3aa149ec95a1849e7e4274a0353a17d3150e0fea0f7bdabb7c) (0x172a7e684b82fd68f84794fb3abc7d46877361f781c2fce40cb8416e35c04ad1, 0x32b7ed8099609ed530d5b9e9208c0755a3372e63e6e26800cc1be767e92a472c) (0x0, 0x0) (0x0, 0x0) (0x0, 0x0) (0x0, 0x0) (0x0, 0x0) (0x0, 0x0);
  Step2 0x0 (0x3c65153dadabb5d50773f7e4edc0a6a5c45510db2c04d32f3d7bb55bcbd9b958, 0x7b3ffb968fa48ee3619ee42e15612bde3dfc29ec9c0854bb4d0095967a8ca073) (0x58639412a0032a3a0f0105d6c76f0c68bb1f43cb9a3b2f112d502d3afb2cd142, 0xa9e7905b2d32be914abf5b4ee8d80e7f3e327a5627b755c93330abf49835bc4) (0x225d5882cc34da7bf38d532353593f23c4bf8358a26cc56b97d19ed06ff901e2, 0x11f40993a475ba26ee30753e3165c86814edefa26f3ed2d6e66b9861db54fdbd) (0xf1d1c41259b0aa2816ef051b00c6569433dd0ff89e76ea49f26c1592252763bd, 0x94601582d5b166e5add7945fcc708703785b1f17145395db4c3c2b9d1d8b57da) ((-0x92afa8658179d55f502823b511eed55e36ab0f4947aa4f9816968c5115e70b2a), 0x51afafc0c23eee6c22e342c3e56a117739fe5ddff8694c08afdec49475585df4) ((-0x7771a75d72a33cf71f39d0d8cac2846b1252da14c6f050c43fc69354d48ee255), (-0x84ce14e143b395d1e8b96504e99569f4001093e9743be6a8d8b25f665e69c71)) (0x0, 0x0) (0x0, 0x0) (0x0, 0x0) (0x0, 0x0) (0x0, 0x0) (0x0, 0x0);
  Step2 (-0x1) (0x67f2d7f29217c521e01f225c830dac3d4fa203f76cc9ddfc47c9765642d59e8f, 0x2fe04a7f9df0793d1a2a9106ca61327dad7989239026280cd81556fe141336f1) (0x86d1df223dea229ce85dd748375485d70855d60ac2005227a74292908606be98, 0x10374d69cffe36428f46669e6a5ad013fc408e60f24e2696c0e029ba234a1f6f) (0xa2a6ed61cf5b22f107a920c14e445c0fd135227c43bee8a7c7f704503eca633c, 0x80ab46badf383867a028ec5ed1e7d41b093a2472a096d2a8a03206b9e97c9cc8) ((-0x688df930e4ed94e692cdeee083dffac354e35e70e4e5ad94342ab53ab7feb0b4), 0x7a24ca5e040e9771a1e5394db5f4cdced6b4c6b03e3d6ec7beff8a17e37e482) (0x222281184bd071cf85624f7c480841d4bcfe185f6240fe59318031fd544e0c7f, 0x369d102e5ce4d1579dad69c55e6aa764dd8f8355f1a3c06a53a68f5fa84fb613) ((-0x178ab46737fd13d296fdd8bc59136603cb035bd91e3856109469f026b422ef9a), (-0xf63b35edd315a9ab54b15004ab2dd87a56fffc0eed12ce70aad020051297f00)) (0xac62b3de012eeb8fc63ee38539ae786ca6e25f72c3b125f3a986470338063f59, 0x23eea298b0280ce319781a9fb2cb3fe176206b68d5298f3b4f4a1e5a55439eb2) (0xa06f757c4b996149035f3f1a71ffcd44f581efacf84c5ee96a409e3f514349a2, 0x8af926fd1ff43916c8ed83a4d488b05ce431a1b2eeb178f02e39e0420c50c497) (0x58a6800081b9b9f5730faad01612e9286a2c4e35f9af7f4f7aa55f06e3f1328c, 0x7104683c8b22c86e0bc09434b785fb0edbf8bb3b340de4d72232511c36c627d4) ((-0x79b10ce1e3d33eddd8b222a0a6543807f0eb3fdcc2427b24369736bebf5fa742), 0x5f6612ef5c80d30a915f924790420b18b1ac3172125dae438d7b015b5bd641ae) (0x94e2e861b30ba0cfbcf62783da83d1aa8e3c776d058f54b90558425b65662a64, 0x43f9806ff2aa74087262156413ce0fbb92b874715dfa4a5555b53019a4915d01) (0x182d1b1438d47960d72c6b0ee15db9d67d0555554ab2d303a0b93be8d962d536, (-0x7929c87ab3f10833a39692f88311ff308bdb9d9ca7a65097b41199d511506bd8));
  Step2 0x0 (0x286aac4bf645edeef9e6d77f3c3360a5e11b4a81cd65f559c0cf20232a7304cd, 0xae119fcebdbdca34a030796958fa740e5ce078b83227cd3f8e3f246dfd712d25) (0x239fac4d87b7863311c0e136df456f4d73f54fb03ca92c310d596a85d01f5d6, 0x942201eaa61ec2dfc131e179ff0f692f12c14dc2fa77a4372406f2059e6e3362) (0xa49dada1f803c29d6041bf1cab9b7b096761932b4f8cf9f84dc24e5452bc18f, 0xa054b725a1ea7cacc240fadc35e35d62970a0a68dd7e07eb058a0e1d63a545c4) ((-0xb4508d454c275946db42680a4a7a992560f6860b27e8ccdef72dd88d3f3849d6), (-0x2029056f9022b8edaf8d16b33b50fb1480a1d33969d59b1b45ef348276d841ee4)) ((-0x1438bff741f16072c372eb18aeda6e7526ada2d27341c9828b4cfd01141405f9f), 0x4d346d580acb19bea1280d1e951503948a0f1833ab75d4f24fd305f9f0f3721a) (0x3495016d025b0a2f435299bd91b5bb369eb45295ffb51d97b12fb33b0956bddb, 0x95135f1272c8956e108707935913bcff68ee387908f1b8345182de6a29605bb9) (0x0, 0x0) (0x0, 0x0) (0x0, 0x0) (0x0, 0x0) (0x0, 0x0) (0x0, 0x0);
  Step2 (-0x1) (0x8585ac3ae64043762eadb20dca1dfc8182dd4d55708965b2eea02979e20e2c17, 0x5a25407e7cc6ee62378f7318c30959fc91a56296ca4dd1554e734a4f02d301aa) (0x64f99ae1daf5401696a5769db9e130abad29c16aaf3448ec7602714c48b4d9be, 0x1f4a1098d1c8815915229d6cfd694e31b5133c844f4aa0e4e807ebd07be3f0b) (0x5074f7aba37acb8a60565e7606debf9ac24e0e2b5b494e38acc6273ed697902f, 0x5c31f85d1a181dcf81638507f7c6a4de7e8af527ff1ae663a49368f82221fc02) (0x1a4316ed131a424dd2801d8cd738a92c8226db5aae3290be17f6fa82e6ac199d6, 0xea3f335c56e8ec8d81bc5bcbefe83d37ed97a7a5e58fbee3f7fe381571663ecc) (0x8a56248cbdf0bbdc17a2a58ae9b680d8b2190f73867cadf73238163b46e608b, 0x841642be4bbcc13e63664b3e2fdd223c6b23abcb4ba73bed586eda7cb247da41) ((-0xd8f3cd85462490c5777ec54aebfceb8d231506497cff63dbecf6fef60190934a), 0x3a40251101f5dbfe27d492851623e1d2cb83b4501ab249e3f252f2d72f3652d7) (0x96ce67367bb80b327b45480e8d9671d4b3bc385f641a3fe69414117045d5eefd, 0x3ed410a6cb9f724b9a43076b3efabb54655627c2273674a3411aa58f51998bfa) (0x39a1bf5ece04e3a4919d0e7544dc31df8b179be18af3929f5be778fb23a35688, 0x141dae353f68fcc9f18712acf16ba926afbfbe1e65640305c969cd156b463c6) (0x2b69037afb2207c6c84451fdbef1480a6aef22d73b874a1b1ceb47722e06e36f, 0x92c133ec744a189ae670006ff7352981872bab659d7302c395456bfec3838c21) ((-0x80c129024cf4f9408745ef92bde681a67cda97f229d76c5cd79cd850018dcd0d), 0x5d32a40f826ec8caaf7a673341207a39ade52a044571148fc8672f66825b0ae8) (0x51780de686daa055dc8264730b57b3dd68b69810f33cfc4e6fad1035f34525a0, 0x67fa23121d9adb7ee007099675c8ec7d688870c7079b4e20e0408cd4dd0274fa) (0x2362385e2be6d21b9967a00e7b7cdb72d8984170936e577b20d88805a7807cac, 0xf851618d3a7765666d9c665951be4c23119327fefc1ed01b3d938764397df12);
  Step2 0x0 (0xa54fde766111eb2b6f1f05cc77de8f2c0f4fe32c030468f95209e3a3e224ab19, 0x73c27837c5bab861d1882584323fc6d6fadc2eab261d5d6a6443a0e0645163fa) (0x1a0ae4716b1fd51ce1b36a93f6005b7758c574955d9f94994a930eaa17406a25, 0x54d677a538db599d9c3e3dc7e7e2dfb1db28f1486771988290f2233893c8cc5e) (0x904b83335b381fa29b25962ee892d73633ddcb8d56421374a4f148b6686a00d2, 0xc0be476458fd6fa282736e36553a571a4c68f4ae753e8d822e7171c88472f96) ((-0x15cba0534ed95839d9c29eef0a2425aff69e667dd8df08c6992a67d07efb8c74a), 0x13efdcaf30ad911e5b2b5b32678f13a8b53ccf930acf0c5031bd088a5314a76f6) (0x2e4e811ae21802e2fe46b4a992a26a3c78e082fbbe967c505c392c12afcf704, 0xd20095262bd6b7df0b2debcba92561d4a7cff448fda33585b3839fc2ba5276b2) (0x86d43a8de3ca30dfc1a080c4897d39036ecd2d271b0961835cddd3d098cad292, (-0x37bf85d4c64b7d4b3ea110433371ee2b86f00eb6f29e52b6c7db6ff2ac20ae35)) (0x0, 0x0) (0x0, 0x0) (0x0, 0x0) (0x0, 0x0) (0x0, 0x0) (0x0, 0x0);
  Step2 0x1 (0x991dd3d6b8d599ac663448726bcf1af1d803f6f91be4d9a9a9dd20b8e159eea7, 0x66069a32e5f6aed24d23d895217893d06405531d3c23cd33e685cdbf4c22cee4) (0x4645c91d799630a951c08a80bcba9c98ad8f00cb99c42a1eae262a268a8fbdd2, 0x2cf98b46d20e1cf6dfae4ef27626e0e46833cf6b5188e0ed75d7c9faa3e10f8a) (0x6994a3b7cd97a3da2be0dd1797f040902af83f2688604e7481d9d863a5993974, 0x41a93dee8a380c70cd03f183ff7a8b936606111f502baeaddc3e5f7c6631c9c5) (0x1b9457e1d8da649aa6ad9196cf08ace462d35ecd951560d63b72443c73b62bd9d, 0x6d0f81e5edf4763075894259e9298d4b943325563c866c3c2dfd4bce92056740) (0xe68d9270859483dbde52de0d67f8b30d522ff1bcecff35e9476d2ab4111b599, 0xab6ed9f3c8166a2d2c07d54707876e7d0abe1f219151f599b8572ec5b8b5889a) ((-0x51ca8f84d920081a1db83a9ac8e02592b529e4904fa6e7bf35405d5d4b321695), 0x8baece4608c1c869255a7a35008b7e83d2264133b056f6be86dc2865882d6e1) (0xa431286196a7cd3ef5a34cb8f43ebc67060b0860cc48b30ba4e974446fcd40b1, 0x49496ad6dbff8f24c13fc874173c0c16948d7aacb7da0b07368b23330f8d2a9) (0x582a13d53675c5c731f1a8d5d6c0e7f580bdb21dc63c5ce6e348679c924591a9, 0x696c3e6f5f294b3e5589a498ce3ad42bc87e04ced4c17c62eaa5a23034c8c006) (0x2b94fc3936d5d05257ef1e4cad258449e4d449f4d6099ebc38a6883e0f2c43c6, 0x534f172268aae47ca26590ff14bb259aff9fe46663b562cf2ea951f9f574ebff) ((-0x1218d74c94216536a5eda559261dda8429e401d93db68f1c5a34a35683ae7998), 0x4f89e1dbdfa9edb0167640ed58f67ae77f22558865878b3ab264acdd71225773) (0x93b16c3083f69ef314ee7bf9cc42a62645730e754530acbd5f7c0e72fad11b5d, 0x840cf05b4dab848060001c1482bf82e10ce8cca7f74c84e1fc8755ef1f24235) ((-0xd149ebc989839fc0c521495ed6524525e9b34b2c0cb7e7bd1a1c66698158a1d), (-0x36e886c4361b67b2e12931a52843f3373766323a19d8a6a17c99851172076b5b));
  Step2 0x0 (0x28c5b8f65bd69e81c0be17842b1f8f9275fcccb08d48ba9ad91896b746617343, 0x9b1b1df0bdd4b9f61f3fd747190991d4f5325ce31356085a3e04edf1b478ecb) (0x791d51d6574d434106b0d01216bfca7c833680435003f194ab1e5d0b1f25ea48, 0x1b7bfeb11f3338bdcbc425dacaf46d05df13267d683a63b3e9bcef4d0a700a8d) (0x5c06589c251351a76e4e79e61e95f77961eaaac845b9e98eea95c4053090816, 0x35877b728951307981890c25320c1a06242b749c65399ac228467101ef247433) (0xefb78c92cd6d015cefa34fa34b368442b24b189955c809354806593368e8d6d9, (-0x10814d7dce797037dedd053cff49e4cfbd8a4d9ced09cc178604c59ee03a18a3e)) (0x8171529ad6b8c5a56ad3c2287d2b3a8e226f9d835d573026aad57f76c472881, 0x456648a6e6747cc0bb8d72a0c178ac3fcf9142bc40d5f094c7cf92eed8d589d) ((-0xfa9ad61f350ec1d06d5819fc56e1b62600fc03fb53c86186fcecf2357c2580b), 0xfaef7c756f51e3187424246237c81ae06fb03580ae35b5367bffc6a1503b434) (0x0, 0x0) (0x0, 0x0) (0x0, 0x0) (0x0, 0x0) (0x0, 0x0) (0x0, 0x0);
  Step2 0x0 (0x7bb3da78735c66efd5eefe7a7886ca0a057390f46777e6ad60d4aa636a12fe83, 0x5470f5a097a450c47879745229e367ada5b31f39f08ddefd1a8833487d54d41d) (0x91b601073a8d463508e2b1557c873fb8767dd8ae8206f0ff4eb687a9b0fed5b4, 0x93ed95f2f125c6f3cbff67d14ca5d6deca43bae0bc97d942502660a1ae6e084c) (0x58553d50660d31f20469742113380136f5d1df083336219641644c67def0efbf, 0xb6fe563f8449875ac6b0803714a1c486d73558e736869d373f2098ee1f66989) ((-0x133fd73a79b7cc928ba3dfca4a732eb8b7c63b9b830b9354c0aa463723199de8a), (-0x1f97c1eeede4767f2fcc7e6f76d4700f2ed01cec19fa7f440b8b1f47d89cdb6a)) (0x5b7333aadd918e0843ccc68edfdaea88532fc8777d5f65c8b49c75350c9b96f, 0x72a11bea71b5c38507cebedcf3b674f76f642a629011293061429ad33da9a7e8) (0x5eea266d8e0c303110f711da8587653264d662057e0b65eece0be6250463a571, (-0x5d25c831320b3e9baf44860eb0c58b681d47590847283b31ad1884164c9fbc99)) (0x0, 0x0) (0x0, 0x0) (0x0, 0x0) (0x0, 0x0) (0x0, 0x0) (0x0, 0x0);
  Step2 0x0 (0xad5aa5856aee1c4c29a0326e72ff348a489726345f2d99aec4a05594b0b1100a, 0x826ced2d0115cf0238c8d34543eb33f74f81ff83518b36c61bf7a9b8fda02f3) (0x4f5a55a6c8545b8e5686e778637fe77547f294284b676bb613429d249734e8, 0xec7f0c6762edc6716a7b62b03ea90a467ce16c94be83fa16006a0a80664316c) (0x15eecd57f5850186dbd138f770472e25707899f379b45ea4e85cd00d85fd95b6, 0x6ad82645766b8aa2bfb8c4ff5ff14117cd281b17a5afb6703a5121086e0360f7) (0x218ec172aaedbda59dbac111aaa1ead05d0e956eddf517536f166bcace528a730, (-0x2a7f629c64225dfee3bf0ee8ec13bfbb298fc3e94dde52d9941f3c0b78367c73a)) (0xa429c760caaf66dbe69fc46563486fcb3a33d66c1f2f932b5755d464cfd3196a, 0xf81e51e5eda2200a8a695eee03fbd24fbaff70659a09a9ea0d1aefedac02e58) (0x7e649ee13cdbd8be5689bd4c28d240704701bc505c1a5ae4869bfa7512f3c1bf, 0x8526bf8a94e18c62d463d9500d78b566887401de3cd4383454c73b5f9bfe58b4) (0x0, 0x0) (0x0, 0x0) (0x0, 0x0) (0x0, 0x0) (0x0, 0x0) (0x0, 0x0);
  Step2 (-0x1) (0x174e83748c492192175a3ef599624821d7075f75450ee93039786ae1b9fec0f5, 0x6077a5b40b68006bf5d6ad19c29b465bf58576981da7dd88384c9a6b16a116b1) (0x884611affac4cd9a09345a71a5a07a33975b6ecb33d265ca6416ccd11ed705f1, 0x5385428564ae591f9c115f56406506e1f28d841809562dbbdc53d499040e505d) (0x9ac97fc53d2d1ef941443b671021d422655f384695d26e929a4e108fc2e6a62d, 0x1987cea6fac3f6262f9193cef1db24e81be4c3cb3e90b517add0264db4dad011) ((-0xd56a6f721957c1bfbc47f4d09848a7ffefca133574246564f01de8b4b8f29ca0), 0x32651ee253d42c051dc77dc4337e6109887d1546db910d20db1bf2eed3ff969a) ((-0x6324758fe635849a0e1247f16693480c94d48cea91d79672ccad0bf49e19d052), 0x18ac4fb93998a97504ce86aac3492ea2277e78816a7445930a04de32cc3349f9) (0x3761cde9f1bd53c841d82cb3ddf2f637f37154abbc7c39921b565c5b9621de6a, (-0x50c20fd5d2b11cd0ca37fdf8b1cc24a9c94f320659cb92a3de45e395697d635e)) (0x290260e9eca92303d8fabab6cf4de9ed988ef58219c608405faf05343e156f26, 0x4eb57bbfc455bb41ee67ab026d5f34e65575f462f3daedbdc5cdf9018e6ef2bf) (0x26e7012a5121cf713a62f74310bb256b2c68785636439c75443f294b4febfd73, 0x409315ad0d2e5f3c2569690e6d241697f53850cd7ff5e6e193d55a3d542b7ddf) (0x199dd86f5fab8b2c256c5e49387040ec3c47115ef21075751273bc355c928c4b, 0x42ef6d97fe70a0cdb6095d2260e6bafd0c971bc7565230d96e46a952eaa6e392) ((-0x3d95edc798ec59cac7b55be9b9827b4de5e435bf9f8e3276865a0687b8531928), (-0x17c11c35691a812f909617679a8b37988e768f2861f6183d3442251105f11107)) ((-0x3ac1bd5ff8494fc9529fe9b819b60347799d747881c67d7a9ace962de27a4021), 0x236bf0a4c92ad527fcf40e776f4353ee182b5e08b87430abdc1337e165fbf9c3) (0x58baebf7953c296e56f5569185145f54c70a33b599468a2cf76397ade27a098, 0x2e50b49681855f03f15b0f94861390e9e56187c9f35995ffd2d63c92ae605bcf);
  Step2 0x0 (0x39493bb152e602f68befe8f5b4141e83a5a9c7f0e69c31ca37062e98f3a7a63, 0x64dc96fe9b343ec73eaac1b6c56bc12cc459bb14dbc6164e4416f6cf3d327f5) (0x6d65c0c3783422940314c952dc8ed1062b43d068792f87e810762872e87cadf2, 0x64092f1e41f42e8bb46ec15feb3f4869c4273e46f79eb16761a0cd7ee1e56378) (0x1dfb2a8e3ef47770bd11e32c8a521769ec331e6b387875bebfa57d7cac59e579, 0x6cb2fb5e12bc5daab81ce1209ced68ebc00666fb57663168fd639cb1a0e9a793) (0x681d0ed91104820d6362331906f9542bb585c92b2bfcf00b25050f9a00054349, (-0x4e4d088722c048c4cabda00b9e0f2c21b62c600b718b85110b0a8194fa51bf24)) ((-0x5da1d5ef2355c7ea4e87c9e6f31c0c6647590235ec53e90416927ba3de1955), 0x3f68357dec816f93a540242db8508c7965c1d46714446e36081bde7e63cfe8) (0x1117839e22223023fea48d79e6084933cceb05f47e1ae023cb25ac1efcb492d, (-0x32290265f9e5b4c29c8061a62cd7b8f920aff00c654cc3bcc18bc1661632437)) (0x0, 0x0) (0x0, 0x0) (0x0, 0x0) (0x0, 0x0) (0x0, 0x0) (0x0, 0x0);
  Step2 0x0 (0xdf7adf31e629da43069735623dcb9769daf5344807890a6306ae2ba41bd0db4, 0x871ff9b501989880364354a800f4038c60cbd3b5ce2a490d2468c6419ba2dea) (0x74aeea17da31cd95e48930dc996eb5a8997243dacd3c07283b7561a71c30962d, 0x77a87fb4eb8f2a60ceec18784e1ab5ddff5711bc243252539f5d98b52c2e61b3) (0x7a7df33501d3878ad52c28f29896bbc6938582724f528e6474fa47008b3b18cf, 0x6a2cba4e8454a2a0e481c535ccf97f25bd18fcc1bae7db1a16c7d8063eb8fd93) (0x74e69a23d7c459e254f3cb0e78f17525b03c08bce92f4f03b3f56145d29be2b4, (-0x154d87d420864f0683d9bedf96f7f58516059264c6ad8d19252b7aa4f73dcddc4)) (0x49aac2b2c16d254c1af4be6659fde98db1ce3c70bb470283b16da215c50543, 0x14b6343f5c5e67916255382012dcbbc17db2cc5d93315bdd96677b622fa75b1) (0x1429b88ee61f9916e97020ce874b0c6fa1515dcd819fca97ffb829f36cfb2f8, (-0x1d769b3469f7c5757b03b8ea88f8a49208f8e7b7072cfb44a5b57c65485f9d0)) (0x0, 0x0) (0x0, 0x0) (0x0, 0x0) (0x0, 0x0) (0x0, 0x0) (0x0, 0x0);
  Step2 0x1 (0x3448df67ee8710e0fd5eba20ef46c37384b6a1ec7444b98ee45759596fff668c, 0x180003b700ba7514dfc884cd3a991729c8cf2de82169226059b4d6c7be98d1b2) (0x142785738ea86a02a7f5e3378d1cb425c8da6a8e4f83be385a701792fd8a3c05, 0x7c64b4f6398bf33c9fc767a17564e1c6633156c419f1c64f720d045f22cfcd99) (0x30d3dd92d230242ed92e32c4e50657c62460c16ce91719257ef01d730ba3cddb, 0xa020fbd2e2bbcdb5f2dd1eda3161aae61d3fb9e49a54d9d4769925351a90517c) (0x1059de7c0000893ac461055fc2c3a7221197da88509dd8e38a65e4fc0eb10a1e7, (-0x16e7a12578aa2fd68d17e3dcc95437d290fce994e13935e01999bb5754a89ad9e)) (0x8adba9f76239b3ec6bfc4f3770a722f6b692f02baa70cc170bb703df51aa39d, 0xdc53e063eee102b1e0ee3b1035bf6a04313e8bdc7bf536ed104f29c58db3345) (0x1cf093538d41dfcacf1285450aa3b269f33ea831467b1bdd31f3627885b460a6, 0xb5a6b63ea2f1718b12af532c6c10f3b4d426bf396d9810aa3e0b9d9bc6c9c2d) (0x7b2fac0f1f12a517439aed340ac67cda59d053600766ee89ca1d7efa92ec023e, 0x30aecd3c43e80d0273c069ae531b34b03975fb582df6f67b9efe8a0e6d92bda8) (0x4a2a8cc9707df116dd0325cb79475538a05c2ed24f12600d9baabad962375714, 0x7de5156946f48748d2718caaad22774804101e392eeed91ab5cc7c62844e7295) (0x54c2c1f5f750a0790184a1aff94826a109e587c80c8a0bae99b4857831e4c687, 0xe00047f3098c0f9e511eafb64d1045b9ecdd83b61816e7c7ed22dee4f3f15a4) (0x12ae408740c7c4001a6706b991a25bb094724566e1826fb00a17cc9b6530dc88, 0xf9f8dbbaed17643e47b4f89da0981507eecdd62c7768181284ab9ccf03a11fe) (0x394166fe82ca9826609e83a2c855b860e2ebdb03f185ec66585c62428b23b250, 0x41cfafb6d48398da46be73b375ad5a07d68645e148865769edc63627c0716a85) ((-0x23b499857806332896ce4c4b8e7c0dc8ecb7a7a2f8456747199f604e6fdf0594), (-0xf714c6b895cd3cf764d13241efba42c413fa9e4550d701c6662db4e4c381d00));
  Step2 0x0 (0x46b6d624ece41fc8e8dc03901db703c9925729696bf5c01f46873e7e04109f10, 0x31ae17227e6f4afabc763a1a87017ed036ed8690c658d43893347af66b6e07d3) (0x4e00ddea33af68a4292d877ceb96fcd06b0c4f4f1506aef542e1a91b3399f163, 0xb2909b7081de10e5c03a77e7c14ade7ee3a808951077b3d90196b17cd45703b7) (0x5e9811b977e3dbbc20d20960e58a42d785a3b4908d500c8a16aacc991451e8d2, 0x9b7feecf5ebb3161e99302258afedefd517d68b3fd6f37a30b90fb0ee14e1d1f) (0x1e1c27882b6b14b21ac14430a03cd5b18ab477089dbccc0fb95166d0d3b35350e, (-0xfa52346f04f9cb596029d90d2bf130d3d440c88c2293d0bdea1afa95ceb09366)) (0x5a4cd6fe210b0052485eb43a67139c2302f057f6d492fb3f1323d3057a9d9f, 0x268d68046b48cf182230ebd9c325b8548220811cb4597a6377bb8117acf295ab) (0x1b39e0b8e5ccd860a594f1ad598baa1092daf6b2b146e95c92ff2732c5a4f73f, (-0x157b7804d02cf3d7a279fca259010e734b7a147b55abb9582a44b57607919700)) (0x0, 0x0) (0x0, 0x0) (0x0, 0x0) (0x0, 0x0) (0x0, 0x0) (0x0, 0x0);
  Step2 0x0 (0xac21c320acacb1e854afabdb8b1c6013521f036541377b5139328107613c7c17, 0x6672a9cc3367ccd84d15978bf2ef3f082b08a9babbe3ffdefe66081558fa7f91) (0x8032023ddf7c6cd395bf716e87d5497b1129d74fbf215710a09c4dad73986c7b, 0x2bbda4592bde0a12634c1aa022dc16951927d33370ebdcf810a83f3b836bc47a) (0x65d87f8f572cd6673011344fd975e15311feea03d2984072d96c95fc41e74968, 0x4ed36a42e804f4f72e5a93589ffde68ecd80b13e3550d086a6097539a184fcff) (0x30a9c335551eb6cdc40889e385a1c5d84966e3afbdf5fbb11b3c0313dc27af7a7, (-0x3a79b4beb80db798c912f496ed51fc9c435ac072d49d84fcc5b9ed040cc2e048)) (0x2f65d2cdcdd7ab17872c985af389a43e21037f4913b940d5364125f7c55e9226, 0xc1853be98579997d24ced52624bf7741b78aa73c22eb1b9882a4c41cd1e9999e) ((-0xc6fb78a5c6c4a4a9bcece0846a69c697cc8dd9d02dbfa3b683ec3e02fecdcd2c), 0x631fe72c8323ed023e5616f90c2645003c4533efc8c11451c16b2cff643115e9) (0x0, 0x0) (0x0, 0x0) (0x0, 0x0) (0x0, 0x0) (0x0, 0x0) (0x0, 0x0);
  Step2 0x1 (0x1d669d3fe347a85fa9431ddff5a026f281b1f950d70d12ba546dedc3c88e5182, 0x6d9b1497c5b1be44b3fe837fc1bc4322125d26926396298e767f9a222674809a) (0xb230ec149564b99f1858fc24aca07c0908272b8e882de6db91e3da7fa88a4269, 0x4599dd38c7de87d852e9240a11ee2cf0f237a73f250d70ebbc28ec917382c260) (0xa4c7a034a1292a9eddd3f0ce87f348ddcd5797e7150bd60a97b02c79eaa07d76, 0x1defad812ad1e68d75bb79d37635c285f42b1525e247490931a0158af5af2148) ((-0x16c4bd131ec8f09db92aa8873467f1fcd38a8646a9ae3bf5c53f27b026917e607), (-0x24abdb8152806cec050348e55b51ebee69e89f26bf5250443174b202b1797f78)) ((-0x7f1773d1f03d04acb25b1f73ba625eb61697568238f2dd7318fa66eafa539e9f), 0x235d105c4f77f674cbc17e38d86bc9ba7143a2683ecf71cb2a639b5d068615a4) (0x170a1c17f536eb69c3fee57f2a8f92ec936b2cbac005d15d542691dab25d5d56, (-0x223d4b8042363ee4d4159097eff87d18b8246da1651cdd6c7ab8cfe8c573ad6b)) (0x1407d2d35967296ad5fe7af1f95e7b7c466c0587fab5755d1985b43e7f6cc44d, 0x429d3f29b213a4e68e8144245ce847cac3192e3741baaed6fbe5e4114c1aa1e4) (0xa8b390db49b6f495c7e81129fd96512e4bd6995540730a02d6f1c4c8f693f0d7, 0x5d62b05cbf6af6207634649196e38bac60b63c08a449d98e05dc450902153630) (0xa7c1d4c3320fe207508be205b7aa4eea5e008e86e93c5e10b5af58896d8621fa, 0x1a1061ecd6bf9514eef2d6e23e1da69c6e03cb2894c32fad9daf8224ce07e398) ((-0x3c5ecc97c2b362a7eab8a994585ca2d21857a92438618768d1c4748eb64b9fbb), (-0x25ef705996739004aa4aaa0b219236c65c5e0d7d4068a325ad8a2562baee4acd)) ((-0x2e7eb078915568443f8493d832542385878d60af2969fe5ef3bf7ea1504dcf7a), 0xea48b5325521eaa44809cac8841f4bd51b05d7decea50de17831dcade1f9263) (0x126e0f2b8b342d992de60b1d1f9906629ed9490ddd3b9b673cd46e3383f82502, 0xdabff7c9cc91519906d345cceb75f5db7f13fb964ae5f5b0f04a5ea07ee778);
  Step2 0x0 (0x4eddbf91515750b431177ef09ef941b35981ff4e8359eb4c1c4705a94e257915, 0x11753b1bd57a0772cd5aafc98e37f8797e3ae444ff9a898221071ed54f49e19d) (0x33423d15344626f673b3edc4976f1853156f841c3eed850968d06c76984348db, 0xac822cdca2b7829cc8281f9044caf50465719b6b1657bf7fd2df9c836498f601) (0x1e794a383a6d30847c294cb3346597bcc302f9daa8ede4ab37618cfa4b2893ae, 0xa30e2f6cfcd1c9be39a1114704ba7a0ee4a7724790cf2906a6a121afaba9c0b0) ((-0x2e2be7d07d261551b0f7f40eaf20075c33606032cd494de4557b3684a5f230fb), (-0x1cff6493e14ce8a14a1e7743b98a7a315052af08df28e1c794d448e050521a13c)) (0x1ec89cf7a6f8369231ecf4119b3d112d18c67c9c681c5dbc1c749375bc10d976, 0xf1bff5f8a20850e888ce2791ce6e0e0ed96b54eac60bb0665b6ad776ec1b2b5) (0x41faf3d7d18ebb1f1d83b1ace214c9620c92f71b90e75699f9a7472040f94636, (-0x16fd4b4a1fcb9c28112cf1bfaf9f40572c21bb5208070f1c033630055ca46935)) (0x0, 0x0) (0x0, 0x0) (0x0, 0x0) (0x0, 0x0) (0x0, 0x0) (0x0, 0x0);
  Step2 0x0 (0x22047bc0765acaa39e16faf68c4ed4d97e27730a7c86ca30f5f60a00d19de8f, 0x5bc088b2f6dca6e202a2e19561a98d3b005273253666dbff094c88ac4ec50150) (0x3722755292130b08d2aab97fd34ec120ee265948d19c17abf9b7213baf82d65b, 0x85aef3d078640c98597b6027b441a01ff1dd2c190f5e93c454806c11d8806141) (0xe70d72ae8e5694b76d23b3ab8673752da02d8b27360e6ca8359df8219b79db6, 0x9eef64f6d41f4adf6f499e29c8cfe0581abbe9db7733261e6001d3bc5e6559e7) (0x260d4f13898b6c47d3ad732934eb957b769d529c860081d747777e9958f815a0b, (-0x100a0232d9ca57d2e918188d3c0e2b899fbb5827b62909fddab3f128f533e866a)) ((-0x5c5bd2be95319c18fadaee92b49c9f0a36cbffb4eecd6f057782101a9fd0b5f0), 0x22406965e188a20d05f722d6ab74268f39beea3d2689d12c87d480b7887d921) ((-0x272332166e2c36d7ece0625b8e05ff5ec465fcbfc2b499ea92c6da59b5a9b8b4), (-0x17f9322c27cc61b8201844167a3ad77ad08ed5c389a08007c9c00839a258c63)) (0x0, 0x0) (0x0, 0x0) (0x0, 0x0) (0x0, 0x0) (0x0, 0x0) (0x0, 0x0)
].
