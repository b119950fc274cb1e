(** Certificate: the chain of doublings and additions from P1 to [n - 1]P1 on the SM9 curve over F_p, with slopes
    and quotients (format of ProofZops). Generated. *)
From Verif Require Import Base ProofZops.
Definition sm9_steps1 : list step := [
  Step 0x0 0x10b50b025ede2136be0f462138566a439a333cece31a282b0e4c1e6c3a9acc0f 0x98308a2cc761cd353d43546fb2f8b3a661d539acee2eee2f33347c295563f4b2 0x5c8edf80776ea1ddca48a0cbb2fee68bd1ccbac88b2a814bc25b85d0d412a1fd (-0x161ae39d19718bd1f359c888c1edc4d4191053f5b9597342f5f8307fc2f21a993) 0x18815a535f6fa3185f1856d470955052b492c861094994f146874c519d25059 (-0x656fce4f8cd303eb53ee9b67ea92b7facc904c5be79ab815d3a96994735226) 0x0 0x0 0x0 0x0 0x0 0x0;
  Step (-0x1) 0x57971f0cd9821ce48166e04e35e394d30fb96fd945fd634a63791e428a655710 0x5f801a7846fd494756a2c774d3e70adc3dfe32a3eeee182440927290b335fce4 0x90b13bf805932a7f7210c61f4d5dd59930b3ea816c5fe33c0c0e1b49c872066d (-0x1244b5a2d9891bb87fd284a7f30c34b06b29e6cd5d085b3e6345cb8b5e3ae241c) 0x2a18abcf5d85258137bbccfd45a67aa739387617f48ed1dd2de115bb073b0318 0x1b3ec10313b62e784a20264e726399b65ede80da3ad74056a3fa5d524689e22e 0x6426fb119cf93e34d9a656877a707d0c76a5a4e52a7d95043f492466779c9370 0x6ac1f0dd2548250f9ca4a3926e98b10e294b3dca9f52a9be66f106a105602554 0x71bbfd12e9a21877b25af9f5ab96b9178bc072871e7cf2491291c84942a70aee 0x1cc6fc13adc6adfc9b5bce4f1f80de4271878ba3a1d563d65eb2552eac7224af 0x370972f2aa018eaa006779cb92aa97d8519739e8c5ac4cff8e869ef4046d9c87 (-0x62fa9b2d0e7f268c3d1006ee0335d6fc9102b180c8e8a2eb01c0c5f74c8deb7);
  Step 0x0 0x4553655e701e7fd5f4c8f31b2d4f538fce0621f5cc8dbfe88e0f5aac0ced5b0a 0x2a6b8780b0bfe9d4e26a2cab6977904ec77fff42a41ce573431b0fc99741b470 0x162b908e9ccbbbbcfa4b95194fc5be4cfbe1202e6d4b0cee0f1b6b108a5f7d1e (-0x6514dda1408f542c78831e38b25ce561c586aaeb2834309741d120666bb3e7f8) 0x1a5ee6cd7ed51584d45c6bfe0cd8cde773d76c2962b823fd8c57bd179645643c 0x187926d344a0e4f7283900c8157e634a27cd926983ed36694e722a7c1a92470c 0x0 0x0 0x0 0x0 0x0 0x0;
  Step 0x0 0xa482a3e79be309539b8ce466bd050438bb846d5eb6b9201056bd2095beed509 0xac0967062e1ff4166e995e092dd9322590ef9f2ef0b6243a2301494ed038c713 0x4d7aeec937da37071fad6a39461b9693289a71d07e65333a22e30590fb79589d (-0x1b1e846a6c2f08ee341ffcb17de7938f2063c205cf04645c3503c2eec533abb4) 0x947f52c36a378cdd039b39ec1c4912a94cb25f55fe7f677352da767dd14a36 (-0x75000bbae682cf89df20c327ee3045ef530d8b338ae33e1abf4168d9792202e) 0x0 0x0 0x0 0x0 0x0 0x0;
  Step (-0x1) 0x600b0955a875e9a513b8c2cfb78538c67b6cdccaca5fa72cee320e5b85229cc9 0x9586260dd918489a1127ebdc1afc4fae76518eef8e13657ddfe89100ed0583f0 0x5b7b81ad15a3e4637f87fd3ff888ae35cb2a132b71bdcfc3e089c3fac4adf118 (-0x19586890587b756cfd408fe9483837dd7eceb7e92859c8d98495e67ea4fd95d45) 0x329d0320b8bfafc03c95eb16ca8b16f35574e5622d214343e9f75bc53e575397 0xbdd26bb9c6d9951b1c890d5ba12d26a3be5fa29c008f254f25b3306ab8e46be 0x358bf5c5c34c27940e153c51cc2135147feb82fe7b7c10147ab4aef135067906 0x1b3eab0571cb2f1d08497a2755355c87996c1577aaa45163aea241ff4ed98ff1 0x8e536b8c6467724e7d9477b48ba4a18da518ef99fc555077f90798ab5c20b20f (-0x7c9ce6285a774e4f1a39009ad67c77b51c3b4836f6c6ddbef471ed2bcb4c94) 0xfbb863172026a009592712a3496db59ad405f26b588452bd2e9de8ad521d8de 0x23ed3fcf6a9110f52108edd05f89486c4f78fea2f55193b9a638e53f2ab1e78f;
  Step 0x0 0x4d072fa1140df2c15a56b704c901c2a1327980d442cac0516daf8b63bab775bf 0x65441df3ce5f2dd145bf4573bb5502e95228ce3b84e4c4f7046b37e270f0649f 0x9ec0136572d8bb229e92ff9f2259bd2aded4d1423918c35c02d0fe06a5b86f01 0x6c16f243cd701a230cb3b2c321a213a12e51e546a96511b6a79e65ec1b10eceb 0x208e535f37b17cacdf1f66eb5d4396bab389f4cd70240107edf307fb52332000 (-0x1f48feeeab2eac43721a0686ee85ee24985789e18d46cec9e9749163c9bf760a) 0x0 0x0 0x0 0x0 0x0 0x0;
  Step (-0x1) 0xa34985b5351fa294231683842b258e6099556d4c8f151bba50a3d54a9cf18f2b 0x84cb8c6cabe72a52bc92f86a51c8526ba4bf66c7e0d14bdece0908bd818dde0a 0x622fedeb4a9d4c4f306e1906a8be3dd8898063e6605d811be901bc51e7f0d682 0x73a95d795db51e65cfc929fab02765f30f749735cfddd3638ddc160d566f88cf 0x924c250f7dd14c02f3b199b623014a1cbfe3f0139c29a804d89cddf7bebd9085 (-0x1c3f9cde20e502cd18f74dfd1ff3a4b6a9d86d93839e6dbd1edce56b5bccd62c) 0x8d487123330f83e0b6d7d4bffc6d4140f0d29289a085e25df5e33b7a5e83e431 0x974c630db2d6a6a93d8af32267a7bbbf93c6ad2f734e7c22ba30aa55614b19b5 0xa532465cfb85b85862d3d36d37b9a9aa33ae95cc99a5aec1d63d6395067f84de 0xbaf25560942cceef8bb25e875bf2ebe449c98a68aae0bfae4c598aa075754d7 0x6d8653c1a3e0dfc66b1f0ca02d65b948fb2ca64e87112784c22a22a6e25ac1e9 (-0xe5811bc88424fa007215c2baf8582c01c068a15edf50f8b502c2c4ba704be77);
  Step 0x0 0x5008dc52c0db80504558b883777d067690e585d452c553ef7839934437d18445 0x26e26893d0b64b8fcc1629902d146ba3b2d0a9d1faff74661d79f3b3add00129 0x9c8f084894a0c093fc814c7de35747dd39e9b5422f9e86bbbdf08aec9a623e88 (-0xe7b8020fa47dcd57bfa98ada1e75b9c22d4105f4d768a68d1382292f9db02f6b) 0x2325a1328a4f1b0a18e06d00b79738b7be763ffeb72e55a477d8cd547f84a4fe 0x315dc62cb4fdddf40abb0cb2fe91ac5ffd89833bab1a413daccf1014d495ab8e 0x0 0x0 0x0 0x0 0x0 0x0;
  Step 0x0 0x7d659c469d75219dd824655f44ad213c56efa9c2306c2d43fbc2a388b2c015ac 0x3c632abb44e30585b961fecae2cad03ce960875cc2574f5e45777364b83dcbc1 0xe65e0d4fa23dd0c0dcfd6669967cebd16d1791a2787073a171129f98126155c 0xbe8d204be02f8f384258d392783fb1b907414dec61c38657ded51b059f877ad1 0x56477a7a673cd3f654ddbcf2f6671cd51b2b9b1f64fe4d7931fff07fa0a47801 (-0xecb8b07bc6a2306f864afd0110b902e8dee4b55142589cb431342ce97672154) 0x0 0x0 0x0 0x0 0x0 0x0;
  Step 0x1 0x26cedfafc5c16613835e39c9ee966a729666297c0d6adb65c1b132a8fbc567c 0x42cb47c52320d254a1a246c974cb13801bf9a7b77f7a2de73ab2926361bb6c56 0x5b00fa415ae3ac0a08bdd5c7b88ddf3df7ab510ba5c812df520feeac59f5a8bb (-0x3ba4c7979c25602e5f6a5f7c31ce8100c65ca180839910e759ce0dedb9901c5f) 0x8438534f18b8211c711319c475a5ede144a420ba624e31782046fcc273e98 (-0x15d3e6b594f73b1e654879889b2b0211dfd5c53d04f355f4ef380a20e06cbf) 0xa3c8de153c5d524425c18374c269bab1a066665dcf7d5325188c947065da16fd 0x8b14649e811c0539cb4c2149bbbe71c58a1c47a77ff027fc329735d46149616a 0x33c1b8c66b7ad1310925b3d9e86640d8d8df171c9353a396e967c63316000898 0x48dbe4a7475c3be7b08586d1ba86360991903e704db8fc864f3ed3e1b773f850 0x9330aec3a92ebc7b36ae74e51166dbeb3fa5c2620cd7aac625bd744d8855cfdc (-0x40f632244a83b5961207f66093b97dd6ff35c8aa4ab964c848c71bdda02ef623);
  Step 0x0 0x194b33900ba79037078f2a5c72d2c003005a926d55a40ed6e07fce7c0eb0faf4 0x8b71d0d6b35f284a16cfe5917961b12645a905aa7f77ed2a37d33b5ab71c720b 0x3dc1dbb787b2969d3afb4c91e201162c492b6de0b5d94e30fccfe847e666e1bf (-0x1300a2153493fdc060ca7384eb090fa8e72797784a079bedd111daec7adaa695c) 0x382aae4cd1e8d7a87cc0eaeec3253a46ebae752253f0a8d2723962a0696fd45 (-0xcf73cc3f29d093375c8864aeddb3daee0152b393b1b4f380e95b500fd92e7) 0x0 0x0 0x0 0x0 0x0 0x0;
  Step 0x0 0xb2c73e3096c5e0795d7803a043e58f93133fc30016f9c2f8bbeed411b4b6c021 0x94a9d4f29b6752a8cf3a466ac326751380e1a8e04937b6d4b884ee8de7178d 0x86c9f4cb84d41f0787b9d76b1de6539819613f40da3c80ab23f282e712093c0c (-0xc6ead0e84ed5a0201af35167af2c77e87fee0a16ab47668fba3734efe323fe71) 0xaf5f6a79ef28180480673a6fad5dd34746075f44fb01d2c9f2fa0d6d6b595576 0x8837f8a6629721b3fc5b1c5b10aa3a4cd94541728eb4458321eae6d3311c7caf 0x0 0x0 0x0 0x0 0x0 0x0;
  Step 0x0 0x24575e73e9ab78a6da34b52161a32c6ce6c64f6b71869d7a79685bca15c53ddb 0x16eef9b1eb0c00451565c00db820b6970cb8ea2b0f9e23fdff270d738362737a 0x69bff6452b28dee08c3f5a083cdff2ecff75d61ff51f6d856e7fb6257098c00b 0x35bfcb7186249f8a4997ee5bac3d61edf4d43726c56d746dc354d23a5e115151 0x73f1fca87f0e6ecb8de0c424f8720c8ce2a50b712f262e198332b5a64f998e9 (-0x4750c878bcfcc6b16724708c6400acf50c0618afd09a3fd0149b265dc433c0e) 0x0 0x0 0x0 0x0 0x0 0x0;
  Step 0x0 0x6ae364bd8b05669e5a8558a9bed8c919cb05652bead6202e571fb7c5cde6ba7e 0xae7562be58551a9f1508bcf89b92ffa9221d2d412f6a641c710a15ca2286dbb 0x5a5370b14a1b5a1c272fe4f71c240f0925e911a4df4d27010c7089a4870cc958 0x7362acec3644a4f3fba6f7570672923f3bc478751ba757b2e129260c33112288 0x3eb06cbbe87eb0e89911234b858c0bf88f4549d1dddf14873fd3c58c691812b9 0x70e2f5c314f0c6898e163e7b03247397d4a436c11bef246ab6ef92b590d994b 0x0 0x0 0x0 0x0 0x0 0x0;
  Step 0x0 0x86dc092a84417baa2745ed1067599a46f8e7f9d4daa1573715c143dfb328d0dc 0x4a2261ccaadf1d97caf4b15968b0818a05368343d799d8b08bdabb1a24aba53 0x21185bb576009d088609237abe9c8ca085141d45ef992a3ae32040b2242246d5 0x83b84c9211b2e5170b16630590a7863a8d37c63d8e9a2896774261a01c7c4f59 0x63cabf57ce991e2361881088e0842a95a1a3197686cab273f0bdecacc3f8ab13 0x4a3ca6563bfbcc6de85b8918cb32489be77ce3a241f1c0db06fd36a89712c6f 0x0 0x0 0x0 0x0 0x0 0x0;
  Step 0x0 0x2335d4af48fb70c4dda5dcd127cff6b2f9131e1840b7ec18a5d9aa905fc5744c 0x32cc2639e62e241e6230b7e1f6b04ba704bb4d534d1e3cbf5a592daeffb6c900 0x18d42d93a37c206525a0903d4bf694b6f94e358a60cd2190b27581f60599bd65 0xc6f3662b8b5a4c1f86c5e002a2417bcf3129b3b6bc778fb5feb2ea17c0f1141 0x6cd737fbb669d96db619cc81ceca353ee0c6e4887c09cb159bde3d0cea488b2 (-0x8eb35d17efef8d00ce881c6c6547d3dabf5c31f35839ddc38bb1541ef5c8dce) 0x0 0x0 0x0 0x0 0x0 0x0;
  Step 0x0 0x72e5c518ee18315c33be6668fbf3b181728f261ead3d641c163a9e7c01678ab5 0xa6b500dbed120ef3a7eca869447e675093cb381cba70ec9fb5451984b1915f29 0xa8b5cdc4df1e32a842b9fdb0fee2f0cbd59d6fe34479ecab462d4d21eb010d86 (-0xb2b571fa01a78965d16a6a49fd0a7ffa5d364ab26fcdf063f878394f7886746) 0x486f97ba58b6342a95197ddb254e5a27d123a3f3cb4f4bd2a1f0cb1769a6b710 (-0x4912edf18815a68cec9024b45029e2a54827afcfd39b08981fdc52a4fc9ab408) 0x0 0x0 0x0 0x0 0x0 0x0;
  Step 0x0 0x209a0aa3c443c7de346b298c548e5b3f54cb774ed1c7a57d27fe63517a467526 0x1ee83f30105d72d3a19cb2620048a12605ab0914f5cc8f1906b5a8668957ce45 0x95906c3556438e112176f5a2728b7b7a1c12fc7964050af4f451e5c83e75efe2 (-0x18d1c10f66eb5da7fe8e7893ae350d79321bb0673b55d792a025169a6d4a66d87) 0x5d4fa85c930a77fb31d00da076770a3a53e2dc7ab8438924c192fdadf3e82d1 0x184ae17c7713fcf145a4cd4750903aa367565d6cf60e3c882af5f3f6aff14530 0x0 0x0 0x0 0x0 0x0 0x0;
  Step 0x0 0x4361be0dddf46ddf3a4f78a5ccbf83fcec59928bdb7e4a6e78af6c03370e72cd 0x5882550cc7b7c6f78fb578b12adeaf0c2321b9dfe2d56bfb0e3e1f0079d5e432 0xac25166757f453f3210920723dceeb3ba21928a6de3d0f83ae55299ddc132a06 0x5edeb12de9a66395590d20a59407810b8263d4f99f070eca834d09b73c8cc11d 0x18e99b49291fed65dd29226735757b12aaf7d16e8f63f2f904cea6a156a31cb1 (-0x154bf32ca37d26c45eeeb8d894d20a16322a4298a7d1c866782cb3d0b545d845) 0x0 0x0 0x0 0x0 0x0 0x0;
  Step 0x0 0x72f8d38f83115d404d4257bdd6266394d3bc303e846f353b06abb3c9b3cba73e 0x8858f82a22ba353b61af77eb00251991e4a928be63dd12b0d4611f4b95a826e 0x581a646fe48d02537f0970dc202713ce18a2f2ba4e56966fa75ad4ed5a7e9569 0x583decd693b8122a1120dd98b3a4af3afc1d9cbac9e13d986de70e9f864b2acc 0x4887a0de7d8a868e0c6b921fd360d772a6ba5fb014dfa3b4d2ab0d15ff16379a 0x3275b8fb85c955f5643f29f68ce5e04dec6fbf660ec2950985a4033fa77a0c7d 0x0 0x0 0x0 0x0 0x0 0x0;
  Step 0x0 0x8276527f8bd96517385a5936114da5f168e90e21a55376ec31567e39ee579b5c 0x3d495cdbe91f1894273993826704eb2e83fd0d0bbffe3c61ee572ab13b1ec59b 0x70ec384ed07ad0c2391e835bd37a7b518a12226f65878651cfce63c23990ce33 0x7cf0bdddc83e7a9916bcc8623417c395bb0a5159b2d74c6c58bde0084d79421c 0x5d63eb990702061e07dbed8f037022854a371be8d5cf74e6dadf0fbe9d4db84d (-0x25c573953cca9af96631235108a132dd742b5b49bdf221a1fea79c6ee80a7c68) 0x0 0x0 0x0 0x0 0x0 0x0;
  Step 0x0 0x684d6394b42418efe7d0e18087308f0ee7f89238f00a7fcd72374b8c2bd9e4f4 0x1ca0a247861f6f6729684b48ea73fdfaa0b9143e7a3bc90d6f583af8703f9252 0x674ce6a44a99defa7d8ca5f16bd5a0648664375bdb3bc1629c53943980603538 0x436c9bbcbf3267d37d3625e5d75362d51a700b3ed8578b1553270687f04397f1 0x3bb14bed903e8250ddf773dae4c3af2556df0745efe9cbf97348f82a4c30e5a8 0x12b0dfb2368e4b7c16444f555973e26346cd8c51f8166316b4fb2c21011c7f1d 0x0 0x0 0x0 0x0 0x0 0x0;
  Step 0x0 0x340f649720249262ce324a592d11257b4e3e09b8fb85bcc8907e3d756b707e38 0x21f6df589c173eb51ebdcf4f2d87ccacb05ea46f472cd8e2282b2b0974fdb013 0x98557005ca5e16661a89b39062ce3565ebb6c3df167ee33ef5c2db03ac45dee8 0x2d869704bc5c8b9b2643c4cf41d159a4d8aee9fd8ec73a5ff94fec47bb62e6c4 0xedf000e84efe7452e49c7daae4993881cac66b25f84e1081283536c957347fd (-0x18644e79c0b01dce8e13cd948f4cd62d76a94daf7764ed6d3dff2df525db538) 0x0 0x0 0x0 0x0 0x0 0x0;
  Step 0x0 0x78ca337f5b567846ebf63ad0b15e292ca100a35cefff4ed5c67eeb89dc0ad7d7 0x3cae554b6aad938346180f7156b4b76247ba1c218c0589d7ef42bad92be58b96 0x2e0f7edb1198bf9b46541dcfac535c1d4c29a5890bcfe9eb63df5ec94a9a2578 0xb6ef81d6f0be3cef9c4d5dd42cb2e88772f794f964ccde437fc91e4af7705159 0x500e4f586dc59496d83955d73e6b0235c7fdba54bf77ffeda008848e1af5da39 (-0x11b4fd6fa24af6fab86da86c4c38eb3f8a7be73076ab3034be7091e58a592f09) 0x0 0x0 0x0 0x0 0x0 0x0;
  Step 0x0 0x804af95a749f0622de00506cb5a406d59e9b99bc7c9533ecffdc4a6adf5f3407 0x302e8d9903455ee3d20bb202de9e620306a32ce2c7a2e1a9b96b544e783ca7fa 0x19a3dc0c7725e127dec739fc293f5a7e1adcc4385824330701dbd1ad447a7213 0x43c4c789ebc88c385dcd56e8465fa3ae43bfdcf1f3fa7040b66bcaf1ebec1b4 0x5a4f7290c30ea73033a2ad302baa49ffbc80d134bca49c2a889f88bd6df4ff27 0x8cc7320232aba372bb766911643149d205c1028097c2c830a41410eef8881ed 0x0 0x0 0x0 0x0 0x0 0x0;
  Step 0x0 0x4c1df5e0df3c727a705c1bc98ff4f1af8ba1e5c5efe32b377c9d89d9daa979c9 0x673846ba710ffdef817bcefe662a274a195022297b2d8e901c6f7eda08a13177 0x750ab85cbb721d7225770d05c85d1e3f250d96fd93259d4e9796da424f65b6cd (-0x10cbed442a6e346d59bc0199b0ced2295a91e3ad40524476798abf9a6a8336ce) 0x1fca587d384a1a4cd4ac52e9b782740d50e74f9113671085d086e16d8f570cde (-0x16fc99006a810bc5fce6c7e00ba252abd41f364c64728932f315f6dad9ce5029) 0x0 0x0 0x0 0x0 0x0 0x0;
  Step 0x0 0x604f38d840c8e865b918e7e82c1a6cc733e2255c40679fd1c852f1b5dd3a9e73 0x906602fc64fe4f5026a4be3c9d0865ded4833852a47f04a5eba6705929d5176d 0x278b74c7ca802a3da6e8ac2c2ca6f7662c4f04ec86a4bda68ddbad0c8ee69a76 (-0x33addac3128368b7e1ce267d16a384f4c9d98e7e77fa074c5ce8f4bcd7943de9) 0x32e4fa3d8dbccf040f7f34983ab516b9d6b7039f21f01e486a0f98a0a8d36be6 (-0x15c2bf88109101d650e39ddf004666e3264dcfa027c1fda225c18af4538d44e9) 0x0 0x0 0x0 0x0 0x0 0x0;
  Step 0x0 0x5a1109d73b5bd94fa63c516a1455e3ac52c11f74ace70c55107d2b91c79ec0eb 0x73d4ab3257b71d9b3c338fd0711299a1d26ae7d8fdd65dbe07c9afe1ef130e44 0x5e2f7f4896f9dfef26794613af0b747136de9e745cf804a391d566e8128c281e (-0x13023be7a71c42b0e6c141510a942b206aeed886daad59a193c3f5f70ff8f82a3) 0x2c829cb1e38b2ce5366181acce094cb7024b8fc7da918d90fb43e48bbe877bf7 0xe1e32ba1afddd2269d4fe82746237a17af938c5e70a8c385495908dc00f7f7b 0x0 0x0 0x0 0x0 0x0 0x0;
  Step 0x0 0x894ed8769a867ead391e25efe5b0707c68fec982b83d1162ab1fd82a955d29c7 0x54ff8fa9d97d782a28ba5ee19b00539a8a1022628e8c658263090fcc54ca2bde 0x455a94d72b6c0a062d6c3d4b1a704f2638e84f214b14f27a399a743d777f16e7 (-0x4eeeb044cd37363c372fd4b69c4fb905f6d9604c44d72e5538897f38d76ddf7c) 0x6772cf244180196203d97cb2cda1def6d43e77c5122a846c4710d6ef93037767 0x173ab4210c3f90f74c88c48e64bed7e01b0889cc9ae8ecfe1f08bf5b53ba2469 0x0 0x0 0x0 0x0 0x0 0x0;
  Step 0x0 0x9ebcaee7343bd17e5683da07f543968252ec8c53c85a4a4fb4e657397b01b973 0x4797f501f42a45ed3159c26316fcca8b2c1d6dcd3b8996244cf8b9f7d21a0736 0x6ef67db4bdfa28e5937ffe274c0f17eef31ee60786b97b0dfbfde8ede476442c 0x1e31748ecc07b23bef9789578d1a37863ef2939cb05fd20223a59c6864f4c56 0x8a41f29ada9ae329629d92609765005d01bca328121a85586f3b3626278c3743 0xbace05114cb61afbb241bee20823a0bdbfdde096164db0133c607856769cf09 0x0 0x0 0x0 0x0 0x0 0x0;
  Step 0x0 0x660f14826d4583d056da5d3253f3d915c86962a9a11b44fa33159831adc910ae 0x4e62ebc5bbfcf8826f6f2b1d180d62b238fdd6a629ff1eb87dffd2f0fb858621 0x2f57a8a38ad4adebd3bada8b299eff38e0f3ad90a0ef4b57779f66e981b4ae0f 0x27e785231b4d2aee359f356592d6af26907ece9e7131cd394225462c1a904574 0x39270214d8e65cd3b50dccc539843a4842d06f449f0130342ca71f536473da43 (-0x3cdcf329d08c2c501171f97c8997b8d31067d07ee3f51c063f18e3f5b212bd9) 0x0 0x0 0x0 0x0 0x0 0x0;
  Step 0x0 0x4ae0f8bbdfdeb577e127327d96a660bfb56af175acc4f1c4d9718670ae1b0e5e 0x2b1303d6dc3e4ad0a787073ce8840b906c7254f657a5e9191105f9e7a914ccb9 0x894cad7c2e84a0198372b92d190235b6f4a63cf3cc061b0d82d4897e72520d2a (-0x3e3daabc53a9c7547ed8028f83db2772c84d606e86976c8233775506709c30eb) 0x1ec3b7aa17f765b7983e55e783487ed4891dc919131926c54f77e46b42d589fd 0xe821d2d0a2649e9e7305e9414d7708a2f2b4761077e7dbda265a7de174d8283 0x0 0x0 0x0 0x0 0x0 0x0;
  Step 0x0 0x99632286cd2a6ba609d6e1a9c576cef78f5c36738764fada7142d70970452b30 0x748d4c8347559c6c501bb4b2d1d385af0548917c3aad4adb1bd7a137e9f81abf 0x8c3ba9fc3df7288ef042e5dd91721f2c30ba71dce6ba2c269f397f2a05ac413d 0xc891d1ca5f15660537dbfa9748948320411a84373fc67a9fbf04ab9cd34d28f1 0x81186fe518af3d3b77d5d0be4c512491559a1fadb09f3a5f688fa23c2b85053b (-0x3dd7514e6c494932547611cadc0e39dced3e801a1149a8ecec706b850f323253) 0x0 0x0 0x0 0x0 0x0 0x0;
  Step 0x0 0x6a3aa05c203baa4aa03f9e266426fd32adae4895cfdba0d167cb4a89685f94c3 0x882fd90ef67018a73b4bf286e62325d5dc318455c683cddec44df9bbf85d990a 0x99ab5cba538d5e84f27cfd5e2fccb327bf1cef41f235d637bcc58d9edf95299 (-0x3c225177e5f81fc47dec9c483ecf40c929924c34cc2151f7273f1758977926f9) 0x3deb12ed2b8b3ffba598f0f449ec6d7939929fcda2bd3892dca0ef5c2244b1d5 (-0xb71d9d2d31166e9441053cd94e3483428eb5df0b5d6aeda79ce0bf9ba052483) 0x0 0x0 0x0 0x0 0x0 0x0;
  Step 0x0 0x1b513c27c403ef46629cdfeb4093dab31d458ccc91eb387089ca210a85c10930 0x4439939166922c0c43c3aec60c3f01a603b939adacaffd29b29a14b867e56702 0x662211cbefda4859c1b357f4d4d9c846414682dd7e872dca6116f181b3919d1a (-0x12e6b4d85b529f8cca8736990369a1c310d15a164f3f11ea19f2812cbcff7a2bc) 0x41836087138dbd93401bee4189bf05cf2fad14d663f0571991641148f73abb2 0xa2fd08d2d7efc0473c1fbba7bd6b152d07de82b8fe7030a3c5d7d0e38f83691 0x0 0x0 0x0 0x0 0x0 0x0;
  Step 0x0 0x79657138a4e238df6965260641f711a1656da6b6164ed29eca253295134ed346 0x10d1f04121cc6495e30b81d4d979ae9152b2ec0d64209f7315a2d1a4c66707d0 0x94f5bcc175a067862e9d3d018d774b8cc826b5a3221d7ebec48b2be0dc7e0be7 0x3b710db69339a774a095e0e57261cfce50f548b5c49116e91db669a7bb76229c 0x50dc9ad4ea4d6351543ce06d8f1c5f0760995dd67b144da955476b03da93a790 0x223d99e6b40fc23351f6bf20a7dc069fd628a568e9057938f001cbe06fb4bb47 0x0 0x0 0x0 0x0 0x0 0x0;
  Step 0x0 0x8a39a0dee5790ebce2ccff6d5dd1eb5758a0764fd08c1f718529277a4058b43 0x8f254c5dc6c180431de6eaaa375760541f5540e9b9347a21339fdf2f967e6b8c 0x1522788a3ece20ef2ac0c2a2969b89e6867815ddab659d04efdec485c2efe505 0x9770d9515f69c36a71cdfaf13ceafad6124c8a4f947fe9b9d5608782cae9db2 0x68d5c379a0b890469a57424fb0a58313e37f90a84ae5e25122a0e9d3575461 (-0x5fcf5c7e78ab7987b515ef2dc57eba9a5a8984e5a93ab1546e49e33a36245a0) 0x0 0x0 0x0 0x0 0x0 0x0;
  Step 0x0 0x96fad87638fb873ac50a8831a093a26ca1c4c7a03ea87e395fd1470f3eb846e3 0x6202dec84874c7460909ba68472b59fd3560016a07dd4643be729ff1c7641fe9 0xa9aa994a19716ab1abea2d22afbbdf88576c4e430b053cfabeec16dffc408ca0 (-0x12e474c18caf2b66e8ae440fd47b84df0d01adb4422192a0d34a901d526a876ba) 0x7d13339112800d0fbc620a6cfd8ce027d7940883b059913821bec0b0648981e8 0x2563f08a5bfbf9a00cf3e51370281a6b4f3f805dcc29835f58cd4f6e37138eb4 0x0 0x0 0x0 0x0 0x0 0x0;
  Step 0x1 0x59fb806e59cd27738d096c22f8d6f59ea9e8fcabd0c2d2d5ace9fe2171269574 0x8e27d84cb9f0221c2f5daf3d474739ced7dfefc3fbf03842297a609aaea67cf9 0x686d5077f325b3959ace50e92ed3871e09a5e627241f4b2a6011dbbd0be24a3e 0x9698e4ce583535d044db1687dd691ba8c4a2cf2c3358adb04a1187b4755fb91 0x2c6d55debe0ec7eef7b6256cde340feeccfca4101f2b48c512421dfbdece15e9 (-0x15cba37f0eb381d60c3b62ba90824dbcb9e22137cc3833937c1e55e471567cf6) 0x27f3bcb2df3b81368374434b5ad1aeb010485a1b1ac50f95fe196f881b73f0c3 0x610f2c9055213169091cbfaf255c6ed725899b368b3d9e58acb98e6af3178a03 0x5c5efda730550621c5878fd6385effaecf9d57dafacd4ee05212e57fe80d1fea 0x1408832b65d4f8ae6eab0bf5fb583155a13220683b169123eee34dbccd9d164 0x8c21525f64c931eb727e2555ce375f3cf318031ac7c85ceca29bb4f8fb0dd70 0x9e2c6826999f68fa2599bd492ad6bf7465a64329b725b8736d4ef8528046142;
  Step 0x0 0x2991b1fc6928732500dc4e1993096dd7bd01703a46aea917be2665118dd27729 0x16be5baa647b4b25a1f237c70f5295f17aad8ca7444e2bdd41d2d57a82fbe836 0x7d55829b96ad41b2e754d0b8ccb07c41e9e3b098c6a8ce0cbde72546a1caa9bf (-0x70eeb58027214df151e7afdd809d4eb041e56baeb598f38c70dc6c8029fe1873) 0x97b3f7648b6b2dd89accf0bb70814e71076ea4702783e6203084860ac9785b9 0x10f3574c9ee52947086549cdaed8e15cc31c12c124bc8a7b28f0f675766bcf9c 0x0 0x0 0x0 0x0 0x0 0x0;
  Step 0x1 0xaa06ff17366db68d6fe5dcca1edf8fb90b984c6e98ffe07a92745a13298260a8 0x348efcf8bb227a977484ecb211f8b84455f9ef3ace7570122dea050ea2002423 0x731098d357b830bfa6872fd01cb05d3c120208cb82a754faac2a8aca7b8629a1 0xe15797213644f4541a736f717dddd865e69b499afea711955a7542fa07be41d4 0x9e9fd73dd6751942c0727740443fa497ba9629859d176a2bae52e8085b59eb45 (-0x1bd0bea2b013988d7da252af2348de1c860a83150a8ebfe304cec0d8b5af3708) 0x9f6b8d5732151ddcb27e7923eab923a302c3654fe5197f4d52765487d5fd7312 0x483d5a1c68de7c0a5b8879c409439433bf77563dd03ded8f51eaa85fc78b3481 0x80d3e0e5bcca21bc2b4b1d6bedf84154b25a3827e864149456fa6af66aace9c7 0x535ea4a491754fc8c7b4fb16f3b762f70993fdc9fed1b2ce84482c8210efe94b 0x8b7338323cae7c22e07a768764d39cd2a8941cbb18b060cf0d1bbc7eb7e8e13f (-0x1137395eecc0577016e622a80bb4e8716b56895c978e36e1118679a35b22f354);
  Step 0x0 0x3713a3c7a9cd4e91d68a186c8654e0cf0c8f201b7b868bd8108e624f13cdbaec 0x2ef7180dbf674bb61c8b0e43e66d90e0f48e56ae7b92d6ed84dad7886bcf7659 0xec117069c665d5d1e350385fa7fe2d0101234646f51317b854c490965ecf582 (-0x809af943aa05c81d8701558be645eb618fd36e3251f7cad0f409d2526855777) 0x10a4f8754e9a514506c482fe21f4bad2c9cb66e16b62a56341b2a4ffe20c7519 0x7a356d85144fc211d45e3d0957bc94428ba7bf3d63aa33af7aeedb09f606ba3 0x0 0x0 0x0 0x0 0x0 0x0;
  Step 0x1 0x683850a5fb5a9a3496305730abf879c78c5df9f821c8737a1c9ff2c6d1046e15 0x44358cd289f7ad6971385e7853d245afd7c67d3455cdae275c4ff4d6266ecaa1 0x84c6a7a4ecd2882ed37eae9fcbc4f4873c9529d7ec2972fff35e124d6fc3d0fa (-0x136f0fb989b55fb05404f71cc63245ab1ed0c242624161f39f0854a364c323ab) 0x3b992f49bb5c47759b69f0cb2f3e95d6ce9ae565a7961b87ae6ef200115aa4de (-0xc25fd99da8553507d890a6117a66c621b8318ab1ea5c564c2cbb91cbee0ff34) 0xcfd9ed922d665147c1106fcc2a294c26861a06a1382ce1e0a30f47a68a2d3c8 0xdb1f4a25d2c84bf3f757000587425599c8f1d1fb6222874d1fa9becd94e256 0x8f129bbb20154ddc905e4890f87da515e9a93168342d687e948a05f3b1f2bc73 0x5ad911e753bdc8e90fad98995133196853ab80d062e805f841a3d6d17a79814 0xed0c823bb483bafbaabc2637d1ff59010aedd7fefd47fd8306e7898a3b52dc 0x4cd087dd4f512c46d03ca587ab9ce7632fc586908d812bb6bc1b4e38ca1c2c7;
  Step 0x0 0x1f7ed9e6462d5a79838c8547aa0dd953fa718f8d9308fb4b027424dde1c2cd5b 0xb51a6d98a1b7583f10335500ac408609bb95c6b604b477eba3be92994c6c0564 0x3495180cdd022e1761f2183571207b72930f6088129aa864a962bacbf6d2644b 0x3170289fff01a8ec829a023c257296acd371b2c4afd9d43404808c52333a214e 0x5716174384e838f8823d4991db658023caa4662093a3a3dcc78c4b93ff293bd (-0x1f263fffc65f9d046de4e39d4ec95917e53dc3a5252323c3296429e614d5bd18) 0x0 0x0 0x0 0x0 0x0 0x0;
  Step 0x0 0x50e0f1159591cb48b26db2faa697f792b0e50fa25deea57ccd248b57a3e82e7a 0x203d2db367816b86a134b3df770edb340c6743ae3a37dac438ce90ba458a5710 0x2d57116fe58a2a4c0d35362d96f1c2d75ae0b8de9ceadea375237a4911a7d2ae (-0x1ed389d8103b3ec67ca73b60e6106a40a47e4426ceb8250413d7e144f528c86c4) 0x23e469cfec394a087fb1cd170ab4e8b45e290e88b13248afdb59d8d0e4a7b33c 0x42101350f21b6b1f11c023add6652d5fc24c9ccf928d9d38c2e30973658c7a7b 0x0 0x0 0x0 0x0 0x0 0x0;
  Step 0x1 0x3391feebbb48013887c282e53c4c9f1e8b47dfbbdacbc44041d8b557ab4b4345 0x6df9d84591601815b9026d507076a1d810f73c425a67eb6e7ffa2ea29e7f7147 0x1848171605205abc35223b207fa2f58fc19ed24b42b2ad8c8faefdd22cd219bc 0x88cf573b60175855f774e23ca2b403870426e087a4938be885ea80441a4d7bc 0xe97b2817ff8eaf161560fc88dea8f5173ee76cf4a2de189d03281fdd903949a (-0x15ff2f0f1b523e957e7c3deb52a87d14cd44ac087e7a8bc60352f36d497a2bc1) 0x84c085ace6ea3abb0a481881d399099006a155d1e6795561949de275e1b4e56e 0x428c93c2405f8a815398b592041a24a172b1f1a2b761766938fec7a2dc1c75bd 0x70722d125e2a25e7680af81ec09c5909c5c9e04d56676f56b2da89f3f6a2927d 0x1b99ab12adec03ed7eb4721538f42d94f67dc6d180295d66b67ac3f96fbe65a2 0x60b289d97e79416604244ced32d166efb281e7de8da5c3ef8eface403d23b15f 0x1fa1e323bcba698d2872150e2e7083de005a2efd446f600ebadd9be9027547cf;
  Step 0x0 0x7f5b09d858b43ed9262ebd8dc4e6b700c4e781a48d9e510c5c43749dfaa14f2b 0x89f573c4cf7bc69c71b12d7a265a2542fee3e29a50663d0a0881fa62ebe91c59 0xa8c9b57789a66b515d609260d82126821889616f3db700055d3f7cc57ccc69c8 0x544079599826c18a132e0dc9e05226d830ccf0b7e602abcef0d8b0128e47725f 0x58fee1a65129b588509b69f9bdeaf8d5cce6e16dffb7e5ab648b4a21809113de (-0x31e69b6f393ce5fd0fb5ac7099900479cad0c1abbef41d53aeafb48f599a73ad) 0x0 0x0 0x0 0x0 0x0 0x0;
  Step 0x0 0xb278e47ca5de26a3bb031d194444b5792563c33537121418753b9bff51706d7d 0xb06168d1b60ae249a6e6430dc3d5efb4e24bd0c5689b40a5dfecff346afb20b0 0x2c0f17181bdeefb92558aa2313482b6411dae1836c0f1151f03685efeedf83e6 0x1148bad45fe75943d428887ff3ffee95f85295e5079297e9eff2fbc865804f01 0xaec5d4eb0c7f03ec3da87097c3e5125416c45c3dbfb7af44b50c05884c84e0f3 (-0x25a012a8d4abe9111721ceb549b5deaf073a8e829871b1751b3a1dbb96b2981d) 0x0 0x0 0x0 0x0 0x0 0x0;
  Step (-0x1) 0x4066dd05b3079504387ee3039fb1c98ff4243b37da6c10c46c75ac672bed4107 0x8f541e528f810707bb3f5b5566b3d35fa8fdf4f2f66420fd1c6edbdfea4931ce 0x76b86843b51462b65da9e5b23f658b6d2a8ea0c6efd0161ea650312d036f67b (-0x1e0f63b972ad88331ed359138f8c53d417d4c411f6e2ce8622886ba7c05bf45dc) 0x16c1f9753fc3ed046d5a86f62bfd81a0d65bf393cc9d2c6e04a3235b0f79ca7f 0xbadf8ea20d09348ec34996b82a5c3669d800a04cec6577577257d8a764ca491 0x4fea4975ec3427880a780e5de25b2321f6ce730bf4acce389e48053db42fba85 0x40bb3e9824809636d5f5ffe9f28e7718cc38e249fa7aceb6bc0ee64099e7a73c 0xa8d28d24ce98a13c195ab1a8bac30a66ca315f9c556103bfe7041beff7f8dd97 0x1fd7c10cde81333da1c5fc68eb53236f8caaf0be274874eaeb48aebfbc65e8c 0x230acc08a5dc268f7b9d2296bc0e54686016441b8383acbcd2dcf7141bcb299a 0x2276d814d30c0ecbd22cb9723b2816c968a685e1d0a9bee4d392cb918e2c7f68;
  Step 0x0 0x1c2689fce6a5ba42769582498914aee57685a2a36b3099e1dc47951c98ca6d2c 0x253240022f23be6876fe9afd414e9705d07a8ebbf60b718ac594dfd1d93ac7a4 0x210aabd2bf2d2e60b1ed636a78070198c503c2504c481daa4d8ef97114b7f5bc (-0x10d21d53bd1f8917f11918f233be3812f6cea9f6451f7e70114a3403f9ec13e8) 0x45921578ca168b86db5724675960bef76eecd2510fbc0410ee4573f5c2ef984 0x440cbb5241c41a9d91021eb724c1c540b26bc568cb2fe3c8ad4c4f3897a8391 0x0 0x0 0x0 0x0 0x0 0x0;
  Step 0x1 0x4169dd8fcc301a7b648d53659e08fd8d5dc8cee398d7dd923111b7c483b3f56a 0x119bec49bc8efb16eaf67e2bd776afd21ca745d34992ba7e18e326d6170a24a7 0x93ad55f6a734663690381f23c439ea73b401ca305a93fb297932824e2eea810d 0xf1adf8dda56aaacc1bcf2a9a4ce0690932a3169798bb9c6936703ae7ad2e80 0x177a75b2c5955125f2a9842637edd6274993dde5dc1d53d32a47f0e33d0459d9 0x707c09a706e85622646f8473ea49f4f3ffdbefeec75fd2247edce4ffab9b02d 0xb2cc9e0461747be2e45becfdb547719eb1ec38b8fbbe65dfe66d112af567ff9 0x66f18dfe8ec56dfea42dcba49db41904e772f1544d5c1fcbd9752fb938b82571 0x2e4fac0a79fcc065d7ab8fcfec71a21896430d6f307b7874ddb6025278a08a7f 0x7fcab92f5b6cc3d09fad725a4a77827a98c0c9aca9a9b028a374d814d45a901 0xaf69f5df6b6ef73e795fde8daa1804c103263b8c33d3dd1f08850930f53dec (-0x53b801e47604a93073b5c7d5fceabc648c9fa1b53688922424a14ef2fdfa4fe);
  Step 0x0 0x677ac2cd2dddd2698d5a8e9bdcd23fa1c182c93227ad4968f560bba63c3a2e30 0x7bad74adacd4940410034520d01c0c3482831692a9ccfd3d871ba45012c5cf3e 0xaac187eac2939dbaa5aa460279ecae112d853e4acee81b03beabcc841a663785 (-0x79da3ad0c3623a1e913184025b53cd75fbbcc3d97ecad9d0de9157aca90b537f) 0x3ac129422992cde417460ef1daf4a1636e724cf085e83a62dabee3c30d83a060 (-0xbc5c47efcbbe9ccba9e7f6ff2c962dffa736a95e81ea3367ea1ecd41b5d2284) 0x0 0x0 0x0 0x0 0x0 0x0;
  Step 0x1 0x23b9a6ea6e2c8e2a5de20cc87f3067878f50fbe485b3dbfee9ea0e2f51699c9c 0x6ed8ac12edb16a0413c35d41cc8a58b51f993ccf2a6e8ef0e5ca8a29d13498a7 0x612afc3480c351a1d5e3fa3e0b9cb56bf06859dc9fcca9a972dcfd32e1bcb423 (-0xb8d8159fd0f8ac62d743b82d3300ebf6950a5f5341940b7cc8ba875f7b197504) 0x700c23b60dda893c3b02a4ee0ea62c0ff0037ddcb21d28a5deb7c7d444cd731 0x283e4b22f1a92d4eab247b311288c9a918903e773a9bcbf45486732a5778c8c 0x2ecd3fd7a9b29d7120aadd2a0c2287bb19cff8bbc7654459cf7a22f45568511e 0xd87b343983926f7b0c2d9bbdafc433b1d3bb7a9bc032b27617d1300bac8b473 0xa4d6e94d1ab88b4aba64ec9fe3350b5f25d4ac37b0c10e2e47e7de86519f085c 0x981c7d56ac2604af10cf352265f2642e9d69d1b345f62d89f1ffb4ab3c8cbb5 0xc04c82b483df4a0117caea9b0f1e4d82875ad4d7b4c0ed499502a4dbdd3b851 0x18fda524bd73707c0c8497b8c58d8ef6e4b99f653be8098b9b03e4376d52fb4d;
  Step 0x0 0xd841118bf3ba9ed35164d74527e371be5ba4c55b233ad65e65a0cc7a629f79d 0x41a2ca3e8fdc3261d9dde80fe258c9f2531614eb8179b1b7f096f259847f3957 0xaf4b23494d98e5bfdde3ac401fb664cac92b149e9056365e96f65b2f423dae 0x156f9ef8b79cceefb3986cc429d249534616f006d983aa8e4aeb597259642fe1 0x1009a53c952691db95fdd8764d23c29477143ad085126c952763eeb234c11fc (-0x3dd3e515f1120f80f865f6ea3aabbade559aec32e68eaf2a5e6a14823cdb7b6) 0x0 0x0 0x0 0x0 0x0 0x0;
  Step 0x0 0x298a481a3cdbdbf91a8975ea26f1f11a125ab794e5d57b3042dd838721e99992 0x2bf0cd4f172329cec440ae49cf279787371c11d0c8e290646fe55a023ae29709 0x47cfaeccb0e6257a2d5c62a65dff4f40d428b72eaa218bcf4531c17740eeaa20 (-0x469a446effc41cf654b7104ab85625aa399ed0f4dde0f234d4838b7189645617) 0x977ddfe33421d0f263a323741d3bce843e9f9adb8ba326ae3e10a2a961fe551 0x4f1eb05f24c9f687a119bb5249632848e8470f2312fe017fe764b77a90728c6 0x0 0x0 0x0 0x0 0x0 0x0;
  Step (-0x1) 0x764578ef2c513a1a4a58caf8f0cf4bf6c64e7f2307ad08ca29a6019e97d713bf 0x73af819216d412d83b22e18e42664c6deba14a9100dcd67e147da0bf1f063c00 0x94a35dad123075756f42ab857d704bd00f0b20fa709277febec163bae62d15e7 0x3d6bf144e95edccd5a9f8f36eccb39bd655c848adae3a6a1825542db02720991 0x4cc09afd665c6ccaddc853dedbee3929ab8d934b8cd1dec475b9e5cf8bd9e75b (-0x2e8f18c47ef912875a717f4ebd343b6cc936351ce312851d6287b56fed2ccf90) 0xa8c912ef983288d58515418fa21f121eaaccab8604fd72a08cb613062cb07758 0x373480ec1b7ec5486277af7c2174afff247e77ada7ea84dc2372e1de53338a74 0x2b4b55348c8cf0ff0c0ddaeced276c2675a0f6fbc1cfa536f56cd5e67d5b3f97 0x1dcddb185977054a1428d912323aca2337b572b3c4fce8a66e90e92765d844d9 0x9c50ce2f5723effa70c3620c71d593d1d5b1d813038d50fa41b42cd195d2b8db 0x38031febe4a290a62b9c67c8e5cf5150218154fbefb666e1830deb13d3f65aca;
  Step 0x0 0x78029c3e2262c9a3cdccba516ee4fa49930e2608bbe14de8b2b29ad349b96fcb 0x67c0e371dde9c18c3203826b81eaf5640a70c660c04db86fa33201fe51cb92ea 0x6cb9a939cd4b77ea277b7b032975474b1f28ff8554fb008fd05045894ce1d925 0x6da01478ab791c7704b03785cc5312a1afdd3a5fc2216325aceb6bcbd127712 0x4f06991d3bb341dc5f9ea210eb44cf3d5824fa46849244875b6636834857bc73 (-0x1ff7fe77d0cff3c08f75cdba4279af3d2c971dc6d3775149541a76b55a18d2e6) 0x0 0x0 0x0 0x0 0x0 0x0;
  Step 0x0 0x88d99933bc9082aefaa5f4b4f68c62867a616fa1d1993a9375f5b8d972acd350 0x8f02256417d69c200f83c2889f62b8ed3a5f68dd436f9f3380982e0533b2ad7 0x4c0a2993292d80d405b3e15967dffefd11dcd2b792d8932c7e3551b1ee2b48c5 (-0xdea94bba166c10af7b98390aba01bb2ddfe37fe59283d848c15a98cfce50c7c) 0x66c26f4c45c9c4506e2387430136de99028e332bdb2e94bcf67bc7f0ea5405b9 0x473235124d690f829482cc1e7273a36d3cf47bd6b66ee3afef28b8308e9b77fe 0x0 0x0 0x0 0x0 0x0 0x0;
  Step 0x0 0x95139a9b3e70ee09cd0c4723ebfc37b999e8771ac6e75445f7bc1b14911a19ea 0x81216dabd3efa6c00b38e01ce736e1cb63fbfe971668f7113b31c8281339db0c 0x391bf87a315956436a3f966cfe5c17ea70a5edefd80681441b2dcfc3485d8da6 0x7b1527c2f76c0b8559fa172ae6bd24b55ac4928d8a3870b92040d77109d40905 0x79f101b7b11e99ffb1a9339af288b13c8e4a858d8d0d19c77b5e143904fe9df2 (-0x62509edbbca70e12c85e2efcd95db90127fb0bd35023ca7c972ba8c663c6d5e1) 0x0 0x0 0x0 0x0 0x0 0x0;
  Step (-0x1) 0x8fa360f89636c06731e7d172be205f940cba7197c988ca58fe6d75d57bf8d797 0x4c8a3f1d4573f37434fdd41ebe70816418dfe542b66eeb73d393f3b77931878a 0x84cffb7837888811e24a1978db1455bfae1f5f8ce7baeb8d1a2cb477e95bee3 (-0xb875f5bec320b7dc959b096c9415f22f963f06b34f38e96263b5a891fc29320c) 0x7134ee3c2e459c08e23cbf117c6449487dccbb089622cd8f84144d08c7e4525b 0x2972d948bd37943fad4b8bf492ffc6dc9759604684a82bc6bfbb05cb29af24c9 0x9ffa5801bc5a07f091dfbe0f9187a5cfb4b6b76c36ed1488f0b23f6d2b6c8c04 0x7fae0abd04344baa3f8707487169521b1ccabd966ebe50774fa0952928c531f 0x7a6630cf0c3d6887d629a996c06db8847d0b2f834574b3efd21de7d73f4bcd17 0x3e9c507f6a7203cb9f2e0c274c05a529e4ca3d2d8352da7f95c12d5507edca69 0x8c6d773b914376581c113184b464ea5cda6cac4ec34b4350b8cc12b1e61bf3d2 0x3c2e7b3d5fc5dd679a7f433267fff86f195e8f6fb16ff59239f028dfcd94971a;
  Step 0x0 0x1672fed3546b5b1ad0de93271994ec55399d42143258045d6ae21f96ea063f8a 0x31cffb9f21285b3dc9991a3c5466382f904e05add4ee325c91f8274f0bc60012 0x5fe2d2a590e5c3b870b71440c0fbac1cda47f4d574f69a7ebfe4e7da42765260 0x1d1b05787020476f1d5e5b39db7b4328726496a91922326bc1d8c68157ab5dfd 0x2c3e75a9fecddcbe0a1e5dfad7faf8c355d567aa133243f7554282f9d33fca4 (-0x52720746cc38a0e5113d1e10b81d7f16515e3b25877d85073c14b9cd2462b59) 0x0 0x0 0x0 0x0 0x0 0x0;
  Step 0x0 0x54b58882c6a7469827561bf5fbd73e558381ff017a0d21d7c94c88fedc5f4bc9 0x85b4b050d1777de2d99196c4dac770d5058c239f3a62e14a747df1702856275f 0x8ec4eb83d3f1fcb73ba673f8255f89c7c7a2bdcfd19a6c1059ccb3ee2fdf0524 0x304a746107937d412b6de172e9abd3b4e382ea14c5affbe667101ad948da5504 0x275f5ab07b290e99462939cff90b371ec05a0641311206a876a97db647d366e6 (-0x26fe4ac488b1ca7291b4aedec1a1259f0b7da1bff40138d6005404398b81a72d) 0x0 0x0 0x0 0x0 0x0 0x0;
  Step 0x1 0x41fcffcfe096e131cb4f1b15c6a2e263c2322bd13151ec0886e0ce13dd95c9d5 0x500659286c48f3d20f25478960a56a942eac5f6ec0f4d6457e1f30ad7a833749 0x9045eb31ae304644d0bc136fc90a8bbb9f3b555a94b69bb8e0e266aec19ccad6 (-0xbee39e827c333fd4be91a222b28a0bab4529260e331d99512743731cf6a8ec37) 0x17e48af99850c8150d1c797c733f183ce41fbe272d3ff2f9a432478374d1b89a 0x136fc424f1cb59aa330661f919057232856d4ca77e01c0e900c16f7a286cb9e4 0x66c5a4aa7a041371a6c9a6c9f60f0b6543602ed5034ea9c9d045aea5e9b51390 0x6b5a31e2f7ce42fe0a1d2ff5c09620818b9dc0f6a31263be47069fd6ee9a2eb7 0x5796be6da55cf4b68800a019524e6093c9f2c6da753bd1afc7999aa3b950c4c6 0x2641c040fe482cf2cefc03d561fb5accb85c6e4d05734c73176422fc5be86400 0x39f430e486be42ad753c6a7e9118824913a696cfc80cae150c64f520dc927f1f (-0xf6901b0a94dca1cd95f78fe09c6296bb5bf031e49c2c2cba3b135aff13dae2c);
  Step 0x0 0xb56c6ddbdfa45406e56b6cad79c42359f47c54a81f6131bf2e8549ceed47b385 0xa64b6c973fe8eb79721a77f1598dcecba3b47adfa63831d2287659ce9325be68 0xad53e3f85c566095b3735602950c7e35c96bb741f90eb15400c303e98ed6d35 (-0xf521c829f174d0483fca10b04d03ed7100d1cd268a7c784c48c0948ccdb6743) 0xb499d153a08b9b71b5432327522e36687e7eb8754a759e3893337d1cf7b2bbbf (-0x3aaccde12fcdef0691a3deb91067c794a8036e41c8ea48447c236be36d9f0eb0) 0x0 0x0 0x0 0x0 0x0 0x0;
  Step 0x0 0xce8d751e7c3cf2378040285b5d7325e080cb48dbaaef1c4b9476677e1bc4e35 0x29428a1662dcbfd71a0060bc70ff6da894970ef36dabced8f753d61c89e5bf95 0x46b4d8a7fb7af9569c6a5401d7637d64bc6c89ea4a52595827ee0d78ae8f811c (-0x1c5ac6fcbfab6c3db405da65ba6b706c447a9ffc802c9acefb89ba68454500766) 0xea1887c3fcc33843ab9d8b540a45b596814700d36166fc20f91e6d6d5eb924 0x8db52fea13d8bc117e8209c15b2efdf18093d9da751117ab292d19959a65936 0x0 0x0 0x0 0x0 0x0 0x0;
  Step 0x0 0x75ef88cc07354ac1e3276fb8163ba99728e1d534c4913ba9c9e74465bebf227d 0x51976146bd21f1655a48dc75f1956973776f8dfbe89a6c6b39a01788c97bf172 0x852107de423ee54520fef7217240b59343f1bb5e9dd0b72f351c71c24fe49b33 0x3f7ca284aa3a5661041b31113460519d19042e73d1195647db78adb0491a8f71 0x4c51397a239f4f406a40018793eab1378fa1c35e4ab53a4c5425179fcfbcd9b1 (-0x1a194d0dfe294bd29aa109d3d31f1761f196de8c242a4eab3c5eb44fc97b5198) 0x0 0x0 0x0 0x0 0x0 0x0;
  Step (-0x1) 0x8ac43a5fead9c17f1100d48d753be9e62f387f333eb8671aead1ea4b220ffd0a 0x5df432135202618637c0a709333fa79f7acf4fdbfcaf6439c526d0c0b0bfeb5c 0x1cd82c430bb64981277db70b78a15ae06ffa5143c34d91f49f696a5582b2a22f 0x5d25f36fe246e8d7b9c06ca93a3cca342d0d9fb6ccd989dddc0b32ca97be7f70 0x69a869d65834268d322e43cb453b391e2e59865a1b1bf3f9386130dd1ef697f4 (-0x969b6de5d3de5e907b55b9fd1c99548b0f939712eacab5543ad8686ff267b7e) 0x2d28b3d3d2e46e8091ef34492be447e4ce4624778d2d4a8cdbbf2c5f5f3bace 0x5044213688ea10635a8c1246a7101a689c8106ab08f98f754ecb17e6262a2038 0x5d5a6c46e8f350048f8187c205d0e6cc4075b4da69539b071c7f2d3a43ea23 0xd5be604b3e766dc3512412aa508a8b6b2d26001e0649217c04882883d7aecf 0xb30947636d708d4129bd3727a141c451c85dcd0ac6c72224c2f420ec7aa0f 0x36442250db0299f35b195463089d5241bbb7ba48fb9316bd3e727044f0061e;
  Step 0x0 0x763c7c1381ead671b109312bfedb6dfa73d81c1b68cf00023ecc4e823bf0dd69 0x88b3aacf603fe6fabec32dba0d1ff7928bcd3bcba02d83c7f7b4202daf2eb2f7 0x6a678f687f12195f864d5a72919ec7ed1a1ef4ad00134d52c305208fc4775414 (-0x6994279b9e66cce00a7b8e002b67241adcfeadedf4d1ae1b168cae643b263452) 0x4cb4f124b2c0ebfb6fee60c4e87c023481e9e43f99da7a6339ea1077bf19d072 (-0x249cf71b12fd032602cc38dd3eb250fea83fb72f715601fc6a002db232add526) 0x0 0x0 0x0 0x0 0x0 0x0;
  Step (-0x1) 0x6037d5b5bc9536b1c151edfcaa6041040551bd22f112422461524ff53afae8ed 0x90f80d46a24df538aa86b46f5dba2660a980c240dea1e85d12b1edfa6275f3ef 0x3f40173c6f9e338367099911da6dde5babbaec3b52081f0770fefd38d4d5f231 (-0xc3427c5c105bd689c7b44686ee9ee74deb78a27f43ee6be1f4c32c970ad9f187) 0x32cc45799c243cba6599bdb60ce5e874393a1b625d2386e2f3aca038d75f5d7c (-0x45d560fa71acbc6a5391c3ba1175e0bc9f29672e995bccb967b0e8734eacde1) 0xce9d6de280c5c3c879cdcb81bdd6a04c1cc1efbefdb086433b9b4dcf369b62 0x93596110d22e40c456dea6e2381e920ed24b8dcaf34a15cbe619cdfec34f6b70 0x56d4feafa6bff32a27a8bbb2a4182386ff27d2073e4dd34cc14c5a8dd7f05f37 0x34929625f8e662a4272052049835d4b602d189d70f1f0d7f8a46595802e5f 0xea3cbd26410ea4cad922830e4b8edce8486a3b98a09639ac44e1e73df7e8 (-0x2b2c9c260a0892ed7ca462dc3046ef0c4717b9f5bad5444bc06bd2a4fbd12);
  Step 0x0 0x5d6a9735b70c8a69db2b75a98f3efbf91141ad1f03e672007b2c1ed03d5f52fb 0x5c8db36a58cd0a46dbd5999cd105c05dc88a7112e7a7083b628cc6521b761312 0x6a58b791cd701d98360d139bca90902bd33af482ff66da3466eb13a1a6da73c0 (-0x10c61431d4c1cbdf6f036319fe91bd64891636e1ee537e1f8fc7abce092e8769e) 0x2fe1f73690662b060833a594de528fe97ffe3b7824a41615f0917aa303f8f573 0x1c16345f89525890f2079cc158c0d403ef338dcbab153d0bdc50715bed42bc6f 0x0 0x0 0x0 0x0 0x0 0x0;
  Step (-0x1) 0x60e3abdff80f2516164f75f29f789672bed64b2bf0dff91f24992fbf324d7068 0x26ca57a88c1328ec8f83dc980248537e93514232bb0dece41edcfa3c66ef2b67 0xb3f9b81e8845dc4ba650ef4471e7ef60974a954931644bc3df3ae791b289ac58 (-0x1beed117cc7775b91d8cb5f3032c361923fc8821c7325bd37a2850644d0004bc) 0x338258549c0fe0ba3e979676339dd61bc70543f87ec67d499503357c6ecf6599 0x1c94ff45f9848e9a7b6adbbca269c2e093559989ec0477a4f0ba1ca3702300e0 0x75485f1f81693489a3eeef107799eb84adbf51605723544f5f7c5427705e8288 0x427bbc0ca43b6cfbdd5c4522bcf963ea323b61e31afc4eb6bb49dd8aad812a36 0x87ab87354ec7058a26c2b15159e0c4da796284178b0fdf9dea6d1269d6f6f004 0x4631a041e366d5cad7f54c590c8f842893a85508b468d62080e09bb9c0fa13f6 0x4b797a6d7aaae3b2fa3da0ae498d39fbefd40b7d19bc19a8e938c6d3b705cabe (-0x11d2362b25ea8e16923e49cc2f31485e74f02a8bd8b7442e2ca25151a13c19e4);
  Step 0x0 0xb2a90f9e2c6ab51814fea916d7b5e74e8ad1b0d4320c3a428ee1c21608c660a8 0x8ff7b860817e69d489f0643838697f577b968fab1062d159df27f5375dc1880 0x71c55d054d4ccb8d027c247b42cd377d7e9e793ea7ee8b4064e63ee7b0374cb3 0xc13ceb9f3aec89894c195898ec42114955924648dbb010fe8f425ba156f2c3a4 0xaf2438b333f9f82f12655a9c42d988dea4bfa22f98bb66a36fee026ba338f6e4 0x385a6665d2c13f2520212d316b963ccc80e152ef23f7953e3947ba1ccd0ae6ed 0x0 0x0 0x0 0x0 0x0 0x0;
  Step 0x0 0x1cf9baa9df4f9059d3010e588bea85fbdfcfc783b34228af10dc93c5121e39c2 0x6de058d36c3ec4a898e5259c646cee48c6d4b722fd0ee1499e693f5d42aa4dd9 0x6f5f3d405b1038b2eb2449adb56406c36f59e0d9ed8f67bd3ff46bff5cffc64e 0x22d7f7c35877b8cc9907cffafba2e762ce814ec73e6077a2042dd366ccb65c3c 0x49b53d9cea4f73d781a1970eda70030bf5cd180446d5835680f2488af4c84c7 (-0x1009d5d3cc719f39b1f064f5bc5fc901c6897644da268c9b13f1b4c0decfe5af) 0x0 0x0 0x0 0x0 0x0 0x0;
  Step 0x0 0x2e4a164bab2dc1da9b9093f4e881442b215d0a50d81b573749f656cdd5091798 0x1c74e28de5de21a27ce9684c8456ac0683fb6b4df7a3b14aff02d4487b4d3601 0x7c80016f7751a155f5f0d9bdb3182b6ad1bffe4718d37c47c8de723461593d94 (-0x8e27aee9f7481ce8c375ef261146d28772070d093d02c6771dde457244bbf46f) 0xbc1c9271b28577c1962fd0ec448cbe79b56b2d1726b40170f4a15a2e2ea0c51 0x14adffde42e3adb5c4961410ea6962c714fdf7d1f62798d527ff6cdce39db436 0x0 0x0 0x0 0x0 0x0 0x0;
  Step 0x0 0x245f76ccadf5503e804498df63cb1e53bd20680b6dc523784fbb8c87e0e758f2 0x7457836935ef67504aeb3e3bf2fa190f354294a861e26e699dae6958e2a0fa1f 0xa612e4f3d7e0a3836b333ffefd150b9b5c041a7922f9cf3db24df9e289f2f2f5 0x245d71adf31c59ddbc1923c5b381c631b5000157166cd23b1a19a1a91e827c91 0x7425a9df550193ae404b3b59504019a010801f7dae9fd62c4d711480ffa6e9f (-0x118a356257af375dd388973c8a8cad9f62575798a8ce6a0d33a086bf045a9989) 0x0 0x0 0x0 0x0 0x0 0x0;
  Step 0x0 0x4336231ed9a6a966d78a3f21ff0b71e4294c2b238dc1462635b7e153df8fa79b 0x776cf52ef540f0eb863d81dfe31a49dc6ba7ae1644e75c7a99a98b86999cb72d 0x954aae00dd71d5771b337c136c94705995c3be92d7c5c684190f3550dfad9b38 (-0x645045bafb067f8dcfa38e8b40af2cd214f5f0e029b9335c5d1967e2b7c296f9) 0x18c9675ba130f034106ba6012643f00408c8190ff18afb0f891b4d5a5e805186 (-0x1232314188732467606523a44077c6eec691295269c5325cb06b529f0409af3) 0x0 0x0 0x0 0x0 0x0 0x0;
  Step 0x0 0x374076bbe0f7eaa00d112ade141e69f95bfca54c5a397516111fbd1aa5959210 0x5fe558d7d24dd6fae0966695c9794884706bf8f92400db1ceb61894a83d90de5 0x78d3694914a2fda58a43d79a19ecee58d0bf3de25e13777087fb4ffbf3e8ef2b (-0x9040d604e5818540b5aaeecbd99b75d862f4d842ede46ed54c96daf07c500e97) 0x10c01b0a9ebae0e2ae163a0abc08d9b2874d355aa41a00a92e32804d1ed40f95 0x72225cabcf457f791e82cd239581854cb1edf4636ba2280f015a84a0aa6c921 0x0 0x0 0x0 0x0 0x0 0x0;
  Step 0x1 0x992d6b34085e7be7120925c4927111f6dc615485530a2662a696b425e97cc436 0x461c88e42c50672fc3f0236e9d9a550fa6fe0d521bb86de800d3445e1ad40f4 0x93b0bac34161b2768f76766c3ccf63588d56611672be248b421d2fab8a1a8d0 0x33ba7c84b31e8cca41fa56d648048882e907747b5c7398f70f3fef25e9d6474d 0x80be14a5d38f1c163b75563faa396c960d0e74790586d2cbca8cdefe06df421e 0x4cea63fd11d512ac18318dfe648eba5a48f853c34f1b21018568a109bd676d37 0x8b8a833b2d3c47888bff6bdb079bd28d4cf033cfbbe31f70417789669aa3c51b 0x99eec06942855dfa5d2010751c3dd73190bac327816cb1ae8c719c13e9595cfe 0x5af45a1fcfc282351d7c6e505cb368a4710cd27aebacab052a8570fd551d267b 0x6ddc4f3b7b0fe945914bcc6e88049e65d94128d2ffa45b9c0fe621d248206b11 0x6ad734f5d27ab80dd91b31eda456f258a5f6d821908b253a2f4925b4f0b68f52 (-0x72812b84b312ffec1aa2375cfef7b49d443f572b6f77f5aa097f999cf769db0d);
  Step 0x0 0x2fa85151ca913b14c65f530db15b9f535c90cbadca4450879f936c83f1989638 0x694b349188f192daece528125e6389b3ee99dcfe791711c570473ea7c2a8e90b 0x89845275e36cb85941ccbe84db8473549a9ba42dd89fe0cfdfe508d3cddb25b (-0x1567a1bed55db7ee72b7763919d3965404d075117d871e81f734c7153c792f7ec) 0xc7652e9afd77f7e73cef770adb1f2212cf3ddf4337874c8fc33460ddd1baf6d 0xcb804d9403fe81025900d81297a540883981bdf2547f3197655a395e50a483a 0x0 0x0 0x0 0x0 0x0 0x0;
  Step 0x0 0x55e9a7a2245f6ba982272f0be64fb227498dff784835436a0e0c76fe2acedf15 0x253c6a36c41b631253d8b27a839a01f35efaa63c8abb52e184719b93a87ea9 0x537aaab514905009dd35fcd4bd5dd62ad24a46d7f4dcef4e831128ab3712db25 (-0xae652d0131f30c093f81020997f1c4f162431ea603c276d889f21cfa237bd501) 0x287fd10e0a0cd3fb692d4b484aea7c69760590a233a8bfd116d645a663946c02 0x319123e5b40605f0d95c671a1e96001a1240ba1ddf469a80d469611a6d04d2d2 0x0 0x0 0x0 0x0 0x0 0x0;
  Step 0x0 0x12b6eea2ebf253bca10a4a7a9bbfd090f379d9f008771c9dc14906b68bc5f21f 0xa7079492834652611d12252aa30c74691825b2e0b406210bf0a18ac28769ab53 0x8000130fb0f4f868f350cdccfdadee9a689102730dddca701153ff2116b4d414 0x1124dc43610ef98a4fc8872dea3e79281c3cbe1fde40b3cf8591390f3dc2bcbf 0x1ebf68eb3778204826429515a7cf1e4551913ad60888fa056ba2294a9e68e4c (-0x1122ffe6eb1477867acd687f804a9ae71b4f3f3d5e89d65c23306fab0015683b) 0x0 0x0 0x0 0x0 0x0 0x0;
  Step (-0x1) 0x78e3523ccc6379d69813c725d1cc5dce9dbabf1fafe0f91a8a356d2d527f139f 0x4c06b0b64b8fc783b9077df63f8bfca6357a8743fe2031600670a5e0f58afef7 0xcb70711e9a5e28854c1a21e00011d8f9845cb888519e1788ec38eb6620ec2bf (-0x1216f0318e539460b95bc8f0887251f6f7d5e9298777b26f42d960ae949d2fedf) 0x502f9f03140e30aeeb2912244513796483e612ca219c7c31e189a38f2043dcf4 0x3c5d066fe8fc5f84fe969c67f1ac167f538f9ec9378d8fc1967c845f9a8d6065 0xa2df325516da313e5bf7701bf78554d693228eed13ee335bbf3401b2324aa769 0x7cd98ebd1cd9ee6464f855b8ecbdccce5ce525f42512afd87c0f8cbe764c8549 0x8070699aa79b7e8580c22f9a2f1b008f45d5e07522057f47c30be4ddb237857b 0x4033d49b7c405834a6ea50283bc0701342efe4e7648c58bc0dd3363e376937c7 0x918ddc99b0046e8a548ea8ed05b26d2e4c195a9ea3104e7b681cc83d23b04504 (-0x2ba1e5b6709bb9d3ce7a0378f62957eedb23e0153f9f01054924f08e37e7cc0c);
  Step 0x0 0xb535458f13aa6e98f749642df33f875a5b4ca0a5ec05594a2d1797829790cff4 0x1bb08d2c7915e7462e82e002349dfef312dedc00fdc2dbe40943ec056253e694 0x41e7c104b878a9dbc8ccb6d1433ec94959c52510b6e2bb1a87374e65e74037e1 (-0x12ca4192b5e09d275168d26d0f70c1db62b16949bf957c35e35bc71c436a4d7) 0xb42c117b85ed1fb9de29324fecaf6084ca9f9b1f451795cec42988d207cc8132 0x609acf2e9ec41fddd46fbd80b96c6f13d6f49f23eba97613a4b89a1d73dd6348 0x0 0x0 0x0 0x0 0x0 0x0;
  Step (-0x1) 0x151e9774b86a5525d5cd4b30370bc07be90dcda0e282ce6a553da88e92032fe6 0x807be6c64bca4fc9298acf230234047c1bcf54f705b4727b2856a4dad851b834 0x19dba63bbe7e46aaaf1a1022114fcac4891aea73f080ba246a1b717189143156 0x2a753b88497ba35196bfdc308a147534c4957c81e141061bf0e7aec041c0ecc 0x27286da6bb9ebc256ecfd01afc08e54b57f126ac666a912a41116db6b3c14e8 (-0xbae24f5d7ad2708246259b7bf066e77f5560e6da8e51d678055a7710f9bd083) 0x5adca399772c322485a787d24b1c07cb41668b47df2b03483008206e07de18ac 0x6c1aa049eebfdd5f8cd3cf1e93f218a218cf43d52a685d9496a09805b3c82b0c 0x6934a12515da3cfa18f06b519a4acdb0840bcba500fe3a83e54ffd2e74a1f183 0x9a9e522766891a973d92685919bf931dbc06cb4b8f3386a2144d4cbd799a258 0x2d4cbc7f1ec154129a5b07ed67fff5dd46fd7ea41452ad4944c28ee73259daaf 0xa291ae64b207652ae9ba743d8a602466d302b624f5465277648155adf7446d3;
  Step 0x0 0x361297b6897a817a4353284ea68a736b51fba8108c66ddba77d928861a584ef8 0x7eb0ec25e1e96bbf05372513e1d1b8b2053f16c1d6d49998a7055684504ce8e7 0x5b5d220c29eb4e7b527995df8852df4d391ec10f7575651bba6298244315dbf5 (-0x81f12c8a738f2379a2784a96bfa557db483b559ca61760519f9b706cfff0bd60) 0x100b0677aae4fc5ae6d850fcc8c3f61d7ec4e5c161ff6d20301e2b77ac26f615 (-0x583c3040d0880547f29f6c1e1c91ca99bcae700d367bbfe01aa01c206621420) 0x0 0x0 0x0 0x0 0x0 0x0;
  Step (-0x1) 0x1ee6b6a298dac3e4386126b1e4170b68b72b47ebd6394cbeead8ed571a441f66 0x54ba3a09b74e301dfb87d91cfde983de2b731eb5702d0e38578aba7314b2dc58 0x105410b46382b1b1b957e773443cf8b4e4d2dd6c792df9cdcf9a140f62d5cf3f (-0xe939cd6ea2dcc1a4f129f7536084c6ba3c153838b1e239fbb17f0dd7e7503423) 0x53d4b1ef57101e13733f8de5e2673ff1e8f91b627d4e46a9dca24c6aa2cf8d6 0x71d77ada13618d2d68e56d67d70d927304a6dfcb2c666e5a1462a3da475a4be 0x7cb5e3b3d4156bb8d4b8f3075a607282d3b0cf3732146015875aac220aa9e048 0x6fc2443a3a9673cb97434efbbe0d7aafaf3658a0ea8e99e4a99675d2fdfd3549 0xac60cd674f96730c49be63441b999281130f50b778ed448d70ea5faa1bd7b1c1 0x2b349a47370252ab755c8470f0998c681eb28b8c4cfa25ebdeea5396be9c7641 0x555654bacb885dd60d6a545d27b4a64e7534af21f65caa4537e1ee3f9a640b6a (-0x127f434d5a99e78086e9328119144c041eb48b18d0f02fcf8aefee7c8666f268);
  Step 0x0 0x64b01daec9c5e24d504c6fb2a989fab9c27837a17016e371abd200a4a45788fc 0x5c2f7c401cafa5e6dd835d0ae148999594c18dbc3bb457a698d2da0b576295da 0x20a49ba2a2df1bf217998d8d0b37d6bed30ce6b600856e46cc717d57c9f88af0 (-0xf211c09129806b120a54417ba44dff3e5a7e8b3d9f054c9514aa5b6c58b6757) 0x37a092935197c12fa0c057f4cd12dff5be022d8b0a04a1dcb7e16962c09e1774 0xad0507bdbffba63e68785c52fccaa15ce684dcd96d1d820d69ce44800d6174f 0x0 0x0 0x0 0x0 0x0 0x0;
  Step (-0x1) 0x290753599b7f3a95358d63f0c6d723dcf43b821e53c8b6197990347ff1b32727 0x5bad5707880abc6f465fe4ffe2ff701fb4cb5ed0defb3fcf5fcd3dc34455dd67 0x7867415e02e173b6bdac74607c3801bbfa1be841ad890802a198d7e507291ec1 (-0x7d30abb0cd1866d437e762fea8192eb0af8726220f7daba7dc71ff883210acbc) 0x93c898702cf566bff1268891d144bc3fd403e4df5ee7fcce016b4789bf6fa0e 0x1d4c76a0cc64a66861dd7b9c9ce9c8c49457f9dcc8991bc472d2f103421064 0x31444dc3d36d6ebf6a7a229912c53b38ec7d07e487e79484c9af79669d60fb6f 0x4b5e14c7ea54b1631b2d924a9ab96bac25ad8ca6ab032b75a6036e3940dd1cdf 0xb357c69c2622da65a44ae1f706e3774187c2e2d554985fe6032648e41732de2d 0xf308b830d7f59d8f316e297a651f07e4dbcb8008dab5fa2bfd29fabbece8dd5 0xd516d3423c16bfdc08a8454eaf9f6fc960ca827cb115bb5589064ab68e27256 0x468adbd67533860c6f9d324d47ea682ed52ab9b4bf6bae86e00c26ace832452;
  Step 0x0 0xb19f724b7adf0da3380b9d773d074d99eff20321db902b103ab4116597a687e0 0x9f6421197d0af0e06c9de24412b82fec2f835298fe81a1666f2bf84b2ebafb35 0xa939bb9432de7dead73a726f6e11859890e25c27a4425906b52959558fd97516 0x10013a9b284eb83e47bce31b7cf2e581f2ac8369d836ecc42a026846ab679ca81 0xad1cf7b91fd524a8998e3e59524d256dec3db8e366ae555c1ab38ac1af67a4d1 (-0x51e3ed70bed0a0e8724f499a05e6d33c4d758586684c1cff66ffe981a3b1d5ff) 0x0 0x0 0x0 0x0 0x0 0x0;
  Step 0x1 0x2fa49b832b1713011501f0497808e897a8bd54f2531f35f0f347d1a4044b999e 0xa656e1b1c8b7f6eb2f2e34f8cb22aec77302d470008ee1679607992140e21ddc 0x374c7cf5f13d2878addd6227ffe6925db3e90032a48e2c5522f1fb4372168951 (-0x149b8bf95fa3d51a47f3784589029bc46f1f4d22e2c0caf4546af2543f15a563f) 0xc74623f9b2d2c81f918a1ef8deb6a4f06ba1a414afed7fd8b67622e064bda96 (-0x1d0fe600d42892602dee49319a8c860f67002d0328806d895913d2eacd017ad) 0x675ffc1aa3e07b8e7a4f65bf0fdac1de86bfc8e75ccd0820f4c1fa983c5a3487 0x13870e23432db41037ab162e6db5cbcac1aec76c5dffb1d3c73bbe4f67c36789 0x2fa6ccd40d348a6c19b5cfc639970a108c6b44557503bffc2b60d968a42f9faf (-0xa7a480be168bc7e3ea7e1e12de342239be5eca0e8c90f3e782d40ab4fa48596) 0x3aa2c5264b93cc0e60049ec108e3a5724d30ba380b3767ae7307f9aa0aab92db 0x53461c8aa52fc15091ce4595ec5bf40a043c9bb05196658f5e7d41b441b022e9;
  Step 0x0 0xb5c39a385f2355053aa4ca7ce821c9d52abc4a5ff91d2d1643770d7fa9426b2d 0x64ee3e0a12bee345dde28ced28b1574a38f39af5858f59a3930a6db7da1bd501 0xa9b1b49950f53f9415f2a4d7d7291b77108192d2ba17359f464a56662762ccff 0x58c5a5907e2432f7ebac3a88e372422b65fba96ffc052ed91c22215e080bde4f 0xb547895990f4de0f4ed7c3fca97453a760d2c35f15f4374d236a4a917d19190e (-0x512f9fca29f5f0ddbf24bbab3c9fa72e81a6925ce401b95af991c8b0d6f640be) 0x0 0x0 0x0 0x0 0x0 0x0;
  Step 0x1 0x8d7374a06306afc96afa79e9c9316adbbbfb50c5d73412663e1db20efaa5bd70 0xb48f0b0dc1f84c2cc2c869b5cd2a1446c14155197de9a725fc0566f2633cac3e 0x68ee846e82d19b4279d2bf77b8ace9f73b332915717f2679baadbd9ee751d147 0x5fb98a3ba736a384aedfafa807dc6c5ee44bfdba8f3e41fc330ada494c205a21 0x6dc90e74d024fa3df1bb62757624a2a164e302c75b1345db459c278d83c521c0 (-0x3dcd66cacbff008142213d8c14a329e0518dea8ec38fc2ab7927c09f0010a3ae) 0x9439f73c4116b1b2ff979d96cb3fd275e04623f3537b107c55f53bd21a64fa6a 0x4da763025e85c34c134f76036f8da97bce80b79aa2ad7c4604cd42299ba94211 0x6fbfb2b3acc6758ac1417f6050c1e5022d00ee32a91fcb0dad3eefc853ae05aa (-0x1a96a43c17a35ea5af9fa15b6ad2f3069cabb56b169a4e7aab49f0716d7abc2d) 0x788df9aa9677391506f5e82c092f2d162a98351c6d24822b388e3b2580acb418 0x53b1a85dbb89b3cb3faaead13c4498b82ac02e49ef98c9f1b167254f1b536345;
  Step 0x0 0x2cda9c9ac6fca76f8da3ae0495c681ff199b71e84e295a63b180eefd09034c76 0x6f62a8d0639d34643551bad35002fb2597bf07f4623ffac60ba77f76f6239c5f 0xb36522382cb6cd5538237293965e8328c0f0f55f90c7f29946e5f37a629b9d61 (-0x2c4178fd5ec77493248af71e9c4525ddbe1062642a3c7494feed5e779d3d3547) 0xb0a02d538cf595837c003ac7ec0bb7483134d4c89999eb6fcefce494c6576df (-0x84d3f024506d8a97b54ce1cb7624501393e41b155e3362a9d97fd3fb658eb2b) 0x0 0x0 0x0 0x0 0x0 0x0;
  Step 0x0 0x78084a20288a269b0ab07ee938dfe6454e51e4e4780e488d4d1fc8b95273dac6 0xa01952450eb97dcf638f9981f1aa30d4a3f98f21d6ce987c402bfebdf8518ab5 0x3699b5d40c9372cf1909a1bde24feec0dceb25db2e1795bc7265577a528a5baf 0x20141c278bba6bbd85a88d37c923ba6c69b28483da50cf83df02d4b2b346a3bd 0x4f0e14083bedc0f8db0caa51d926b08937620f2e56fc3a314a7e4424fc130f45 (-0x201559e478e046d0c2a3c9ec96724162990607341e4b0cc704a7200a81bfbe24) 0x0 0x0 0x0 0x0 0x0 0x0;
  Step 0x0 0x23964f5cbdb459749db3d85a09101db84e361042a4c7502d5be7d8439ec3cf6c 0x2ca5a797cda4e0e8787498fa9e26ad84ebe5a84e92cfe72e9103aaeb9da3aa0f 0xa16c8f097de3aca66590ac2a5051938921a0edbd0f80bb9c1c62ac685a245032 (-0x19098e13395ae569f12dc79d021ecb63f204f488d0d103d2f6652422acb026ebf) 0x6f2ee06f6a32845258d7884991397718979ed435589f0fe231c444d1192ce23 0x168b342ea66a077618f8658821d271599eb3e1eb986350ed822148bea7112173 0x0 0x0 0x0 0x0 0x0 0x0;
  Step 0x0 0x3553e414998d2f96beedb051f0089b26d2ac8b4c3c6ce4238d2ccde82ee382b 0x41d826c140accff61ff7ee42ec86c3e6a8853b577f4ff562d3b86d41b5888817 0x8b750b4571100bc561f0b9afd85750190f74e3504447a63daec304f83690dbd1 (-0x1ae8877d1c76f5790f908114b4abcf751b220902c42ff838900bfb6e7b4538e3) 0xf9aa4f350647f1e169c371643801ff4dd242b145f22e5f1eeabd8e0bc4654 (-0x633d5469186e6c58a297fefa0107b460364286664595e57681e0a22097a7b7) 0x0 0x0 0x0 0x0 0x0 0x0;
  Step 0x0 0x3a45ffb5898396be59e03d48eaa94faebcfb384460ba5b584ae32a7a011ff693 0x3cf677bb07b2e3fd371351078a0cc22d28b6d5567c77619c5c56af3219a7c579 0x5b5cb371241d352d98d3ae8a1956491816387b05ad72489194e5aee3a1a63566 0x11d0c22ed04e1c1e16678ef763d3559e0303fb53279d3c118a9dd7ffa44a838f 0x12a1f2aace576c2e46b290b5d4b8e68822ca94f9c348d08b72be4a918e8ec16a 0x18f945847c68986de190db42c6a347e8f4b703dae795b7a97b1529b08953cff 0x0 0x0 0x0 0x0 0x0 0x0;
  Step 0x0 0x1f13c9a9363df900c4e571e7569de1d45f390ca2188d62b74cbb9d3712774f63 0xc5ab07cd89c1c40ea3f990d6935d7e974f7b6d984a31cfe58f9d9c75a882f7 0x47009696ee2c5c33583e2339650d7b3509156999ba37109402c9bd97fd521dd5 (-0x1e04a30f3ec095e249bfb1fa9815e3050d083b730cb19f0b5b251c82c123fe9b) 0x54c9f3ee88cc8ecc10c3df540e1383a2bd33daeef3d0626d5c2a755654a09e0 0xa4382bcebe26702059b918c708206684abbd2d831606d979a30a9d474543127 0x0 0x0 0x0 0x0 0x0 0x0;
  Step 0x0 0x5009a443b84db4800e5d407bbb2fbe48b9c72dc799a7d4b4cf633bfb69367980 0x574d5d2f8d3bdfbf8dac66866c21bf1b5bcaa3e59627ca9b587e0981a616e9c8 0x451dca79e6ac9c948074fd231701550399b37963061ab647a1a40b5eee472cb 0x3e5a7fad6de8814e16cac9156b6fd1b38c24f8375e7cc5979b202cd714dc79d1 0x232650cee2d70ab7878de48fb73cb442d77af9db42b4349f80606628940e9b92 (-0x26003af302f3b33354c79f5c737ce08b01870f8af6c1172d6732f899c432e4a0) 0x0 0x0 0x0 0x0 0x0 0x0;
  Step 0x0 0xa0fe0b7f4521609eff62a63a9b965bb8c617d297fbbf481537110fc2c24d4c43 0xb095f9c3bb0a7ef7d22697e0546c23aaf4eb0503e101ebbdefd49a3a78ca677f 0x1b81bcdfa4a53ebc2b7b06e67cfc9b9730774fb2540238eff2381e5f98094f1f (-0x75d3ed0936b21f15cd5ff7aafd801f03a3a33d6715d261e46f07ea63551890d6) 0x8e36d6e14e549ff84ff04ef71f32701d0423dc41f5fe405866682e5b12a5b982 (-0x4ede9de814a54f80a604242255a6276014e1662ad617ea4a726dfc64c40f2d3b) 0x0 0x0 0x0 0x0 0x0 0x0;
  Step (-0x1) 0x9b027a6da4ed197b946c8c7af8337b5111103444b32f4359be8b75dbfa6f5863 0x7bf249ceb5f27d206c883573656b8ae245327411e33f9165fa7c85e970e12fbb 0x3339a298fee4081e8aa6576df799de1fc42e3527ae71d1a7794e3a3cbca4aa2c (-0x1d2809609c7ce092c8e94f0f499ae8779984760859c53530a6526459279cddf7d) 0x83d7442a02f9e906b646a5e50ee636810d89b3c0c5174d5ba764db09dca26ad0 0x2cc58513b42585df0bc79477196ec91dfaba4f2d5bdd8b90080294bab1d68955 0x61a1112a33a83f63589518f404e9a67554e2adcaf2da27900c86226b1ff476a5 0x299ba065f6abbfa8a6e3386f1a8eea404db929881527d6a1b36834f2da1f6d10 0x8963b7f0422b4da9a2600587cb7c3ed10dfb0cad7763f211fb8664dbd6ecbfc0 0xcd0691c081817d24679d6ec7d08c769b6ee05ed370e7b49aaa4cd92ab1f609c 0x344c7d804769cf1a3f9e73926657708ffe883b834a0527e787e6e6da53e76545 0x2c1b96f316cc1e6ec9ee65d61e586ad7cb4e230b3a6c0b104a1f5c8b5b708767;
  Step 0x0 0x9a9b6061e7698bb05d00cef3479741b42ab01bcfa15541dcf2c86d47297ff24a 0x1fc26d5e23ab2ea25291b84853e14b0805bfa1f073aff8068cc5d6d3a35f6858 0x1d42454b644ec494942f50c81483b7315ba81b8888ec59b9d88c6ff91b5e8f09 0xcc9aa46a7ce0d719294349bc70d2e9992e9eda6f9dadabebd4f8f24e032b5800 0x83281c76e421303933b0b76d68851edf9f3b67276be10036118cd734891f6a5c 0x85acada2c22395d8f16b105384236471dcbd149cd69bdbda2ba62e32cee88b3 0x0 0x0 0x0 0x0 0x0 0x0;
  Step (-0x1) 0x43e5d56ebaecf1ec0120fefce498d57dab2661f1450e10babfe35f8336353dd5 0x1bd0b04286b782d830e86bf0504edd147a9c06128e7e3540b25142d92ebda07d 0x8274b1b203d162e828d2f6fcef0ba6ebfd825f5137bbeca96a36ac3100fab5d1 0x5328a981f2d45ac0ae02ce4a65b8b57d1b35072daef2f800c39450f963fd242 0x194ba79759baa894d8df4f7146548ebb0fa9e56582b2bf5ffb1b6ae19058b7fc 0x1782e635a0d1573dbd01dd5956ca87fa278c5164cb6c699b0c20f4b6c1a8b61 0x4982fc6e2e5d4b7a595344c3bd6af6b46b8575a92811a54e22571d0fca1cad5d 0x847b27c111534d036ff369076c6413d5b20dbc0d24b73bbb48bed788f9cf44bf 0x9d27d4ef7054e206a06f50bf0772d2807402b0fa3dc24f9bb5546e4184119f47 0x306c7ab0b186d5aac6bf9673a51601da6ebc094ecdaed5a7d7e9b6e2d0fff593 0x1da6c11ecf1e0c9cd17debd56886912b375ec9bf835e217a4457cba333677270 (-0x2a37b6bdca2c590f58a9d643f12152cb163db34f10ae9cc2b461c20e2e7eebfa);
  Step 0x0 0x2db93d3b47ca111fe4dd8dfd6c4dce323b6597722dac4d55c1c5505aaf19b65d 0x54cbb972f0855ec29d600ec07c79b58e1d59269484383f7a80b12989511377ca 0x6b0fbb56d58da47991b94cb308e8206a611729534125d55c7a067fef9f0834c1 (-0xd20db93c6d9010a43149d4cab62fb01f2dc8f839b18ba48b7a12c5756d70cd31) 0xb78a7f2828e54210b8f69f2f73750175eb48e82477bb9e593aa1492a43f9255 0xbf6a5d9c760cc7fc3b4431071bfb5382de1fcfe215ede85a9e3329f3e33782d 0x0 0x0 0x0 0x0 0x0 0x0;
  Step (-0x1) 0x95aa58566dbc6f63457a50df318bafe6948bca62d4e0d5eb135f1fa217f04e91 0x810b5522f442696401772794a6309b86c305b9c9ac87d1d9309653b14a2bee45 0x4ad9f832eea5bf0a4b9d6383ff1044e3f139d3315515184e73c49069d182277e 0x397afe141690a44646e618ddbe03fe7689ec6b32b1d2f304889a640aa187202e 0x7ae819895ece20312f4ed79f0929bb99bf18a0117b5701aae9e9a631fe09e3e8 (-0x2456568f7719ba8888f1445439b79eecbd26f4549d205804a8d2cf7696bcf5b2) 0x53472b412af30c32866cb2ffd2ac3409996161202fdf98ca8088c7550ce5e6c6 0x6ac884c4413ce981f8bc3ec9f7df19dbd247dbbf0cb77018b8ced23aafd4ee6b 0x4f26cda8d646dde0dfb96e18d69e34a25ee26de08b94fb6ec37f52d530f5432b 0x899de866666c53a2968cd4ae61fbd8f51867facd2bfe4d2d3c157d9cc06daf4 0x260da960f5b1f823f73afd5a7a9e53a5283336d335107ddae3e5ea21416f88a3 0xa2c099ee9bc921d6d26449b66b7b913ad18af05f2e1a9170170a42b289d7a2f;
  Step 0x0 0x1362934511449935b8dfd5d40b319a5887cc8939294096912c2f000d0ca841c6 0x294115bbe961c3ac509fdcded81ec928c8d4f9a7d935086819af3d5fb2cf3830 0x4937ca9fd5c3b4727d00cd58348858a65ce4dd5426e05b189b98613b757ef526 (-0xaadc3c02b30d46f22f87b8e09a5db66a24b8ef3c6e7df2e29657226c35e670f3) 0x20fd869d28c42ddf93879bd69f06bdd42509138d2bd4801d0744129f34f92f6 0x6f852922f82aa30da0f440481108efabcdb6825b18a3a0dd6560ffb11ea9265 0x0 0x0 0x0 0x0 0x0 0x0;
  Step 0x0 0x3ff1ef0663c4060843268300cfbb224cad04fb2f65184acf53e203514ea0cd0c 0x74f961ae8bafecc47d9cdb7cb6a27f8254400d2b49801e58650de2433e5b9189 0x6f7bb969ea8938237e6a99279073d08386dad63810bb53c5dcd1dba418f81cd6 0x175d37cc719436958c36db4bf53ba6d294e8ad5fea831047ce2037e181ae13d0 0x166fa0e23a674b87e012fb723400fe4fff7ce098764e37789a4ef668cc3215f3 (-0x1a9142ea185386f44f2e1dc47e097bc53ecef0b26c000593e65877e7bb1cac48) 0x0 0x0 0x0 0x0 0x0 0x0;
  Step 0x1 0x83f9c41e4384af0bc3acb90f26d5d6e37cb7aa6711f34b96280ae28822d35357 0xf0bed6cdf062edae91393c9834b2f6d532287a26a4f1e1fd2b805107e049fa0 0x1ed18fe430e15d1a839ff73d48856224f3bcbdcf2f41ec5680ee09299c6b9aaf (-0x3fc5f9d9943c0dfa4010bb50d904fd9c2a7380ef2032c2bf01faa94a3afa72ab) 0x5f91d5b7c11d82cf8f5d91808d0f1d69b1a16110ff6475346b59711021b1528b 0x49cf79e82a6879902a00f44779912d627cdd0c6d420a4bb51b9eac1812a0f872 0x324e2495b7cb7d15734c21b64c2724551e8b44512dcad6584c50826b1ac4971 0x7922a536518cbd0d8c5be38cc103197ce1961e3048c40dab1e4e1851c4294e1d 0x7b411516fb8ba64cd699216da8759df6aa618bb8a3335006e5b78338f6113a2a 0x24a95ea21e57b0e24c27ab4c7682a3f099c267fd80964c04caf90f237b24b7e 0xde2aade5ac2f445c45b87f38063ae5660a268b4066b0b1f2b6a7d635e7013 (-0x1d487057e7ab603a8698ed42fd021b13553ab9c108624133af01b6f36bc51fe);
  Step 0x0 0x2a26196446a7fe7aa856dcd3c2bd49d8b75b249ceda932c298c9962ea9dacbce 0xa4b4edfad810a020da6c91fb53e56786ad16382e02c7d5779d48c5fe64cc819a 0x7c2c37c136a7c180677828e80afcfad83c7d209c868800dca07a1619e80dd4c7 (-0xb8889fffd07537ea016e958cbca5e62262e3191d5b01dcdc0d9bff992fb456bf) 0x9bf6b1bac3df5ff7dd467dec99f26dbb7c539a3acd7e28734bd9a80eea12eb0 (-0xa13a4a91db95f2d71de6060e7ea5a335da4158e22265de322d0e1c994537953) 0x0 0x0 0x0 0x0 0x0 0x0;
  Step 0x0 0x418bb5aadcaef43c7a1ee816d7953f3413aa440a46a3ef5968950740cf838c54 0x479e1fccab0004cd7dc25bd6c663772f2f919f144ae9e647bef76a85e8ae348 0x55de261363e09a5d85e1096a63bcd3afd6dcb98bdc1867868695c6dc67beaea3 (-0x1653d65e4523514e41970916424f17e91151641b75de0af83ec78fa65f295d4e4) 0x1792c775b540ba6f659500653c1f5086f2965df86b66ea93fb020d1f795ea5a4 0x39a064deed79350f1d0dd3127fd2b9bfde126601de626d1029d9003abbe1c5d6 0x0 0x0 0x0 0x0 0x0 0x0;
  Step 0x0 0x8ab168b154021a122a59f101aa79d21ea41f29437e35eec00585edd67d5bca31 0xb63c37cdc6f5031251d1d1154c20f1828cd32f81766982ae40f6dc3ff0d8395f 0xa41d6aa90f48fd9b085a362f01f48d04f01aefa6e1bd722738115affe68cc2c3 0x825c952cb6f46500cae7361e27cf059ec834ff21de906217627d4d4125dd491e 0x698bc3579a2cd96249b67a5a50a8057a905ae14b9d4b38c05fc234416887c5da (-0x87468261b72a9127289abdef0bd42d42a8e5fac29379e8102677cfabb3906e91) 0x0 0x0 0x0 0x0 0x0 0x0;
  Step (-0x1) 0x3807c9101b841feb70665443b4bea3a528d6d738f9ef7a84dc45ee32b6921505 0x67b9c6b1a9d8f82f71296e385f183f2e0686d877e8476105fb390dbc80dff8e4 0x5b5e49630f00a09f850021e26e583514816b07970546350c820a8e5517287538 (-0x1bdc057beffbea32a7bb5f5b342e774455885b007238ea0d169e9e332683bc7c9) 0x1139cfd2924e2914a58838768469a41ae4fc426ce3e7116e2220536e2d2bce03 0x182301b718a2720d621ef5a646136a33545b6a4da9e0d706956b71aeb6f232dc 0x95149fa344a0f7488ad8e770714512b8532614fe324cdfe8b7ae55505668a160 0x1d14e30204310e352112b8f62ef39518dafb3d09adedc71bb7b5e51f30dd8b9c 0x33b4e2ad89cc79e50a0492ee10f705be99a0f35b9cee9a0e3546667dcaa2638f 0x241b9a6d314a8ca3932e9615b9d3e264a33f64284eca7048fa14dd843dad8fc6 0x79f2acc261300e0850da82248d023c8289813403e715601868ea45aec0240d9f 0x3d0f13f200982774c98505373216a9a494b18ab1643ae7f19c98cb3fc70d646d;
  Step 0x0 0x53923728f12d0d3a16ce067d6e12dd27b29524162407271494c6b6aa5b67ece9 0xad79fb957a4d32ddfe26ac2d31ae60c0d55ebcbbfb0e2d0bfbb94f02841e434c 0x6ee960c6ba5e375a72eaa3727ff0f2bcbd938e1785ba3f1397f2772c6f376582 0x217fabfaab867da97665907d78411e8a7153de5482b924bbedeea91e99e793f6 0x26525dcd723ccba3e3c8656454fee60267047aaae749cf996dab3f9629e47951 (-0x42366de5809fe6c08fd44ef6bf4d3651b386ac97737f74393f59051e8061a915) 0x0 0x0 0x0 0x0 0x0 0x0;
  Step (-0x1) 0x11c6fe29216afb29ffbbcd23c5a7a9b3eb313ad5d061a4c3cf37ed5d553cec6d 0x6b60f3ac2af050b6179bfd658881c85c3dec401e2f80cfae1b211f0a6c1a04b6 0xa292443abfb41457f8b89ee98b76580940a1d2f9e1f571d1dc49eabe976d5ad8 (-0x1d9bd153fb26177dc15bb38dfa09192e3d9c728ad11ddec19315d76787bb0e7ac) 0x1bbeb8adaf5121c2c98e7c1d8be9d7bc829d0bc37b3fe5942d207a66c89e677 0x67289ab1ca489a524bd305e6d665dc969f787368b872c80fc8b464aab0acad4 0xb3956169e83bee9041582f1bf0a133ef17156177022d431ca77cc0d60bb50251 0x1ad98c392e29933a288124bc7094896089a4c7a5a330f9a9faee6e97d8e6b2de 0xa6ab632b34500d527edaf07aa0ffcdefc72df59659be799affc7771da8b1b28e 0x27e56af5c04a4a82071dde97c2fbdb6ae04e7c876e26e66d24038d0406b5d469 0xb0f4bf96243a59d55e6c74238ffaf820a6cf1c0729243fbce508c21819669ff0 0x4f59c8371a8943f4f766a37023e3f583948dd0483a326db13c7eb5a15e06a25a;
  Step 0x0 0x413f388a04164f0ee13101fd67f46eed7b11f79a4b178b10c7087b9635b39942 0x955ecd11e106fc510808ff4e37d4de73fad6e6f22c83c34ffee87dbd2de9d366 0x330c8f3860ef5aa12b9d83ad2186116274ad00c338cf83d05c811b114770ebe4 0x6b789db42f88bae919b91be3aed201229011f6c7d156dff556a840ab64c3121c 0x175be2f50f740af8b6a60d52b2ffdaa7b5c7f8baba00e26d0371d83683d3290a (-0x2bdd02e7523148c7e9121e1e7fe73378f397763c41c84fac6b4517950ea1df2a) 0x0 0x0 0x0 0x0 0x0 0x0;
  Step 0x0 0x8bfad470517f99a6047168e9165721e2329de7c7f06143ba8b6a559fb518cd00 0x80a7fa36b59d989e8292ba8a8d18eb34d7bfd1ecf02ae4ba83bb19493c455806 0x386b6cab34171a4befd361393ee4fc0759e5fa7e29475a64c3686d89c8694d6a (-0x120d970f97705e40d2ab33c02b80b1e031a4356be99c2a2bf3fc9b3b424ede95c) 0x6b83786489bc29892071e9c2489881fce46244d28dc1b790cdd4a9163ffed546 0xfe8e97a6c594367a4d9800e557aac65de00f7f58ed1187285a158a61ff6781a 0x0 0x0 0x0 0x0 0x0 0x0;
  Step 0x1 0x59a91227d880d00d95632ad263b6262eb5e21f90a0f4908798aae1769620c513 0x52619676bfcc07504a5f532c8046ef438008e2e3b0a9d729318e74d61a2a5d31 0x99520503f5926697f5b55dfb74cecb5b040e777d9064408a84f7bb0b8aeed601 (-0xd8f46c073c5ad3ab30ecb9245ccd4cb382dd3d0e886232ffbe3b799189d83870) 0x2c1c1577fff873fb02d64c6ee0b17ed70f6e54d086dd709314bcfd9607f5629c 0x16c3ff328ceb2b82038abb1f9a7b0ce00cad1eae8d7ee97ec7dd32468a583e34 0x9c447897560f60c7d6717d69bcb833ee700b68038cd172272cbc922e661f851d 0x3e6b3d4d6c7b6c1e3d6c84a244eb92e75607fb49f88116d564f3129afb091f63 0x83337bd638025a6d8d4e555421d630bd844729219626c7e9aa87956557853cc0 0x382667b41c7555ea5da6b8fcd95783b197903fd848554f2c61410f6cde18fdb3 0x85fd383c0265ea88eae785098e9000d3bd955d2c8e740730d11da4a4c92f8db8 0x111dca29a320a6a55027d7c575b932b01fbfc817826157ba4c877995d08161f9;
  Step 0x0 0x4bb741a41ae71237a41786a04e382dd61dda37d4b6287f8dc99c3ab569931d0f 0x46f6686d2a66acbcde6a1b5fe7afbfa52af017129cfaea95f1814ea87dbb803a 0x55ee59982d0347ea4ee151ad4ec45d2697faaf76fb9b1bc355dab0ae2cc0bfed 0x2ce1a7a567e1a513721175fcfe399c9f7e89b83e0823491b48f2e59e3417b149 0x1f74c85e3484da5d01721501bf8cd0ddd75e4a727491282c991fe14cde096935 (-0x38ca8fe2872f7f5bd24f821cf3c3a53d7da16c4337d631dddbf020b370ff03e) 0x0 0x0 0x0 0x0 0x0 0x0;
  Step 0x0 0x9bb9873923aa968c7ce2ff0fa4dcceb88d17cdbf1f028e970607e6b73cdc5b5b 0x8d0da69a4d30b596cd667f7829173bd3075ee9d771bd2d93b32b5b5f9540753b 0x1de06231196aecdaac080dd76fc504b7d357dfbe23cbf95789b7554a040091d9 0x3ff4f44a341e9319027fbf8f5b40afd203b3a7ed24751c7c3dc889acbe3e31fa 0x850f5d580291bd3344c4f3076ed1617b60347a5a7c0dbc0d7f37a888c86f0772 (-0x3be3b904162ef5b2300eb1b0acd9c2f55ec08780be4042e04f6282b156c6aa75) 0x0 0x0 0x0 0x0 0x0 0x0;
  Step (-0x1) 0x8ee7e36afa733c0a6b5121efce3e79949213f4a41b0510dc0478308380da69d1 0x54ac5d0f4fb1ce522595ccb6f2c3d00921e0ea48fb972f494e4776b12e8a003f 0xe51d2a80e382162d09fd9e983f2494b3b5771e587d267763b83e8d74a7e1f14 (-0x118a740aeb0a761d30f83a0266d2610f3bff05264fea4af63e31437848ce1e3ad) 0x700e25b347ad16338db4d3e5d6199f6594a1beb4426a362b80785835e5376d5c 0x2c356cbe06a2fdc881f02a9940321df3e72fb1c99b58e574f59333dfb5301d3b 0x76bdb7c21df7b9f29d764a971eff0c0eaf851e327072e15fc181a5736c717ad2 0x19925dff2c38557dd8d4050f2a27044b5c17f9dbfebfb2aae081cca5bb885526 0x4d1b93b603bbb6889745ce6dd3acbd8f62270f103bc7b7948835e3ae1d92638d 0x292c34a71db8e504514b0fb7d4a0937500e43aadd78dbed1b7719406660f92be 0x4d5cfb6f07e0740ebd37d6b97799438dd9e419c5a1b599530c50804c89062caa 0x2681a00a08e010d16d1cf0751df965690960ee35fad2991dfbfc5d4d44250b35;
  Step 0x0 0x13a8840a542513a1afd34de2555ccae000d5416829348ecf362555d8a96957b5 0xac7192109c7c7708fd2fb1dc2b138cb1c4cf22a333f7bf5d8cbaded9b735d1e6 0x4f0762dd5eae9f034afe10e58e8ea9e467aa1af7dffeef21d62f98e26951e1b5 0x5decd1fef0f0587f5cca51860d910826fda2260a8bff2cb3a9035c81167e22e 0x21ed424aa2539610830f2fde643fed108dd53f761b823cf08a3b560adc71f93 (-0xfd79c67365e0cb2c377fc335c530d514d1f1657d52e50071722da1150d924aa) 0x0 0x0 0x0 0x0 0x0 0x0;
  Step 0x1 0x5aad3ebfc0808266922f4b9119c713222de21d33f76e6c95a0d67027797d93a1 0xabc083dc64446b27d5cf607f4e2405b32a632bf07cac455e086e53d03a8f6389 0x99e3447c0680ed2b7187f7a2ca968030987e3a4fbe2291c226e2c94406ccca35 (-0x19adacc0225566a4bc57512666d2fcb6cf11127e921a1c50a59fdbb9c197e68ea) 0x2d1d87015321ee66ce8ca72dcb550eda80b6af5532d19150f0c9d63b43c3675c 0x58179e2c66c7b08bcd1c996f7f0bd669b33ec26ab0e60f6eb81754f29a1a4f 0x9a0dffb0874645ddb8cb7b17b4b4271dc1672a8c8a2ab4d46c50d0bb8d4b1bfd 0x7628a940fd6ffe772a4d227919cc3751c00ef73622269a63d1b3fe9393f36814 0x4318f7c1126544cf4346606cb2779bbd33cbaddec4e232546e5d7d62da2f0128 (-0x14308a811d23045f637a4ec72fa503c65d33c58152e370dcda76a9f0172fa8e1) 0x8238abeb6ab58d9d101cb9020a817debbf0d26f7ec568ab0a0cca488991851fb 0x2d4d4c8c2f6a275802c28bbd0adaa5e8da625c905a2ff7f466a908446b690a94;
  Step 0x0 0x24135768e69a7444ef655f6d327c1219500d6233176ad6302dee7cb79f0248 0x8f4ef9bc82f8463825f5ade4c14ee5b106a0142d7c60b31cdd69208db9220801 0xaf517fcf3b3480c328f8b6d61bdf72ce21c7eb327326d7e1dfa5a2a40f277932 (-0xe5b71faf3e5afa8f6b6abd2dae68a28ce7adaaa212b573c20adc3f8082d70df0) 0x72417f16241b9cd76de70055d0af4cd4d0f6e0ff4a9b8441d395aa60c23 (-0x4fa6f515b9b27a49db6e2e1d10dfef22dd815fbed11573f111325ac96f2aa) 0x0 0x0 0x0 0x0 0x0 0x0;
  Step 0x0 0xaca3b0116e0e60d403ceec6db3f5f7cfece29b0e6c784372bb35c2da7491fee7 0x1906c3b34fc211df13abea625b50ada56a1525bc1b4558a72f7f6cc4a6f219b6 0x77827c1855c1f78ff06940aa2a52b429777bde3e5926294425ee675c085f1f0d (-0x5ea98fcea11b12d2390e9b3812ecbb959ed6c5a92d90ed337b160ceec020d93) 0xa3891d81048da0d7ba4476164917e77e7a54ec7b968e32db90162c1120466eed 0x700b719d5da109b797e1f6308264d89364b11e49b6c4f9060bc8f79b5903d886 0x0 0x0 0x0 0x0 0x0 0x0;
  Step 0x0 0x9c73f2520fa680d1c316477d4790a41fe20e020c8e1e18bd3ab536cac2e57e04 0xb35b160e6244c4474b40180a74713d2f85e89e806865d3ea2fcfa6fe3bdb039c 0x8e2d915d4aef50e8d0266e463aa10820a3ad3b84d155b976d234e456e02d0f14 0xc2e07dbd72085f0ede8a7c7fbd3746d80b8d5cdce7847129ac09f64a470c51ec 0x864eaea8b7b6a00aef636ff61ce3237bccf61d5b3cc4793bc0d6055193d5cba8 (-0x847c019c81664f36abbcf408ebffc8b0b9eb88ae3fd1fbfecde8904b88e899ed) 0x0 0x0 0x0 0x0 0x0 0x0;
  Step 0x1 0x26d942a24e1a6161343dd99e7d77ef83c876fcb6d519d95e213f8f95f0be7eb7 0x48bafc268dfb4cecd2cc65d8bfdd4dd895be49fa73cd3c567c0819ecdd890208 0x560fe9771c3d7a79114386093ca0650b0d95ce8d0f073abce2b71e8a15b838b5 (-0x1d4e8b2dde774849d4fe12dfa9123bb12a4f07152865695c7d0e374cfaaf39478) 0x847f22f5c807e0152bda5ca89158968053163ec4d0eebb99ccd40d420a364a5 0x16ba79f03199dfe03ce439189ed5a2c6c1e62f2d1b8a0a3170cb9d8682e9987f 0x5928aaff28034ce82f9d1785d04ee61669ce66f58da5258a471bc684af1be86 0x80ac924fae56e71eab40de47acc8faf2963632dffa22b9a7e27f81f7d7b260e3 0xaa350c41b63683fa36dfb0852f974cca9f808554dede9c9db69b2f0c61b4fb3c 0x24c201cbd6eaddd05c9c9bde953cd658323f6f7cd0e7c1cdc0520ead7fbe921 0x2b9e191521d1b895eef0210623b5df014fabf469e3b7f26ab8199cba6e318c (-0x1b5e4a31ca9e0ec3411a73c4cc62ec6b1e7cd5b16c2095cb174a468e6102f4f);
  Step 0x0 0xf64d486f7e64b048cd76cb8c86dccf91664600545ad9cbd8452a80cc0ef7e68 0x923737d6b13130afbf5e17e41764cba126f47ede26a69ca889344a161fafdd06 0xa5a79735f0c5a277597619bcd035dc9dcef9d4cdb6b45cb5883a4e8874ccaf1a (-0xf3ca5163b08414dd933ad95de92b09b54e9de49352e1e80463519ce1dd8f7677) 0x14cdd66f3981ece07b3de8a3aa9e75261290d739469b0e3d2a97b6561f62384 (-0x17b4e32c1e1cb3c916f036a62c27f92a061dc69aada195451a2c5647cd1aa26) 0x0 0x0 0x0 0x0 0x0 0x0;
  Step 0x0 0x8369cb1b5649918f51251c790bace4f802bd9c50d1151fc8e97d80fef279be36 0x48dd2444e3d4e596637046db677ac625c9a941431ffb324941608f4f875c2498 0xa00d6e848fb7f1cda4579890d80db00df324c2482e572dec5e3c2a747a2629dd (-0x7106300ff34c94027a0a0e8049a0bf9e8d7823c188b86250314e87f960933d84) 0x5ec1c3b8a9d2d829ede757cb770626579e08e50a0cfb33da36372a40ff6ac3c0 0x34e42086b336f8972a1553483af21952652a8c3a75ba5184a14f2f755b26bbc1 0x0 0x0 0x0 0x0 0x0 0x0;
  Step 0x0 0xb625c958faa19262176d4ca25f5dd0ec726c4c7fc990c4b906c4ce1cd1aa8f99 0x8a4235237cf872e148bf56055b471c78ac48fdbc978b9c1337e53b0560cd036 0x2afbed9337db32fb3f1e6f23aed40cfae43a13c1fa796f237a0aa25a2fe2ce8d 0xe8882807ddea57b1b20ec4e483610442b261b06b85884d2a672c7b88a16f7b32 0xb60b9677287c66a3035a0e06ea7b5b4b4a1d4e19d51b0e34381d2ea2fc0b2227 0x402fc43233298f05dd42cb76a9dff8b88900e7a9939be710039b6c16a1f69d48 0x0 0x0 0x0 0x0 0x0 0x0;
  Step 0x1 0x41fc70638b090b2ecb59a7109408570fb4243c7e790724b6e0e59a70341a8f5b 0x92929aa672eea56e110a64097b67568b4d5739d7472447ab1018196f7cdce075 0x914171082f4881a7f2a7abdab9aca63dc0bb3db03012e058d85958fd98b2cf20 0x1de595fca4a0a56831a6a36e101acc42be2362c97aedc689ef2e88ad56f5a0fa 0x17e4231ddbb915bf489b2c5499b83fb43240de3583366990f688947f71b0c8d8 (-0x31f0a25e8cd0cb89621c06920d717ed114e8e09c5ed379613ab3cc2b133aedfa) 0x6b3a5b85967c513f597aff3c7fb9e9b8fd50e1c93cdc66ed5e03ccd92da83d1a 0x49ef1834dcde85375eebbe1a546e62b634b7ae9df39c5516ec3d459f3f1d37db 0x5fce6b6161e8e933476965ee167cf771842517109eed5cc745b721d646d0ec02 0xc2fd9c02c124ab1b52c5289ea69b4da269a156684e72b1f2dd1ab5fd66af22 0x3f1698237decd30538c1661e1a267378a9252590b178177177cc0a324b452003 0x2abcc99e73edfa644b30f82954dbafac5cacc1e1460eafeea6aa2b21a284702a;
  Step 0x0 0xaddbd41810bea032ac15d4b1f6b3664ff98b490d29786a21c5b29733e473952f 0x6af4911085e5538fff1f9a3fae24b137c1635e13400d77546e5c84f2d0f90e18 0x6e0032cc66a6274722c3a04b273eb78149cd0bfc8c4ba004f135a047535d3373 0x5ccfa884451c671aa9708f8ecaa2393697a1ccd2333799abc100d680a99e6a45 0xa5da90939c0200ff69d0fabb19aab5ca041aa4b4204ac4b7bd99020bb4fd308f (-0x1f804036088729a9b06029a4b96370ea00a4417a3ca2cb0827e7ba7e23a71cc8) 0x0 0x0 0x0 0x0 0x0 0x0;
  Step 0x0 0x9cefa830e791535dad9b32e17eb2466a5d25e39dffce74841a08d3f80d0b3b96 0x7a622b5d74a30848ebd9d8892b3f9d24f1f123f488a4688ec9edb4b27a183d2c 0x248cbfc0327dab249c448016f64f19dd867397033a534a274fef58a7090f5d80 0x123fb1386da95c33c3bb3cdbf3939959dc448fb8821551971b27d22440c4d54 0x872368c628f045dcaa28bbc3853a39ec68ec67ce0eec239522ec5c20f1e11328 (-0xd49048c327a35593bf09ea63115b9c92a2ddb0be1be3c21421da257eb780147) 0x0 0x0 0x0 0x0 0x0 0x0;
  Step 0x1 0x6826de8c88baf69f914a26ac72b253396c474015e44bd9ca0496f69bb57682d1 0x1ef8811869283ba371649acd238724d34812344f55d90ad60cb882d4a9293a2 0x20c8e647a123b3cc181d6a2118a98f862a78ead6ad58a0d1996d69072ecacb35 (-0xccc59e19656bf70b07f4b7f6aaa8ee6a5bfba660f7922df81996b7ff6c1a3170) 0x3b853d10839311465847392cb11b29da3cf4809ccec3f7f2f682b137ca5887f3 0x44d54fce4c6cb6a31a910b5fe0cb2ee488891dc7b11cd567976dc7e44e6e86d9 0x75fdc3f7582a6801da1b5a7e8df485f0e589bd518031eb76b001e8f5e1d1a8be 0x36dfbc144bcdb5264c4f49416152758fdbe7107c9dd767dcf8cc27590eb35da5 0x8fef7621361575658143a82c4b75a316fedd8fb505024683c882a4ddba43ef7e 0x5e7a6c3beae955af1b695b14f28b756db78871381c0fbecbb2b08a964b8558dd 0x4c63a5a569fcb77cc81352ae47482a2d1625ed575034a50d5a41b59fb85c7b60 (-0x2245e429d5585a1de332ca676e4295ca0622dc92cb7cae7b6aa391f1be58e431);
  Step 0x0 0x428bdabe11d82ae8834c38470c3406cc661778978412c14954dbc38d33a41d3d 0xbd5756b95c63a87f6fa48a89293bba9f89e2884e527417a45065ba74c2a2e09 0x5677a08f05b3a4ed65d3ca82cbe4276c20014022367b6fb6a26c86b8c315ee95 0x378bcf3adc937d9961f8d5b0fb39f7eb87fee089f07e231d4eb730abbd4f58d5 0x184c6dd58b13fa65dec86aa1250d394842d108ee6d5882242ffb409ef32761ee 0xfb72f8260752e4ec168ff45bd71229158cf26410596dff015d7909ddcd455cd 0x0 0x0 0x0 0x0 0x0 0x0;
  Step 0x1 0xa48e8a18dd6a2bab69b7d11ec74d4cd74890776e1e6591d6a8136060cc39d52b 0x9df62c43636693a6117a6db4c1c0bfe4dbb34f69c88c337f66ac5a8a9936c108 0x8398db0eabc981d9ce1df1a88c36195ad69d07130ea149f6a7277ad4e98426c 0x99d72f621613ea625298c4309241ca07a1c73487ab2017143453b82c0b234e77 0x9494cee8f4be196dbf3c2b93af514d705f8a8887e05c5d4c0b874ca816d536cb (-0x83f0ffccb822ef68d949075e79b713f84d00b9809959acc1ed090570697b400e) 0x736696ed0493a3425e2d5b05ad2a6d1d44be3a8a4a396ed27f925a8341a81d8f 0x18d526da5aaf2c0916654e3ec80ab3862547ebb6fb0ddcec12be673b10c770ab 0x4a4d76ac3de4c78e58fd858392bdb2120941d0c6fa261673c0cad8b3bb8e27f1 (-0x6644944b664af4a9a044e7b3a99d5dc5f74c4637505005ba74b42fdddf1799b) 0x49125fcf9f5fef3102e3554514aa47b6ced6e8ce8efdd7e43efbf23c79f9ec65 0x544c1c327c55ffa950b2dd1a3753f3d119962c9c6d3301e8a2c0633ad7aff8ce;
  Step 0x0 0x4882e3c22af88bd211b8f2408b09da9603470e8b140b48e4a5cc92b0c85f9be 0x14081a85337bc71e73de1e48604c19548233feb052ad4ebce46402a341b1f573 0x4a00d8f34fb8e236f90130c124f562995a13628ce5f692632ec3483d76edb0ec (-0x674984e2627f79a4856cd715aa58861fb5a820bc8ddfbc57e8ccf0784fc9ddb) 0x1cd990616190a5df1c455f7a672076e1e97518ee002b9dd9a2214c0b81a417 0x1e8ff75e2543e7439a1cb22af572a95d2a2ca3c16a36109830d3a090de6fef 0x0 0x0 0x0 0x0 0x0 0x0;
  Step 0x0 0x325615617a07bdfa53c1aa0a1724eaaaef608ca334559f7785d9106b39e8acb5 0x75772b0891a6ca3b26e5d45c66b6387fd6de12eb7645cb1218e62aead5a41e65 0x7302ee0753974ed05b07b492903d33257e3a5e4feeb8def33764dfb5a9984386 0x2245f35306f41acdc974baa7a4411105491ef935893e0d597d786d285745c441 0xde70d69a0e869b7c4ac38dc636031b959998c169140d6759d6882d26cb2b0c6 (-0x1ae91cb02a520f8cc4ce7e92a255d1dae6d6b5437643f92dcef49ba48224e37c) 0x0 0x0 0x0 0x0 0x0 0x0;
  Step 0x0 0x48f7298f849a6a90099df0f1bcbc54ef3a03756d2dfb069552b5da9074a875e7 0x16ff5ac38bd84d1f6e6fbf52de622571ed191770ff3214924666e1483f8bba91 0x3e1686b27d14fcf8d60def6cce9245f830c96e799f9222a5686450a51105dfc6 (-0x8709c3a679359122a799b283d4604577032c650e8866ba9e3bce35d1f9e60443) 0x1d36603aee100d3d5e2d62bccddd0ca6598c82ffc79d3c1f4aa965440a798f4e 0x25d236cd179ae118d3f001b1441459fc98404861b87cc2a69bc2a84f50473900 0x0 0x0 0x0 0x0 0x0 0x0;
  Step 0x0 0x942dfcf81e5f7fe3fee7453e2bf2b392b6e047c6f445d97f9d01be8f443e6e24 0xaa8cc846b79e5b78fcbf76d125d761d10b8469eae581e5abf34e7e763afab2ab 0xb2a486ed659a892424bf6c21652f87446ff319bd7d3c429dce6e246381995c6d 0x5c41995ed71e195bbb4cee891911f11c9a18daa47dade0dd38290130ba3e8811 0x787a7ec7dfce3382e2eb48bbeaac7aaabf945e617802be3037f3938cffc3d9bf (-0x77f7f353a820dcf0f92db98000f0b18f521d84df2087c2fa6e23813d737f3637) 0x0 0x0 0x0 0x0 0x0 0x0;
  Step (-0x1) 0x7f488d73bda4aadfb5a70455758a1075b40dc95bc4ad005a07f928d82062bb06 0x4d5c3b7c81fddfba57e3b6e2cce4ac8f4f856a47cccd822296fe04409b4d0c4c 0x2b587ecb743d7e9e8fceeb1f6ad05cc2237bd65bca5f2f55ef1c41b7b042ee4f (-0xe5465b29d7c520de03af79550cec9b16fb7692a59bea8d6aeebd92609c16fefb) 0x58e50d9151d55a37a8a6fa36b4c3ab4cdb87a81e21bee38bc59e5eda529d5c2a 0x41156a642093f3b01c4649aa6d1aac183d7f66da67bcda51940802b48f62b2d6 0x12eeb6d5aa842d617567ed01aa32a4330759528757c65a3f9a7437b49e0c2be1 0x2cfb7a9c658148fbe041f4993af4cf5f24049059d52fefe98ac3c7563dad61a3 0x47c78b87200c72cdbe913ffbb142ae28e05c4b5390d4204594a59f0486fc934a 0x7530bdcb76f42f7666387908c9ed63a6733c42c7cd2bf6a79aeb8ecbdc60f0e 0x1f77c647457061ca5364eb45ba5342145364caf6339a06322bc7ce345ad1dd9 0x35d0d2f3d78a630a9861e50a19945d2ef5ed511e6dac99bef9207f1478fa2b0;
  Step 0x0 0x816315f68f592bb19de961af30a4c017eeb5bb15e7cfcff83ac98eefbb3d18e6 0x6be89e0f68d89bbea8d5cdbfe80b2e445fe81e5676c38a83b988d6f240c379ca 0x25d6180ff55e7a8c120c0059992fb8a3483a8fd845f36573dceb03830641154c 0x449c87d9d520fbc2e8220e2e4353a9917b057ce1ab7cc117c5f50bbd2dcefca1 0x5bdb7e0c9c10686ea92877e32fe8eaff226f971cfea66c160ee5b97714ff5c24 (-0x2cac90a28cc66fd4a3a2972e57d4cced61d48fe5721e819091a02e36a122e420) 0x0 0x0 0x0 0x0 0x0 0x0;
  Step 0x0 0x8aa4ae9b8e92105a9d5dc0730df8c5ddd525ac2e792e6722dcef07bda5a8f1eb 0xad52a18470c0766c9992faa8e90a0e6336e77e93b46b5d21539f16fd26c03b83 0x979ea920444e05352a6514902ce4feb243a8c5eb521452423bd2f816c7442d9e (-0x861bddc5f6e53771b3e3ea3432eaa11a476eb76ae05dfa678967d17ef059fc74) 0x6978656607c1a5395f21d161326eedb2c16eb81af5edc11372e05606d67f92ca (-0x31c337b014a234b30d62ba997eb845123d933b0a2e44c86b7eddfab81c90cc41) 0x0 0x0 0x0 0x0 0x0 0x0;
  Step 0x1 0x1a66881d607427256e2d6c1687e89613cca380b5d67e917ad38b62728d5e83f3 0xa728c9cbc51a3bc31b3b687b348132ca453be8f5557ae4669eb72e4148b1d090 0x46eeaf0819dcb829e32a8d496a371a9f58d2b4ba3516b0466556ea3a5de6b712 (-0x1c29254d6c45e18ff7f565d116c24b0d1d1aa2a073b9852813150b36459be3273) 0x3d3086085e9a60309b361356501abf9b34f73e0784daef334d46bddf7e775cf 0xe4907b1bfa4f28895224eb54506d54d8893830b81a88c594af688585326a2d 0xb15de0ed95a0e61338df596d9b7b97b5ab94f8f91456176869257a0dccb64ed 0x4a2da0e5c6fab5095dbfc1610f9a6a61c1a16edcd3b79daa7d3f01e088579938 0x3edb558b418ffcf31ba730cdc090a74c973e0a8fd2df53da08d4ea9e9f9787e5 (-0x12c66fcf52e069dc602badd3766793ee2b0ff4248463af392d4c382f56d2697) 0xac9d40e8c96528a94c0a8771ce5d95bd269b008c912b8612fefcbf8430e614 0x5a7d5e100e0221ef1ccdc655858b294e980ce4edc9f18b3b8e8bebe182c6755;
  Step 0x0 0x9ca3ab1740f3ffabfacf32763ee85d6584a37fc84c096cbc56bfd9c22511cb01 0x603ee43fdcc63723011af3e826e86747eb4df37bc2cea644b3fe82dd49331bf7 0x579b9b20fce4666bc8c91ca7f781d6a237d5b53a6cd6fda4b6a371040a51464b 0x1179164d84d84eaababe43ad3e812d84029e56b38bd785e44d305dafd8d4d352 0x86a0aa2e92686d41643ef9d4b9bed02338aca1a85ca3f79f82b944733dc4d122 (-0x12f7669609f33a0d573fdf18a7fcac94d98925ca58639d5b0bc9bf134143e4db) 0x0 0x0 0x0 0x0 0x0 0x0;
  Step 0x1 0x55774c9007be36d7622f9eee3c892394738d220e0cf5655af0f8ab4579bae58 0xa60e4184826dff1b1bb0399480cb8dd4d076e315b0a805a37f6ac1b16b96685a 0x93aadfbf45af24f2c6e9689a36cd71a22c9c42a2fbbb9112e750d008d1bc8687 (-0x93587ea43dc6141932d20994cce1df53d167994b39db90aa3ff49a29ea09a85f) 0x281448407dc24a21360e05f73e3e02306bb8bbc2707f81fd64201444751758 (-0x20bcc39539440bf8cc8d5995f238c850b7bf0efdfcfaf14e96e2f4b269eeb62) 0x9d2792ac96447d201f9c6b1d0a9be797c660a45cc298202be9fcbd4d2294cb72 0x28749f438edcebb3d0eb542a281b5b49234bc45da5ca7b3703182e72ed081e8f 0x53417190fa0f0749d632f0b502d566e327355640de3e2560a56cc115c93b0a7d (-0xfaf1528b04d4471a4322f480996d486485c6973027ab50361e14282b169e46d) 0x8783c670a7e8be0101b1e984a53f481cc05b6f68e28754a0afb4e131c4f3ea56 0x6c4e2673a9ce024a173360fa5569cafa63e4f4efa881eaf95c6478ac3fda3b8a;
  Step 0x0 0x46c97a12e78c5f11fb6dafb002ea77ff1b1fc4745d809950b719c346c409779e 0x511da374e592c7008e0088d1f59cfb99e11ebb2842c53cacc468ad208a76942f 0x8d615e798d3f3259752235ca7519817f752acc005aca84e7138238ea28a04df9 0x25bbb4f6ee665b89f92ad5b015b0c225a47a437fd9b47398a559e199715b7b9d 0x1b7e7e2c9c41c72f910dd3a46f52f29a056a652065a0f2320afcad4861367ec3 (-0xfcaed05bbcba99cc4d92e1963407766d872dbb681866a85abb813ac96a343ee) 0x0 0x0 0x0 0x0 0x0 0x0;
  Step 0x0 0x728ba0ff3d7e2cc05ebda6e45d3f7a1c7f0a6a1dcef915388468de5d1039c7a9 0x993fe3b57945b1366b4e5ff64a68e18fbaa705bf42aa3a41dbfe12489d51ed57 0x57e6569c31c83840cd33bab1f66d14c8bbe1ed55520f4f25ec278ff8137091ab 0x45687d274ff9b09b783fd763c9758b4a7136c87ec33b536ee2262d6168e1448b 0x47fe1c2819ea7e14a01189a0172fd37f53099517af8a60d5b7bb7e43ebcb0e0c (-0x2d562ba60eb4e7e3137da11741dee1e4dd401fa0a59346eb76fd6f2cf761dcfc) 0x0 0x0 0x0 0x0 0x0 0x0;
  Step 0x1 0xb34ab02f8010a12acde6a84be4069e15f7b447bd43be0168afc8a4057336935b 0x299a179a54a3ada70b667fe684f59ae9d5b44977f57ac3ec5dddeb5f2793ec69 0x78c03e5f14cb78fee426de3a951d340c9e104dd00967398ac3c4f6f789f59533 (-0xd5a53d9c48ab62f454a5f8a72350a9fd778daa86ed35f5153e43d862980e3375) 0xb061ab436c7e977e45dae133d8ae25ed68234bb7dde909259f876ea8f03963ea 0x6dd5dcdaabfd92ad52b58b77c4753bcc5bde11a514dfa14418955ccc0150536c 0x8ca5d5dcd2692d5abf551c3da66d822a9d5f0674bf55306bf0433b0a694d50b2 0x5cd5599aa659610ed1a759e20db1f60c743ee5185d932ad43bf9b800262c3cd0 0x86f830b4a3288a5fa95a9093ff6ba36f29e961f077fc71407e3409ffeead805 0x52021665be3968e881a8d55d160bd29c5397429bccc3f30f3017dc13355a8fe9 0x6c8ac8a43470610a2d9eae75714216f1c8f34dac476e97e2bd51928dac3eaec6 (-0x27897024d07ee138956ee2632a083ae665eb40f546a405c15553be630806180e);
  Step 0x0 0x4ab3111ffa5a4b1e94953c8d221da028c8a663600a93a07a8dc1e09f319bdcaf 0x1e81ed4569fbf445446b6f417c41b2d028e300ec71602f7e60f3791cd3e9e39e 0xa7f88912b1e6c0c4f067beeb55bc1ba90c4660179e2d66c0f84a7c319ff7c84a (-0x86f2184b12614173f905e2769170d9fbb874ec2e64c06f386f6d6bae08630cf2) 0x1e9e0ac05a4c37270f89075b61ea3ff566bc5c0aea01e6ad426fe3530823cd5f 0x198bb54b18464365eade597b3ec5de3d14c12275983d5c4b8d2ed8907de2ce8b 0x0 0x0 0x0 0x0 0x0 0x0;
  Step 0x1 0x221b43901007bf7fc3ae3c55ba2d19df704967773469350134eb221b5309b92e 0x73205aa5910f799a90abd9d1e36941cb1e261afedd6b68a7f5d22eb53310a950 0x2e0f0b36851a77160488bdf95d39995b5e3d0828ff5e649b3e96c0bad36248c 0x2f8c59acca3a87f50c4503a54a2cf8dc08e0b866be53cfe221d5f06ef93793fc 0x661fadf76ebba67c700a4455326e072c807e65f0939665a118e0c1d96c3d018 (-0xfd5ef3d4bcab8e6f5e6dd58062f47a53be76c6bd8ef5ec4c5a3f63bc61e78ba) 0x15df620444084411bcb5d5fa39e9d73cfaeada9f8b0be63351638be43e053a47 0x5342aee933b250b55914e6604cd212b51f420829582a9568a2f659e6865f4c01 0x929d866ead6bb5be255b98e78ff1a58d0d46d69e0d1cb4de0ba66d1e8070b047 0x3edeb43096b5f9434d7c9b15ae44cd2d0d70f0283f0f85644f6da4164c142a5 0x2a001687350b9977695508e75a42854c889868aa2f9a49effd764b6c82e19ff 0x3d30951bc675aa0d8eb930c593371591e064acbb4d318e3d881a015ebdfbe4e;
  Step 0x0 0xfee6d4a837d83ee46b7b816dfc731e0fd188a7147d35e921a5432f97f1e0570 0x13168d31bd58902f47ed4b96cd14c1724c10338b49c61be45cce4933630ee29c 0x57c316d7a7dd4caf8a077a39a5eb7fb019a9fe1a94dee7e44900577563f291b0 (-0x587ab6a5509ba7692a14b1b5fff4e4352f92d36ea9ffc629a89b45dee0b0ecdf) 0x16483da40c1edd419505ab9fa951d93f9b5e4aecc5def33ad607aa33e40f58a 0x59c10039a2e3315b52a9cddb09b9f826a51add30def72930a2e36f0d81ac16d 0x0 0x0 0x0 0x0 0x0 0x0;
  Step (-0x1) 0x60d3f889483f9cce4802fd4f280a947d0efde1ad5e84ddfb8f64fcf27d20eba7 0x61cab85a224ccf5ad7dce8ab93f6ac77261599a50da390c19bc0f625e1f20b31 0x5c79ad5f808256ec998ae9860437e6800faa35ae82e64543a08d6b9466a561e5 0x5741ca55e11b000bed794839eaba05f3502a4158fb48d040eedd84e2ecd9eb30 0x3371a81750c3ace572a290f49d05c8b9580e05a64299aeac162ca8b3f0c1b728 (-0x29d090cf22499a0742a0ce0ec6c95f455f3ca87784f43b7c372a96d3c1b12d68) 0x394538ab68804349b0262c8a5dc7de61d446749d077f55d0451526c919fc65ab 0x6332f81ca98110459f7b7fdda8d317f58e8d5915574e573806ed1fddaeaea1e3 0xa529cece7a31852609631a5b1e16de32cb40203cde9e5c1eee574d7a168ea992 0xfbc59068d151ca74e3f25fcec7f0add16a4e84bedfffe3db43fb0d950ff0a8b 0x11ff279d9225c5d3d8f4a9f8332b9096afb1e1ca74a2a9c84ed0429028f80ce8 (-0x7134792522ead1e607e84df0a6960c733a0544770894c357782ef0ca8f2261);
  Step 0x0 0x70c1165f2390a3f878c89994167d6ab221b6eb8224a30d5c04630f5a3e27da20 0x6de6d055a0f961e3746f4ec8a4a04a398ae35f63cb6d41663526955f40ec96c7 0x14f8dac8b25fcb8bba9de3697a8cfbe65f85597241594e7695dc7a1cd8f55f76 0x2a621c670b910e3956273c0b164439726c7c481e8855cdc14730e7c585d6e649 0x45c2392f6268090880b489c79eb98cd35dc183edd55f5d0585158b47b0df1daf (-0x69f159676a18a2eafbfe9d90f338eb004ce752e57440ef8174bbd2cab885a28) 0x0 0x0 0x0 0x0 0x0 0x0;
  Step 0x1 0x68081669549807daf6d85c2252bb156abd3f5f23a5e9d88f94edc7419908ff65 0xd02fb7a629357dd7f74deea8558a430868e1f305dd1258c9a73c783f1308b2f 0xb022ed9bcf3218e737e8612b9d35e160b9ba50a038dcc477bc7abf88c635e589 (-0xaee0da81f4e203ad62aa70c71c32084fb7d5b3507d36fd0c969d265c99b42e83) 0x3b62139da7bd13ed3372fbee09649e7e268ee32fc742dc675dc6e7a4471f544c 0x374e799bcb2a51b045a40b67443ef027052ba520938bd271c5dedb8ba476ab2d 0x479b97c5f5a3788fbf743e0ded5b8a71f8f59d57c7f9b01cbd54d18b48eecc1d 0x690a6645a85d6bc811c99b2a06e605e5b58655e6852e3881b0962e3d0918b9a9 0x331e55b3ab5372b384d40f0c9f6b30591e539c054500208c7d8b895089570d20 0x34fc6f4fbdbe639a25a73223b450d460709b114ede61c7141410949eb0e6de1d 0x1c22a8ea800ca444fb22fec0c248b7da686a3ddf6a17e1b52d79951556820f24 (-0x2428b8f3d05403e760ea4ce72155890afe6c77b1b3a43a420b13640fc028e557);
  Step 0x0 0x5b52b899319aab503a23d222103b435951d8d7ef2b18458f789a2328442f5543 0x26c3dd8ab41fea8b2ec201303da3f578a45a0f6238b9a21ac8f0002e4962d5cc 0xb2b1584f3537f88c3f343a3b86288758cd3326cf27f78711de92f8e38c1687e5 (-0x82646d6131d3763400818c1c18cc49ebe77617a2f520d77fc1116a824078442f) 0x2dc2c6b6deb3d94b74b3dfc2963bc5ae5584da34841a42cfa29b0b3f0a09e007 0x2135b63c8d5b10a38be299f0f78ff9a7dd16e43dda4ce5d099b21e389d065aba 0x0 0x0 0x0 0x0 0x0 0x0;
  Step 0x1 0x2b2f4cd8e87ff4649f0a6a88cff7a5f8a67d6f31dfde17e0e36869c555f06981 0x838e4009865b13e25689144478711e3e1cd5cc19f2ec9046a8955e8dd385c969 0x55581826bb7a93a9c7c3805caf8487f0b8e3080d5530d5e600338a793e0ec0e6 0x3bf287d007307e0bbaae322c128112f8bc0291e88c87760bccd7c230746e7ea2 0xa3b976e29094773aaac2b53ef9ff83f7336500e0103c3d6593b7e8bc5a87600 (-0x15fcaef53cf47b6fe349bb45db21ebf9c4a2ff7a2f8f432e33c3d3a85a739408) 0x4347d838d728ea66dd8f691f243ad229e692638af1a9dfb7a8aa96e61c87685c 0x37ac0a093f47bdef4e9d3b3812a39856a79bdb3d05d9c9898093505a80e82a8d 0x5e3b0fa4c71bd118c1795b5657e3e32f1f97a54c57a56906bdd3f6a30a866c07 0x6058e318fb9b90dc16eb4f208d65b10fa941cdd74aaa116b20d399db2eb0e80 0x18d678940d5f6a41b6623bebc4c7991e4ef864306de1296e1bf6d3f57c8b1cc1 0x1c0382ef29635f38e7a0506812be51655aef901b4d84db95af2bd3284e43601f;
  Step 0x0 0x7ebfa6bb3733fc69c3d22be85c2876e73fc43f388c218fed927b96157eff914b 0x1472f18448c8c45ea1ac749c945c108a42055c62dd8b7443b5b0b2903dbc14f8 0x5826e3c1713d9f32c4b7785c0199c66e78506ccdab038a8e3e7bc33bf74ee528 0x500cc98e554f3ef1d14a6e23ae533c5ec98bd052efecd461d501e40ef43907cb 0x58263b242d7cfbcbd92cbb4f26151ca36bbcc81be44db08ba82ceaced7401233 0x187f14dea9ed756dd21dcf01169f99c25631d4ae8eb68043a41e50b1fd08e9d8 0x0 0x0 0x0 0x0 0x0 0x0;
  Step (-0x1) 0x701ecb55b38e9fa428475604de076b5e6b38e89446ba3f620d808f7e18269eb7 0x4366d6f679e60d9eeddba0358640e53f616e726929378cd03396f9b182929e57 0xcc462fad8fb2d7f43ab427a030d5931233835bda32bd8768953ac47e0d09ff 0x659431b828a7c06a2bb27c5f847f9b2433638541d784eb3d3717a84f43513330 0x44f9f925f5740a81a27909fcb96356ebf41a70dde07a018f109ada09608176d2 (-0x1ce2a568f39bef0122c38f082504a4d0f68690deec413cbf4f17b4fbef82d150) 0x1973dda9de9b65ffd62929bc97243abf74d6ff875848544feb0359fb3eb48fea 0x1b14255f3d859b67ed4474ed0e97df7b350f16f43815bd01726043f29609e56a 0x37116d229ed4a97b53024a5b934b34fd5eb46db82b11a726a5be004f9ced488f 0xb3cd51ce193bc0f64e19d575b781209c7c6c74ee7d6a7745f2b2edba703e5a5 0x38dfd85339bd88501740b776016e8ba66c9d3c9bec3f3164bb5c77a00b6fc3e 0x5a1a4903ed88c0bbb763807495cbae5f35fe5d03324ca41bc3a017140e8f9a4;
  Step 0x0 0x5e1878520fb983f282e8e70b43dfe520584a77493a237a9ec9b46a3f7264cd9 0x874bd6090ceb36b1c9137c53c9ee189d3de324957417e43401575f17f8bc0d0d 0x2c221412dad290a527e58e39a811e851e1ecc2943d0b10cf228235d79e804b46 (-0x8841f3185a54436e35d0acb82aa948f25f67d850d5cb9ec45a4a59047546696) 0x3094dd83bf5d0fd924a73bebbb69ae0bae3d79b46319411e9dd9c3a803d550 (-0x37df66d2fd407d142a6f0329d42b1bbd46143a8b80142d4530e8f057e76a500) 0x0 0x0 0x0 0x0 0x0 0x0;
  Step (-0x1) 0x56d7193111e93883f0ce48e590f6ff8ea67fd0114e2b169a95e6eb94e7d9bb30 0xb0deecb55aa4886013af8bc17dc9b2e49ae5cd73ac4d2bca1d904e8a97bb4556 0x6953f9c5bc1470a6dad7819570b8cf98f577edcea51eb3bb04050b7cc9a61fbf (-0x1034295e1cb813a1f0818b1562467a0c3ec1bc98861d26e399a72896984650197) 0x2960e31305478e745dcf15e532bc4ae76e746daa33011931c292c70459a0e4d0 (-0x13cf522864fb83e28b54c13d03a75adb7b4acc73b1c48fb20eb662efe22b1499) 0x70bae449a4038925a41d1faae4ce7a1d37ad773b8e8fcde579e65448e8782fa3 0x5bb5aecdc2cf3009858a6b67247dba73895ba297f847e63f47293476cf840968 0x7510e29d691c98d71a8a99fbcfbcf7f0fe5552aa42e350d1489bef30e3bc4e1b (-0x11f0a587c34cb422b7b24e70a4f96f7b0f273b24c06b4d7082714a86c1f1edee) 0x45ba8ed78ec0a5e49b9b16aa576f9118fc2a7a6c814c7413dc2ae02b05ae7946 0x34ad134cf10c7cfe77f3997a35cb9caf404f7cd5d6527e0f46f41c97618dfe70;
  Step 0x0 0x727f0264115306cbb4fa0467ec82a95dfa7430934378ec393b4456e89efd642a 0x7cf7719eb6d9b4be7c58faa8351300ed7885a5c1cbc681e6274f3731cce9cc2a 0x1406a95d5c4874fd270c5ec650107ccbf1d5c6407fdf548efdbee0a735bdd933 0x8a49d7f8158823b66c1f088d010aae5be9f6a41a70a720a8694be6041499d4c 0x47ee401cc8dc8aa72e119958f25a020906b4a801f454f4771999c01ef3e7f3b2 (-0x14e4a81f32544577db7be3bf7ab4df78df2264b723da14c99e24df7e2ea0914a) 0x0 0x0 0x0 0x0 0x0 0x0;
  Step 0x0 0x1809bdb704898fab3e87d203f754cfb76484bc19afc4bffb405e5311578d4bae 0x67a8b57fa99a9b056eb8f12ca83f8da85d1273402e3d032a1fe089acff103d6 0x1318a795cc9daf9fb8215c0595bb46635a2374c4e381189d67ae21b9e8b76d6f (-0xfbc80afd23c868ff119209f01196b4488691d3ee1844a899371858848a982638) 0x32ba76ccc118c168f3ca866802d3d64a0d027f15b8d5e916120eb05fbe039a2 0xfa0c9f92e8480b2e61e57e3add540ed2fcd8b2ec7d2ea6d3db0287d39b8aa2e 0x0 0x0 0x0 0x0 0x0 0x0;
  Step 0x1 0x138e38328199b7da21625a1ea4adcd8a46647ac7900923dd9b8be465a552082e 0x22dcccf06303856b566ec86dc4fef8886bb71cbe306fb4ebe80320e63fdf8f5a 0x28373f482223080efe83772f8599f17b67ef00cd7ee3b1fc7e957e68e83456b9 0x3683c72dde1de2940901ded3323604bc778fbe867f74bcb1b46eb416a22e198 0x2192bafc73a35ba70c4334d5ad30d095d1ad24e4eea57d780ff3f766ba02296 (-0x30bac90628f318debff85f468c3fe3c829c9e3f7a8445bf3877fad532773360) 0x7a7fb4c7988e47d4c78f63b01481cf86f448779bb5ecc65657897914b2954681 0x255ea64c7b133b416b9aaeeebb654418ece62f27bd5b36ff0608002c5e4ce29 0x51ffa2c311e7bccdb6b2765fd5fc0f26eec01c5b443587654e83442fea20a9b 0x4bf4b2a4074eb981303ac2f84f351d2835e188697859938f0a86d94cb3c4061e 0x525657cefb16c3256cb5f821a303eea6e60d95c07086f76edd68646801a325f5 0x15dce4bf33bb308076c831fce3cb0351da9a01d20bdae584dd6d98561f105261;
  Step 0x0 0xae224c8f84f270b01ea6e427d92b8a2389cabde41d2a6b911a13e8f3826c3ef9 0x50d66d17d1741323f9d51728871c4720db87c4477e04a4246d537bed365d97ea 0x7b62fe9033cc3b597c7f2863f7fe7c42ed37be6ac6abe46ab13f169e3fa47225 0x9b41db4f03dc5afed0c0ba13593345fdd400d795450fd679dd100ef9155e18f 0xa6611f7e17378a8fd70a72d0ca4c7e1ed9f207641fc4e8c6a01cd8308f52afd9 (-0x4b0190dcd2b1109117e49342a82cf1355f75bd93d4aca93aa39a4e046ced2aad) 0x0 0x0 0x0 0x0 0x0 0x0;
  Step (-0x1) 0x24322c5d528f15ae3a66d1c683dc3cf56504cc1c365e89f9e005846cf739be9f 0x47605712d5106e87e6ef615dc4b8fc399ac4b405f7d263b595a19127be835e9f 0x6e4c4e7dd8a8b999ea08210c6568d90ce22ae778b4b707409800306a05f234f4 (-0x3a8e7f95ca1e259c732da8caf7895466edd76c4152acb8b6f94823a02c8ba46e) 0x73051e8453bac22a181b35fe143d5348cc84c64399e2d282b51677600dd32e6 0x1e10a9adc1583b7573effe0bf5f9df34a9727f1ef00c8196ff59a793a96f32c 0x14ee500e5055eeabee919a2225f14df111541bc051b31ff7b9289736c1eb188c 0x59a1d9cb52473ca77b551e3373abe7a35663b7ca385329d15df0f2b7f6fd1bc4 0x451234555e0bff15b33f31d4a70242b2691288c2243b1618e4869d0dfc7c2bfd 0x8c8e6dee455a67d8adf7775f08fefc2835d06b91d3f09aca0713279797b8f5a 0x267632d90940f53d19354980e767d6d9c149bb0ad3b72c8c4bb8cc94756f690 (-0x218bd629636dda6af3dfbb040e3c4b2a4b07f3f02dea116d697ec184b75a171);
  Step 0x0 0x9c4ec3c0af11e62e7e5afb3850fb90bbbacd21621e518739aa0476217a6c10d 0x2a64dbb7a00be008db11eef5b87288443ab318bcfd7c8a782d6f4d93ff864021 0x521c737d0c64254b58d63b19fe655170394beed9637b92187def2e1dac7337ab (-0x7cd749c01aee6c6dc64b996cf94a70064dd7434f8ccb473948a835ad69ab6ad6) 0x860edfc5fc9b9fd465a298e05c67a34163bb7646a991d65190165b3c7e1f00 0x28839e6c0f239ecf675b852255f320608f84533a4dd55078f756224f9a1674b 0x0 0x0 0x0 0x0 0x0 0x0;
  Step 0x0 0xa25470f56688d2d0b6a8fa7c47dc5b4ebde3f8faec714272aabe3df6e2f1f115 0x78a6396dca034971131b3a4daa0c2688e4c572658039c70818b1888db1c956ad 0x16ea6ca62589b68e11b52ba5cfdc4718dee05e2281c74a86be668b50d4d59ff5 0x74b02f7c93bdee674d2ffd40d98d521949e56625124283e380fa10473642ce67 0x90964545beea92dbc594139e46993ba31731e65c3145de783ed9502557fdba12 (-0x45b3b1bb5c5efd4df014b2399f582dcafc12e5105b3a613937e62e1914b10c4c) 0x0 0x0 0x0 0x0 0x0 0x0;
  Step 0x1 0x149c86a65aeceb53984861b10aeb368bdd667a914f808fe4fbe8018b0baa9f4c 0x9cdd9931340438b63045a94104696cfb5d4a473202c7430289d89de0e052630f 0x488483bd8bcef80d81056a740522f2a97e15b599a022396c7c23c0e1577e0141 (-0xea6d07696664f08a2ad0c0e1c62dc0df629a27cadcca187db01b4684b88f87bf) 0x254beac98c23471d11e829ee819707be03075bcff8e039563eaa867d2c2c373 (-0x4188a0abbd35e98d7ee250874299c6118fe7a7e7d2a8a51e31e8b7320e716e6) 0x5bda55ff1e1ef0710e5da53256bf2eb026b7809c4a7b41249a078a08cd6c4429 0x2c45fc8be75f40f53339f2f0bc164a8c12c3ed3c23266b6e7ca3590ce98301bd 0x54775f29da8d8e7f07841f0a0d71d8a7c101af6bcf7ff6b1c1dac7e4f39caa83 (-0x488fd4307680477268ea6af30994bc5fe5785d09f701ed127748cb8c80974e3) 0x2e4b14828f06b41a9d945ec3af89d9602dd773b178bf69cb68025d7b25f2e008 0x38beec2417758c452b00f8508621c946c0e3785d8142c2b4ad2bbf7db8735236;
  Step 0x0 0x5ce0a90e6880e826c641726cb93d78eec8e8cbdee2dbd7d8ecd201f5e85deee2 0x6cf50fef8182a83efa350f124e0dee87f0ff2c441f4e5c4688fde53440ad4801 0x8a1df5fabfb280f2059d79f616634eb26c7d7e13f58fca8ccbdaeb4d170134cd 0x35d343cd9a64cffef382a56cd12377fdb4bc04ddb593273849fc1a751c72b845 0x2f54f98fd251aa0d7878f17dfa6e76d6abb9a4d53b445ebe214a3ac1a048be7d (-0x20f6c695904ece0f81f1535f39fa057e43d2271cb3f9d01fce0be4f2f9c35c38) 0x0 0x0 0x0 0x0 0x0 0x0;
  Step 0x0 0x750e85ead351dabd03f3c1ba6482e4d1e7265dc36ce2a9ba9647d1600d435f58 0x34fdaf690c5ad45a4c2982ef50f25d1be86d7ecbfc244ad514cde5196962aa0c 0x29ee09ad1d257f290a7f0a5fc73774ccf3470b8f419c446157568a30411817b2 (-0x11ff4e4cc1a9221d67901ad2663b34d9cd64e3e5ec81c135da23c01d9327d1cf) 0x4b2f188ea96f1928fec4faeeb010257cdd9d1b5c6b8cadb8968ec58abab7b39a 0x23f2483a6a09fcb904595b71bd7dac5f92dcdbac81d2c0c57254e0ea444aceed 0x0 0x0 0x0 0x0 0x0 0x0;
  Step (-0x1) 0x54234435dd7b0f95464f7934aad96e4afb0dd6417f494425bf8f3b86f6d3cb25 0x87ccd5287fe73352ea1375cb8558abd8e86aa2e051dee298e83d23010e29bfa6 0x42723d723d1ad5062e8b7deea52c51490c91083a2cdceb7337e4c1ff7ed1e083 (-0x7821603ce779f2ebc0d40c775ffc945524d38e171855b38c79611384c39a1ec) 0x26d7d82336ebee54493baaf16c06abcc5bb04017d61fbfe4fec6b2f612cf24f7 (-0x263ad3149dacc9ff000c47eda9fda40c0bf674e5bfe02cacc0129b08b7e20903) 0x77babdae1d1b659077c547b335f27c2715b3d865a9f26382e317686b639c6917 0x6fd697691f82f996f8a4e2e3751c1b23a103a7f2aec8b0e29948d48cf1e07a84 0x3a601ff362ae8879a0e6d89134c69a96c532f50000dd4332b382673b56268a07 0x7ed727079dad5dba4271e145651d1fd0074fc1cfde5ba2f5db5d559f714bcd2 0x4ea80ed646a7780d624a10b5d510a197f15800becf00537e23d51a3a3aab7e52 0xfbde6876e6f61d21e7b9c576bfaa8b49b24c50ed077759efe4a7c2c90f99ad4;
  Step 0x0 0x5547a9eb51c8016d18ad724191abf71700e8571c459265e3c5d6a25b5253cc56 0x3e44f13ae501a016cd3a544c908eb94580f81bfb6ca7437515be74d5fa210ad3 0x1bff6f59f0cb53de18442b99d7551fcccca4a878c470eefb4bb8062651758073 (-0x97422e60bbff350406380aebd16ccbd463677e8268c5c15ff798e2eb4aeade2c) 0x27e7a75cfff11c3a1713b38166cb6d987a7990cf6c7d18b9fcea5b2aef156b7d 0x1731d8a1c07024279a43ce66702d634ac9982a8722dd97660c4199e02a8be3ac 0x0 0x0 0x0 0x0 0x0 0x0;
  Step 0x1 0x6db81f154a972d8098ac830c6ba7d078238a4f143b1bcc2626c1b688d506a729 0x732ea6692d94c889a8de25ed975c52b712ffce25d5f8af68cc8318f51f4f5e79 0x7d5a227270215ff1396803c764802b2e7a2c93fadaecff1ae42658f52e970afb (-0x1e1da600097513847cdd1954b04c17639873d45ebeca8630c373106e8f8ccb89) 0x420dc6f645d644d3fb99a4a3d80f64adfa8dea8312fe36d4a811e2927230b4da (-0x1fdade002edea9bdafe4398d1bde4f4c5eba232889aa2134cf6eb57df8df8654) 0x49a349d63e4c3cf5833f539cf616de67e6f4ff7489c8fe4dde8c75dee1fd76d0 0x3fb052a32d2b07909e95432f20033d2dff30cbd1a6a1da8c4f0523434da28fe0 0x187f2c7913f3d1ba7b1252a9ae1a498d3d1c72fa6403a207d683c1b94ba5877b 0xd34d2d4dfcbeb01328d89109ad11ef6af840b8c753f80138cd73dcffaad5bc9 0x1dc0d5e0cef829e38fab59e1c07ee6056bea252c43a1cc70fa27fb34d27cc212 0x14ce4cccf737081de1aa66eca23b86501d6ca9a6567784a67246fc4bc0b4ee62;
  Step 0x0 0x1c1c3a385e97d2a4224a3ed5f72e579b3c949f33a0216682b26d90daf98e6eea 0x6c28f6b93f54cf93c420597cee2e3ece8af0fe57b61c5186893f89313c754034 0x396927f1e1f966ee38dfb9f41040d386c295ddf0ee45afd12f55e90ab1c23d78 (-0x3b368174f0db074dd274496b55478619047902e9bdb1abce3de5594d10cd30f4) 0x455f2713dc2f816c8053077493e86a77fa282d3b8b516fb37f989b01fe568b0 (-0x6dbf7ee6beaf5015000a1cba243898045a929f515551ece85fd42a373c6d197) 0x0 0x0 0x0 0x0 0x0 0x0;
  Step 0x1 0xa85590e9670ebe23662c4befd9986a20fbf71b22202760c43b39def8661c461d 0x368d8182aad1c073880d4027df365f9d618a6afff89dc367f41360740580b954 0x87df5f933b1f186ed8c23d332aad0b7d20704c88f76a5fd93d732ca8a2100065 (-0x5683db61499732e400b2f168922de0101a3dfef52bd463302b11eaafe26b6480) 0x9b7b2496235fa4b2368c8ac0837a9c0db1e81238526cd938368fc85f17bc9d51 0x3183994b93f2dfd72828841f6b65a6c002ec38633820c22cdf6e55a1e7dafaff 0xafe4e45894c199d618baed9812fad07f70705c8eb76e3bd1ac8f3d03eb5da82b 0x9b0a648b557a5783c2c076bc5706cb1e12552bf3a45c0620061a20233f0a7e03 0x97db27dcda6afda64c3a72f7dc853c6347c4da964daf0cf5e002626b3c597ce4 0x5a0f6991b03aa6ce78b49ddfb653d7d208eb1c8f2e83a59fb539c1b16e8df33a 0xa9c2875586a02a62cfc6ce0e238b57c205d0fa21e790c2d23206e818d5d11529 (-0x60fbbe1052bd407d6f9d7437bf7ba8697a2ba0f7edf5942985c2b7ea93c820c6);
  Step 0x0 0x39fdc3de92da7925f4bdf4708c223f4289706814141e4d206d9b2f9505322a67 0x267d770b2dfc547e6d31c0764142664904bb899fa0526bf0313e5ef26a16a956 0x87fb78e45f35d11ee7f9fe53984ea99b4d38d4d3ba78f34b7786ba749af2e01f (-0x12b0a554bacbb9d019cbad46a9461de51af42ae6d819e4476fe3d5a1b9ef4349f) 0x1273ddf80f73177b188bcdee1d0087962b26608b9bddc2a2d1ed7f647727d879 0x2515ffc3803bde12e6735c3ab2ecdb2ff274389401681eaa1d2f75f067a35478 0x0 0x0 0x0 0x0 0x0 0x0;
  Step 0x1 0x788d3fbf86b71435b059d05fc21d58b146f0eb03fc8f23fe8c62a2188e5ac5db 0x5ac3e0b010f11e2c1ef402e8d6468b8931a4b1335fd5b435bd6f9b17a742e83f 0x8cc2126404997391a8e32cf46ed75f068bffacd946ffb2338dfbc468609a7e5a 0x9b82125f022ecc471199271d08031a368546668e2fd7164e7c0507044c332836 0x4fbd985574b18df2c17cc4c446da61eacd457bfa38073b149922d9c0a6781b86 (-0x2293fad4af6caff3e140a22c09aa70828cd85f0606b6d2180a15d92d00df59bc) 0x609c14fc329cb832ce6be4b850abc57aa31ac2da086b389126028c6dbfb0f0fa 0x6787f9da238f1c63f92ec096ad3746e8f958370ecca4df51e0effafb726d1c16 0x1344702a8c9e5dceab091292d466e903e1c91f8dec13220ec874420de89bf014 0x1e44fea01d49cecd97fdabc38a8601702345d82523b538da9f7048cd6d0d0bd0 0x3336563f87ecf2c9348c1459c933db93294d04b7cf82b211d5d859b4403b345a (-0x6c4668358f2dfc721de8758a1a8005baa1a89e0d7341892289c3840f5ea5534);
  Step 0x0 0x95bcc2c2e12d9969e37e2328395c6a82be906b0fece53baa6decda72c1663005 0x55c8d6ffaa74fdbfea7c230acfae1d2e173da51f9b6e0b1a25a9ae8e71f7ae85 0x3ad11b9cc9fb1d37ff4a0a48937481831c89e6c62103bab0685e187cef63afb3 (-0x90c77df7cddb918597abb8e73adbd64b895e6df6f93897ba2e596a6b9eb2edb4) 0x7b065a748fa1f8935ec36b8a098e46590c23bdfa0bc3308bba23a4d265cc7b88 0xe94a8c635943c07273d6b13df374542f8b57458877a3b38d5af11dcdbcd49a6 0x0 0x0 0x0 0x0 0x0 0x0;
  Step 0x0 0x389017946f85b916b348c425e0101fb1fb80a008baa60dd1bb6845c3493c90be 0x4fca4cb706c036ca3dad41afb298e776b818bdd82d10558064563d9818240771 0x33ff42b83a3e21c79dc2dce06cc27116c16de166413e8043e6f63fe46e2104b (-0x54a07f9d69217786e9c77cacc9613a278862c472bba89a478aa1b7a31bf193a3) 0x118e05818bcb86a3d2ecd1a0f7a908bf005bc5d782a17001448ece6ce7daecfd 0x1dc41fdeb6943bda97638517a78ef165c265ee49171a919d23a81caca533362 0x0 0x0 0x0 0x0 0x0 0x0;
  Step 0x1 0x5d57ea1431fd18db90b28b489a027f49e68aa2c0d1f68cb300b5a1d4393c691c 0x44d6fe61e8729ad1043986b457aad8e978a7273f370c4e43161f8d4652fd218d 0x39dcffb38618585fd09c5977ca5943ac71b0ccac0919fa2636872c0c8875b1e (-0x6578179f8fbd3472e5e6fb7fd5913be0d43547352076fc09e64036141154e717) 0x2fced3c5db9a52efeb871e00f168d071b6802bf9b914370529a238c5942292f5 0x59bc6a08ebfc0177f3738262b0859226c1f1987b72f3fec243988fb73616e53 0x77afbb275339dd243f813768d831a19549ab1b1048f39b8daf85a44217dc8af3 0x1f0ebc5aa7482b0556f372b9a91a17b37b0db64a49cf7a4a93eb3e86db8db2ae 0x47991fb24d35d3350a1f7e2425ca4cf6700bb86e3fdfafbeffe4ccd6b59ce4d5 0x33e608b80a0c9621f605626617ce6c43e8e6516f4a7afada741f827ca8871a58 0x4e99983af2843149d23acbb297147a9538fc967abf25c697989632245e1db3a5 0x18cfeca0f73f046c540dbc3519a6408832eddc2b6f677260db0bd2b335cba7c2;
  Step 0x0 0x1eb41b462d5698034f9662069d177314ca71ec52c13ac06d66798c71fc4b4b7e 0x889d5f8911ee9778f2ae34ac018686a6e60bae83c59e0a29d0ab761eb943eb4f 0x8c5b2f35bfab3b1616c9623d578214e64a9433c0db4afc7e197302e3a83c55d 0x83f17b236c7764fe4838b1a2a4eeb934368a0c76b8fe00d3e05c0e03ce36e60 0x52c2fe7dbb5f1b32411f474208cfef51e7de7347c14c36acb020e23a8f1420d (-0x11c87c89e0325b9e33b02ce47c39868b6383d3a2b06d81526fad34e7eb87f130) 0x0 0x0 0x0 0x0 0x0 0x0;
  Step (-0x1) 0x1cc05b0033d77cdd96a1c13436efc2a6a5ba5875e2b7979265143ca3209b080f 0x96901bf1b4c7969ae1bfe24e26050e5dc33a40f44809fb963c990d7e6d45447 0x6ae91f79330e5478ae2f12c26fec4bd4c95a5667139045014fafbb1005e31071 (-0x13073a5d8da4ee27116c035753ae429875442bce3a1e45236ed8e9f3e67facfc1) 0x4892798ff928a164ece48ad4e3a26bf0b04e2a3761d02686f598a9e1ae84eac 0x141149bee354b06786c0d4513691c086f16594226d1b5c76f58acee685143a72 0x6d785384e0f12bf9a3ce294bf86100359de83970d06e484a268e95c7993d1f81 0x825153cdd4bb80550de84a4b3d3e14e4e09e68cc374f9337f4965c71703ddb12 0x6091becc6238bb36cca1f19cba111ede4da64f98b27b265b852e0d1284c5e30a 0x532a59d5e463d64cccea814b01cc07eea5cb15134b487677da2ac65d2e534021 0x41c10d3e3cacfab2b481741619b7c89029611bae2d6b4baeef315066624f16e7 (-0x489fc6ceec5294a99204eeaa8b569a3f3a4ed33c5ad348db6d26a9f1c4ab0abe);
  Step 0x0 0x8974f7e640962d8017ee48b960beabc9bfc4f2030eff0400247d98bc10164f30 0x309d2ba966da0d8820595ba01a709f6222a25235cb905b340651ab3ebb6f59a2 0x1a76e1badd36ef0610c07c57bbcbd83d18731ca49f455e424fc4cae1b0556dec (-0x85e1997f60db221bc8b04052551c1985682c32b2e9d9113d06b90d634cb745fc) 0x67ac48b976bc9b6db17f2e8ef7f376c676d548ac68071c6e21aa29ae31919b42 0x3d9f6b6f4ed797f3b45a0c2b5499ce4a9683a74fd643b1c8700581fca1caea52 0x0 0x0 0x0 0x0 0x0 0x0;
  Step 0x0 0x8beda53a05cb8778edb390ce740fa3dd3cfdce0f6028d064bc955d28f3ba4d5d 0x8fa90ad7f26b490aad56e612a2e993400868c118ca1d7e6963290647f4aaa3a7 0x668b28fd60a61bafedd7ab4f86d1823f6ba9b9c08ac997f27853782f1f0253e1 0x1bc45f52c635f008b0e661cf83a6d994a0d9a8a47ff2fd8e228449df5c6415c 0x6b6f389562567441176df5bb96090754f80b8951db7f4691e95d2624639d8eb6 (-0x48f993dcff6107a1544f82e0c32fadfe89c9c2e3da310fd30a9fa0d466c3cb76) 0x0 0x0 0x0 0x0 0x0 0x0;
  Step 0x0 0x69c9b87551e6b0eb8f6a6288ecbfb2fcba4797d7c320a4c75c2b278fd542d68 0x1923d23f778c61adb9ed3c32298bbd6568d1d3e6c5bc2bd8bb6ad3b507f88125 0x845eeb7336fe74e8c5ee8b1dad960ce93122d52ba1efd58ebd96237b8436e353 (-0x14c48df77a8b5616a7e34745c9d2964fba42cdfe88674f00b0d14c16af7fba77f) 0x3d67ba22fe82d54980dc8fc4ba6c8b990e43690d992612b5d518aaa5d1ce91 0x44cbb8a89e926d6bacdda988a4581837cbfefe3078c2093c29cd347a475e8cc 0x0 0x0 0x0 0x0 0x0 0x0;
  Step 0x0 0x6afe528048103f841ab0a0d356de402114ae54b05e215187676bba38e4963d27 0x920995faed581f2be85c2b23b8a4e9f597f18d6e9280f70acdce84ce2adc1d8 0x243ec58f1e4f806c2054376169dd78b552274ab2c364f1c5560043dbaeff6556 0x9104a7c16053d4f18d000becb99cb041d57acfaf399eebb4b962db14155eb86b 0x3ed006fd9bd064e134e08b2775a8e44d5bdcba51be7937c68951c6e45ae5643b 0x966876b4f8cf45d5b6f807d427a749d7f084b400579a29808fcc06c2cd70dfa 0x0 0x0 0x0 0x0 0x0 0x0;
  Step 0x0 0x3876bd5f7f3ca88766e3163f9b838e474ca565812ff2912e81db57e1625835bb 0x9d250687542729b02051de0cd4830874ef68bc56b5eabb743707d9742b5d8017 0x7fad4f24d7ba65ea38534282ff1a4fbf5e1ef727a89767076f7deddea0bb6247 0x1516595c9a830799563a3ebb0b60116c955d58f08ddd17160ceb2e92c6aa4db4 0x117e4c730c71834d657a30e40f56a0c245aec8e895cf39291c5fedc1e1f92eba (-0x2ddba6ae221479bb49be4de7d2f72e3db613fe839450320560a38cfc1012aeca) 0x0 0x0 0x0 0x0 0x0 0x0;
  Step (-0x1) 0x16372fb9cb2091ee2b927f3d5f874d8ece4765e82191a089d5e20ed5ea1d4b8c 0x1420c1284ed64bfbd6641831736a696028c45ae61fffb9b538b1d86e55b871fb 0x8337e666231126724037aa62e67cd8bff1795b5347b00e830f89be0418f37f7b (-0x1775db83cd7b7553d27e40ff8b19ce6cb47e37f8a7628e2c522b16d416efd22a7) 0x2b53eff9d2208e8a2da738c67cf9e37ad64cba1575912ff9a723a732daf3cb3 0x10b3a9814a6ed65cb967440c828ac943d340bc47b4db07d5d81a8fc1a3d6ed26 0x4a66009e1440442a89e550581fa2fa9ff203444357c5dd5d964f31a12897f776 0x92487119e3a0976b93769b6d07d51e869d3409f7a2a14cd87cb5af256300d326 0x4e8d146e7117a33bb40e737a9571ef9e2c3b73dd544e16b0b3d0707fea8ae185 0x34255facd69be9ac5a355e0fb02d515959bfbda179881fa59f9abe7595d1bd41 0x1e5efef222ed68edf56b740305ad6466dc9d733f930328299aa68169e6dba9de (-0x337fcecd8c6839dbd2c66ccad8ee191a768cd12caec0541f4ce630acab08c7ba);
  Step 0x0 0x8e85dce2ee9580daea95ff42c911121f3804099a43b54b4e16da9d3e959e3a97 0x4ba2c44f1f36040b424f3f2e6cbecf72cefa34e5957e41d873e2c757958c41af 0x26378cde23bfa3278e60567a925bfbb4c597b865f4c35f4bdd28ca00b5939ee2 (-0xe562a1d3173e590796456b91a63bd3a6fdcd3b617235f5c500478fea48656cfe) 0x6f74a0312c7accd7a8e96fd649faa0d1783460edbc7a7819e28c17684695454e 0x373f55dc85e3ce2a5cf8aef53c4324c378645a1ccff52d2f99923b2d437ee012 0x0 0x0 0x0 0x0 0x0 0x0;
  Step 0x0 0x9108b4e0790466360be4074e0457f11bc6d1f3d123fd2d5395fbcc6866cafbde 0x8198468d19d29be6f26f09caf570a8a8ddf7bed9520a2cd51a2723852e3b1334 0x12047a4860d9d7d1e5675d205d433512daf7e205579e947dd66ea8063a6786f1 (-0x2157dc299b2d841b1671e3936efa44b0a798108b9e78b363ea8d547924812087) 0x736aea26bf5ac26750e91c5ab3aeba6e125b93f83d4cab0a9b4085783928505a (-0x2af0bfd49c6787e632912b9aa1bff02e114f6e5c274c8633ff5fab5c183f0b1d) 0x0 0x0 0x0 0x0 0x0 0x0;
  Step 0x0 0x5a1cdb54242044177f97abf9eb5148b62aa3864655d72a85062d7a7518cd8232 0x1f86fd6d3e028152f55b2e7b9fc269dcbd32023aef4babce83faa46dcec5942b 0x2d4402614e8ab7cdee2de01e1ae7bc4dcba0947d0c89ff5f6244f47851fab51c (-0x102a3fd7b49b97c0f3b0b6508ed88a80ca187bccf4fd5e6c409981d38f30ec97c) 0x2c8e4bcea838467139c188260ae0ee3396684977c0e926fda08b724e3a0176c5 0x307d3315b986df30f8cb478e6e3d0c995a9674f02582af2d08e760c669c67699 0x0 0x0 0x0 0x0 0x0 0x0;
  Step (-0x1) 0x947dc1c09b4ec9756b88d0f9f32c7df3d1fdd8402aa6a7c528595a5eaa123e93 0x6e6b110d7981057273b7c178038479e4ae4ce127cd0ef6f3565662eb7aa45658 0x74d429a08363b4f713392c2724edf7fc31c1c47e54d344107043488c0f0aad97 0x396676b645856624b244b433b7e856c2def8d134ad972b63f72b6fec2a8b2701 0x78fc58377505dffa879a71bbd35e0306a56132e244258ddc6c430b4bcc21d197 (-0x4047176a6dd2f6e90f38a34650cc63c93b6fd78aa3301b9cf01e18ef734268d2) 0x2a0b79595a4b81d417a2526b69175c7d99140a92cc3ebfba2db05ec91a0926b9 0xaac824365e19b1e912499f98145767a3da0e777b45b7f98f0dc81f16fadaadb9 0x70dd892d87bd53df372d68d5dfcdfbcf8bc41c4aa02f5440e62b00afe0c7f8d9 0x8a3b25e1d588d0b9bb16f10e0a9aba553bc1cdbbc7b2130073e635adcc7f612 0x9b31e50ba7067fa16e9b9481c01ba3806ac31c5567550b65e25844998572e3f (-0xded00b608e1a23b45691c9bf13d5450fbbccca2c6896b57be89438911e8a9fd);
  Step 0x0 0x86aa514cf162cb8940f50a30048fae6f97e837630ce73f7998dfbc54f5939c43 0xa8daab0cc48b0ad4e13d8b6e8afadf33b4f9318185fab4ef1d793e3c702ff6f4 0x22a094365af4147ee3b49d8222ae010aa687866a2977bbbe950cadc28d4ad204 (-0x1394ff501ca2341e0e206b4767958b385bd66ba9615198419edf45bda6d547001) 0x6381386e70a1c94d1f948b54f31197267a0a65de1b155d159e646ff0c04f811f 0x16ca12850f7aab2472e770225538afa54e71dd169ef30a28115411edd6ba81a 0x0 0x0 0x0 0x0 0x0 0x0;
  Step 0x0 0xd1ba2d497bf57d1608a6e17bae34ddd3b4251f5133ab07204c07353d235cccb 0x7bdcd3b7203482778cbdc6b2ece2e4f8de1108fac3132432a67afb0e43df0b43 0xa23d13113c43ddea0e5d362ec07183ac19a2be9b83f828f9cc833685ac253291 (-0x1d05911bbe7fe7137a0cd6eb7c77d4b22e45862c9b5c58a714acf675d08e7b438) 0xf158dfd2ca8fd72525457b834af93e5d06d5ea92765c60f2454d4087ff8066 0x33c65976e9b4cd4470c3b8219f57e525d588a95a82505f40633a308b353e2be 0x0 0x0 0x0 0x0 0x0 0x0;
  Step (-0x1) 0x234eb12ae39494813116e575c4b8d772d5e10d14ec25cba6bd6e41a39e805fc3 0x6458b3d0f2e1712adea8c8c8fe5b5af4b0e772735781f642da5621d7f86c04a6 0x1bcc5b0b9cbaf981ad879d50c56634a3facb11c05b77827f7a3db0bf8c2b156d (-0xbdae615a357594769963a95ae0db2fd8ecdbcc057a2158705b43fb0f5fcc3c99) 0x6d71218d129371f67315648a931854c476ca0d98edea54ac6df51f46a4a8b61 0x48e48306edae2cbb1b9c4f46946983c09bdd2ad02b845ea0f9d3ff73252f64d 0x6a287d48d36014dcce602dfd183cc92d19a1c6475d91b7933cef34b4d269876a 0x3010b212f5db87c2691bd5a3f1973db9d759a8210c75675ac315d7f6b0d224cc 0x206f829902b7d696a3b9e9e228e84c660bd905c69c5b526b6e44cb206b610751 0x1bae22101b42b9a24d4cc7f95e7c65e8edc1cda6ca0e9e13bd9b3bbf44f9e0bd 0x3dd5f0106e3c921dba2536965714f0b116bf2c2db7bf79dd2d8cbcba85a7e2f9 0x1e7400c8d3465b5595cacae63989fa6d5756d84857c674414c0bef5b9d798e7e;
  Step 0x0 0x2dfedf1b419efd4770c801e2d9c6be6fd66ded7e8978ec2189888a61bab952b8 0xafd3bc9665ac33a8c67c1c91a13706baba0f14ccacf87b4dad763ccb08e7e0a4 0x139a6301103acf5298f3b19905baf9417ecdd6d290f58818d5468e6a97b3581a (-0x15a83802034276871e7e685d1416f695ba730ad6c305c11b38d821cdb2d54040) 0xb9bb30072727098b318907c98521431041e28ac2eb47f8f91805e1c5c88b154 (-0x203e7be82bd7413c554876adbc7a9a91c851dcdd152f928379a505e6ff3b1147) 0x0 0x0 0x0 0x0 0x0 0x0;
  Step 0x1 0x3afeca1d7b0966ef5443cd8238e0ae2337b9d17f6ddab2c31753eaae1068aeb 0x29157148de78488623dd6e2fe8be28b01f7344f685dd262237dae5604d55be7a 0x6e8344f68e5a7a5910e85c5c1b65b6c8b4a4967fb25cdb153a4dbe91d5b7f873 (-0x1fc1933f7f5c7a9c175eaf1aa33eabd4485dffd4ba74351fd8070288e42a74b84) 0x1318d9f58a2fd2e2925c3f36cda7dadd23bf3a6dce1312e8b40b724e77c983 0x2b9dfb6f3f55dc9b399e09d76bad1d03372a712be192f0009396c3a79938bd5 0x832389800988236f8bbecf0697d3cfd8724718e0300e8a85add0a76f066b2e52 0x9242cbe49653f62b3eca20231a7f64364f1424cef307222726df4c25ed8087d8 0x17a07525279dacce064974584020f6e7e8f023c98299153443cf07e38d930650 0x4cd628a11f036d4096d3ca7fdb09230a643fdcae998030bf3dd7faa1861802cf 0x5e5c8d6344ae6e7de987bd9713d9c43851527ebddf3f2f28a663381e528cce79 (-0x4bae42cdb46519253076674b68ba520e402c7d6920664c01ac6f8299e9a6c88b);
  Step 0x0 0xa90f27c0b566a76fe88faa88e004f90a27fc1ffa9634c9e12b48d4a85431403b 0x5cc9c79d9b1876eeafd7def8eb1e08a621a6fc1fa65162dfcfcff290037c8c30 0x8d223d3ecc1f9590fcfa1fc9bd882835bcdcf71f13c9564500106531db2224a7 (-0x1344d6d7492c05118d06284444f689464769458584d2a58bc5de00e31b846f760) 0x9cd2b7d8d39b1d3ba7efd793018dba8f9a40b41b923a13a2f81522200569a1ed 0x319a3d68b65523023bd16d835e83adc29e4fd6b88e8151e8f522be5f60c55f95 0x0 0x0 0x0 0x0 0x0 0x0;
  Step (-0x1) 0x1342a1eeec5a0ad40bcc8fe830fcaeb9a05f9134036b3f5ad992cb944615ac2c 0x5b5edfd3047d720bec537e823e75b41a0f9d4c3e8eedd3bc34b76f6efcd86dd3 0x87e14f7ed117ce4da438fcbd7c45742a20e9f10382b062a5e435e89c33f8d58f (-0x6fe477c1ac0456e2decbbbb1d045e8b32e5830eb7e2852f88d9bef3d44fcd378) 0x20912719582a3ba0b72f5a06cfb2a879590c329342b05bac837f2f69d3d1161 0x265a20191cfef045a2723c57d4f60a6aabe37c0af69c0307379a109e4d73be 0x24af558412a35be8f19f55a3266683b714bf773b5f85eebc4700f79c6a92bf7a 0x636feddd3960933f21ae2b16239d0ddcb75b312ed3dad89901328bc0bf2da50e 0xb249d1156f466429741ec113195b10da589460f5f9e583b056fedd0e9bb94763 0xb5f4539adde72636ca54a42c36618da0c493afc3a8ea8290e60409e2751f85d 0x7625f01ffb83bb7cfb94e014a4bd3d53d890c57ba89e5a931d6a497d9e8cfde (-0x19fac2e273f4191240a6a7b5aa4be3a93b7f954e054f06888042a8b48cb4150);
  Step 0x0 0xb21b3fb2d9bab91f641d0336c18d2639df1195d4479e1feb2a6c3d0d861ad381 0x33be5db48ae15a2f911652448e7426c82351e705c29bc1fb840810029b27e2c6 0x54aaa9e8b96fc6586dfcf887d5620d50786debd6ad9cd5f13fd28a1cfb4d2708 0xb9b54d5a70578e3c4ebea58b30665c5e5e161689471f369f3bc927a64329c482 0xae0e9d4bca01b783a176db325632d8779adafb30cdfac380c0415bb2d01120cb 0x2e9bf8bcefb1e52125e2fd2b27febde16e94bbbadc5bab87c695b1aaea6b41e1 0x0 0x0 0x0 0x0 0x0 0x0;
  Step (-0x1) 0x1421dce57dec05be2934ffd5bda0cf0c04aa57defacaa2afbe55df373f0067c8 0x8c20ad1581bd7e33acc13970213b500da6f3fc4e6d49499a02992db3af156bfc 0x795437c21648555f64bb5794db6563b2612a5cf3b591849bc5f4f0a231e7819a (-0x195df57fbdf97a7fbaa46dcbe214b2193af0f020ea2fa8a79ebc96f16ed8465c) 0x23952841cb096bc47714e87b4a549b14ca35005e9daf8a6915bf4f02d05e318 (-0x9c36b4cf0a474532a01a5c14dce585c24893e029657b164a7b691bcb74bf8ba) 0x69cc7db604f26210e993ea5981e09bde84fa28d9f6d9fa31fb5e11d2f69e4b9d 0x3312cb11a6a9973c253274115e10bd35772dfc4fa5cd6ddb67cf1ae4a69bdaa6 0x7afc9d6f2141c693f53783101695b1edc8748be60190cb61b824e202d0fd5592 0x47e32f9cd1a49060935230d0151004987b6256849f7c1056c68b6979fb3abf1 0x3d6af18ec9eb74e19cd8cecab34cd33f22752530bb6f755a2cc97d45dcaf6312 0x33b28138ef4724714920648aea7ab3fa35a3c8256ce9589706fe712d23220b7a;
  Step 0x0 0x997cd95f4d0349c8751ea93f4348fa0ee9c21c7a8c734bc945975775222bddba 0x2cd94f7d692a634fa150f89e0cb5a3ee704ead03049de3c08ccfa59f57bf0b8d 0x555ba4542434227857011356b41feb6512c776c9d2b0b4e0cab00243224cf2ef 0xa43763ee76f79cd6b33d9d65b5cde64c5e82063c02c0daffa22f075dac135aec 0x8143bc2d3e5247ab4ea434452b28c4902c72523ae72ba69e09e209c907aed967 0x53e00aee0b0cb010ba1a1445432a79518fa063a8e9b5da1c34176332125739d 0x0 0x0 0x0 0x0 0x0 0x0;
  Step 0x0 0x52095ef1663d44fbc59d73f6e2e56f48c955ffb0b01b5f3e16bfd07da54936b6 0x7fc123abf341fe4499ce8840f6d6fe11e9c80d47fae36ed7bdb9cb5c23272731 0x78aa1b8234b737af5f1c3395aea6280aad55566b5c99a3585d71cab9230bd98f 0x2bbc256fca3ea1e1375d60da33bf63925c916228674ded23f81db44a6aab438d 0x24ed650481a70205c916ec0f3f8f97edc7811e002396894a0bf8ad6e8455decd (-0x255187b515c5aabb52c635d1c0370df1d2670649a6ff611d725a9d4f6d038b4e) 0x0 0x0 0x0 0x0 0x0 0x0;
  Step (-0x1) 0xa4b6a27208cb64a34f5f5a1be99c505923bcaedccdb53239835b0ba538a1e666 0x19b8d9fd274af0eca23d690cc71ddbeadc35aacea27261a89834cc97d726164 0x18a0d9845e90e493b04bbf35d2b09f3b2e449846c3c3152d74515984e53d0cff (-0x328dd81028b5c7d4ff000186afb8414b090d30d59262b0ed13d0d9ef56cc401b) 0x94dd3f759ce8cc8cb4d11eede863a29bc8024c0b1951c66820ab960cee93e2b6 0x720235ed9f0e2bed0b39c7b6517368175107b49324f73383a7555706b8589da0 0x50933dbf41fdfd9bc5bfafe7af2274f44df2f145f666e2bb46294f79b070cad5 0x8208cb3829174b56f312d20e38624eabe8954adc14fd8362b17daed30bc92ea6 0xe9df460f2b17c323947200d8acbe7c41b50d756a22a542a404686f920978130 0x40a9d0a44973b1050e9454d8614ef97ca004bdbf1232a22ebd69536545a9586a 0x239f943bb4bc879b2a3739205b93276dabddf030ca30bc0a9e514b5843079d3a (-0x38c777ae75a42942c65863ceb58cadad8b77cfcd5a41a44936c5a2fb9dd0e9cd);
  Step 0x0 0x5f2164956c251ad2de0c98d7b1e19d8cd4e7ee83be56fbe37b1fa73f5b2ec777 0x200c2f734ba11f05da17197ab87f849dbcf3c5540e2bf77d89c7a7072c82cadb 0xaf7b79daae2c592b4b85dfc2f83d24ee8668918d536a1134a77a227cde17dff5 (-0x10713ab06eae3ccf26fd5421a1a93c864962ff92a07280dd2d4d1ab6339a3c33c) 0x31a7edc010914ced18ab0600757a0b8ec9964f6f79e7a61252c094d9fcf4b5f2 0x33259b61464d99ceb38dd7a0713dd5941c725f67dd4cf1684050676e2db85198 0x0 0x0 0x0 0x0 0x0 0x0;
  Step 0x0 0x762c1e680fe063f2d01fb763661af9328210dc20e83b4baaf6065b70c6eb8c53 0x4a43e043c6f63f79a5ffd31eae21e61056d3497ea7a4b3fa60c4687ee08b0049 0xa39e5ae75595c6d8bf4c981cadaddcc30700249a9b002b3391cc67e2dce687e 0xd2a97faa89e9611568a4de6c6f4752525555f9becb7d2eddd33e5c539500e28f 0x4c9fb671a181c767dde8ebced9157b75bf26c20a2200c1329b82946186d2acb2 (-0x1b5fcabe934bceac0cfcbfdd5086f750bb088b9d5b54ab2f26619e8dbe786621) 0x0 0x0 0x0 0x0 0x0 0x0;
  Step 0x0 0x4ecccfcb3a9431c16ff148c1b8d1a269f8df14713c911cacbea401b7280c2d67 0xa8b06e857beb0723892928ef14d548ca114b9d211e5e5aee9e81f6ff236ecd56 0x719d4df07ee5bf8474f47fd6aabf4d1545692af6ce2447e6f5bd594a96556e82 (-0x51f1a85dceebc2ae837c7fa51066b65612696e2e2da6acd20453ad109eb8827b) 0x22122fbc1d5dceb304568e0e936d7db99d5a96752b70020ed9bdea86619b89fd (-0x28d391b93a5981238bd4033872f75c712ff786f65eb951618867dad697708a17) 0x0 0x0 0x0 0x0 0x0 0x0;
  Step (-0x1) 0x48c081330196db1b0a6db9f185c9cd1ca06055970d743e67ddb0795c5038e421 0x27360c1479116a1ebb2a324340e032f46922a60221bce0af08d4b98977670034 0x94302b2ab341309be877dc82d9d5144770b5e2adc61166f1f6d781e6862c7d7c (-0x179b48787426d9d11a7e15217203d919154323f9b930da8294b236397943d5a48) 0x1d0aacadd1609f05cafa65d773988f998e764ce4f5156415baae7a5950bd50b5 0x33afa1a2b43e2cdc70c24009480abebcda2720d06c201b6872d25931afed7034 0x1b7eac40151faa34bdc43af64f52a8b6a51b36f802cbc3078e3f73f346ac2827 0x815005fc0ca59d8523ba98c8d00a8572bb982dc31edaa61fa90266fdd25172bd 0x7f3cba5f32f9cbe3ba8689add35f63e1a86758601dbd70ce822a92a01e0b91f1 0x106468039b109add1f4fb4ca9a139264ebc3f79e5b03c82c8657a30987005e65 0x425e06a17babfa150ea9e7cad8bd2daec479cc84fa08dbc46239fd9d9a0571f (-0xd97ce828949b8d27d74453ab3ad3b7a731ba97ce4a695af70e5772c78e4f53c);
  Step 0x0 0x5c5110763a9edfca8b40c3568f0a6ee12d7fc7f0d0abc16d098f8658beaa6d19 0x92b1810c80bd8963eedacc9193b4ffc6469c40379af86b8b88e5172e26bdb321 0x53324fe4c1aa2499fe71efe3f71cda7278e4592976a0cb7b8b70350cf2d5b32 (-0x925a9d2ae77fb3cde5f48e781acb4071b4df1273cce818ed0c923a20dfc3c3fd) 0x2ec30f1a31336d38c6d203b900f909d856e29610a8dae0d8da618bf7c7a8330e (-0x8cdd56bc437ca8c838020f1322b3e5b265c52b15a766765f05f868e3f472f33) 0x0 0x0 0x0 0x0 0x0 0x0;
  Step 0x0 0x5c137471f13203c72c7a8e05a8319d401382fb4328e727900b170b7502a8dd6e 0x95dd7310cbe6825535ac5961a933cd3fc59b946bd6096e026c504abf108414b6 0xb2602efa32754e2b5709368cb75170d6c569ead8701fb4b874cc28aace811cfe (-0x15cf7a05acb0826210cc4370fe191326a16c2280924342fba51893da224d6f8e7) 0x2e84b9a8c019e4ceefc157bc0262e234e3fb1eedaf21437480a622eeb9ac633c (-0x19a35a0f21c910f8839c19b981f78a8d65b008decbe4aa11a8957ed9138b1ee) 0x0 0x0 0x0 0x0 0x0 0x0;
  Step (-0x1) 0x63312b0ec79adaef111ba17b037a9831f5d6bc6106b638b68ee74f32441506f9 0x5a02d8edb5be3b5974d71e50215a44d42dc8091a980cd4d492976fb5e0208f0d 0x772203cad8f3dd44529da288df16b39c57666b4a67d4cac6a94a07b3e9a196aa (-0xaf898e061e65340865a4b827a2444df10809b6219687588c8755898380573b50) 0x35fc948992c0abd57f53c7106a1a96c773ae0a7dd09b767ab1e2164aa1668a18 0x20938954457a459ac2cdcdd4ae1943eee1407523de5d41bd1f70786d2902dbed 0x356d10461d84236f1aa22dcc849af0e11d264f484e719a06cf300346565c556 0x1369087dda8db6a011f2d11f0b6324f94e85ce3fd41eaa7e914ad854b959cea3 0x89de36b843f3bd30ff668fe1ea98f5ef99dd7d06e4fa31bf0618f93831154961 0x10f5d993755da0396c625275278484061fca0f5beffae51b490130f537c2320 0xfa963aa2a907924c5e08277927b51abc46c6588bc20019aeec7800aaa3663 0x14b24886a512c07d6b8f16b3392aae9a65e60aaf855d624a109b82935337ca5;
  Step 0x0 0xa6fd43df19f5b31233d40dad2e42ecc603b043a49397a7df6e62daa480d926f 0x995e8e06f0379d64acfebec672a9bc9a176ea536cabccaafcd6cec36094a0623 0x78c3e38fce426a9f1f438dc0f9eae62dced8ff30fff0c2455aa727d16b38b7ad 0x996b26afbfcbe5d241b8dea68a6c9c4b027e27a024e3df05abd0957495d2d3f 0x9901a9060a9d8e8d5360394df7b45e27cf8a883dfc26ea6ce1f8b767cc4918 (-0x7abdf51cf2897be0e2fc914f17794b720ba370254a46dc44e024c7316779526) 0x0 0x0 0x0 0x0 0x0 0x0;
  Step 0x0 0xa03b65f090fd7da09b29a4d1f1e2e491e30c54af2a9d287722a750b491a6adc0 0x60ea90e49d71efbf1e495f487117e5e5464eba5174d3d40224a9a013810b9f06 0x8648418af01b251248b39bf26db363dd2c43742ebcd6ece09f4b3049710be78c (-0xaed86c5ed5889dbde8ba6d191e94db7dd16792e283b6d1dfa9b2eed208104337) 0x8cdfc3e3b1b5afe58fecc5d458e2bde8a6bc39665f2d179a658b51d823f7c5c4 0x31a2041a209b659b5ad1ba917182d83f4b9c0fac321b901deccdc7c299056853 0x0 0x0 0x0 0x0 0x0 0x0;
  Step 0x0 0x1aa8dfae56331f416ec21acfe85a7d9f8c7ea0f1ddb34587189ee55b0d04eb8 0x58423f9a3dd1f469df99eb9f321263e6044a26a28f3fc0e78ae4f008759948f2 0x47ac8b72812a6caf7d6de0d86d6f8eafae3ea0f8b5e7a414441bed94f84cd07a (-0x98287518ffd9b15975b7cf98667d14abf54908b2461b3c5eb2e6574a6697379c) 0x3e658f6e1111825fd5506fb5b4c81f99587d0812cc953aa9d947386e44dea 0x144345d4afd805063c8f63e1d5a073dd28f4a4377daf7280a67e4507fc5ee2 0x0 0x0 0x0 0x0 0x0 0x0;
  Step 0x1 0x1554ac77cfda7944cba3467634190a702db560c2c26cb01b96a4d6d6a1189603 0x454a6e79bf924570686010c0223b6c1726f051907572179555125300add71281 0x6ea8656bbe2bd2a3283419402d2b549a23518edf06ece58e51a3738a1ef909ad (-0x6f724b0c368cd29dfe1d3b6eb8e827a7cd00d71a2026f4e50056883e81ce9c30) 0x27f1fad89283522cd1ad6144907085f0bf137972a0480d41c4b9fe70fe55f74 0x23854a110a4e99e9dd6dcd93daeb76fd2d6c0703e7be3628652d8aaa47ff39c 0x641f19046a5731248d9fa30c850ec71f4bc7f3b34364c750e52a4e96bc6fdbf5 0x93b05aac6a10b99d2be7a42fa19b1824c7f5a45688011ab8765fb4ec46001271 0x60631c6131d2f90a0a436293cb5e0920f5761e9d5a7031092788243cba310e4 0x2b2ac48121090955e8fc758615560c36dc0337f5435083c87ae33b92fe5d269f 0x3700c951d800cc4195d8935f68a4f7a9332188319e3791a8e0474963743df472 (-0x2b11ae343fef05dad577580d89a8c8aae6c11b3f68cc37837997a7c96233c815);
  Step 0x0 0xb925cf4a7f0668c1e3611b18f33fb757a4f12125823c81c85eefe58e3df0c1c 0x8025ab468cc69f842ee8b238b7a2d7204e106adad4d3ce0c987374941d59b142 0x2952d9fe8029bacea5c280973d1e417e62d761f67b3d32bc5edeb3c7b795d7fe (-0x16647c69c20a26f1e84d414e4875bcdda2a12ab8aade2f5848f18899e42634e3f) 0xbc1769f5ccc7a06f651a9dda0d8999c980fd7e7dadc7c6235fd2e61af3645c 0x13da39c299dfafbde6ffaa7cc9789a727d25d2ac2997c23d1d8a3f2f76988ea 0x0 0x0 0x0 0x0 0x0 0x0;
  Step (-0x1) 0x9c01d776f3ab1f405889e67aeb5b9fb2d9feb5103a927b598d8717a0b5170a7b 0x42f3be0bd3a2c94f468dd3b110bc966111c10860a412ee6a9c40d06a6db84101 0xa9b32b0e97fd499c51e1798d2f5ad59e7f165cc92b3fe688336ca12673f45468 (-0xc791bcab77821a8c7ed4c2492306332956268055bcc203822dbd681f4c246e58) 0x858b0dd9e036cf89b7119ff7a6a7d32d1eff69a109aa38aeffad6640b4bb8624 0x346222c844d5e3a52270c72e6a164f439e6720f598a4fdd1f9cd3cad977f6439 0xacbc09744c6f6c3b7a2caf6e363be988250edde372a24f42d0435b5002a67cb1 0x26f7735121af5508e607040842ff52d5e0d7b62218a9b80c60de2bc64811969c 0x35c87958513757d901ef716fe0fddd3505f2bbe3edc0e610a6d7be8b00a82ace 0x4cb0c2f2470987bd36ae4ed6cb80ee30d54797c8504fa6dbbceaea2796631422 0xa3b7421e6bb75ab7aaf8bbce74b5b4df3a285c7385a8ee25abe209d3c3590933 0x1a863c6d6b60ed4a60efa36df0dce66af6ad60d072d9da9d717df84ab984354b;
  Step 0x0 0x9b24043fab111e845fe39f69ed9ca51751d55cb94d33ccd9891dfe3c89f27117 0x2323634a112cf66dd6c0819b7f83d9bb87004423f3434bac211c9549d2a47c93 0x4677f2ab98e98e000458d68b6019af8d0f0025e2c8ddcd1b2d576c338cc209de 0x42926000e83bba6e8948143d6e117298edfcadfe8101efe20f6da7ac4b8f3764 0x84105763151802717bb9b2623f4cf0de4444a3a20cef6b4a53c02cb1fcd6ba3e 0x34247c350595c4f8a2f9d08b3dee0700f30038f90000e14d72acde656e5451f 0x0 0x0 0x0 0x0 0x0 0x0;
  Step 0x1 0x135f876fb4f0c20dac0bec70bb7fdb5d028d90b09b5058324751ab8f7950939 0x30ac3a2f541f8d0f468dd7f9bb5eafebfa9317952454a577ce131c8da73d2656 0xaa1dc40deab51a329735e1f1f20ee613f4a8bc733c49566103689591082cfa05 (-0x13634a7ad0584d1820b809cea33140a96310694a13d95faae2dc16ac6676980b) 0x20f3291eac901fa06f759063e161f822a079298e332a21bb3d6a5538e9e19 (-0x1704fe9490c64696498b439d2b3f77cc042dc9610698c826effd06fcacc1e6) 0x1ac7ec132d8e5c7f54a2dae9e76ec64665b1827ac90ba42f7f9012a49ab9dc66 0x75977923fc854496846ee4dd97aab8701b7f4a67343846e14c62174cbb66272a 0x1c88537e8b5e81fbf032a3dd05955488e12dff63db406b1d8509f2aa8eaa1f11 0xe93857fd59827c157bcd41c0bafc001c1889f7ac0adf9213b1eb310f3711fed 0x3ef73a5c6bb218520219cbe02158b0e7531d121f58496198408cd8fafd2c913 (-0xa209ba8a7132bdead2ddcc7b202986602442cc8e163d5ede21167ce13321126);
  Step 0x0 0x79b047dcfe76ffa3fb10b2df337c946ee65e2944750f9201bad3d6a95f883b 0x4ca4a5a07c0cc8b3efc71a70dd5ad5b231e4559d3c18147972dfd6a48471ce8e 0x5c7f2839e48cc1e7063ff35f827acdf78d85db6f80a37aa1ab5ddbd57af7373f (-0xe3782898a5f0f8d674f8f905f4b7b4ec5bac103b5a17653f5f508cb76694920e) 0x51406c9ba189acea8b5f48c9e4473706544e3df111b81089db60c8320543 0x1b57661086b2219dbcb1ce3f0de50a8070007b9afbec008374d801e6e1ad74 0x0 0x0 0x0 0x0 0x0 0x0;
  Step 0x0 0x9779373704211f84b396352fed2e19fefb8905622af64178ebc61448aab91c79 0x6c6114985aed0576d80494eadadfc34292cdd1bb26930c3b833bab934ee03068 0x66af07f18571bcebadcdf051c17bb99e348e9e6a7258c435cab118ed0584eca8 0x390f36ee0b0bd8ef7d1c6134601185dee66abf476c159d43fe58844a11132dea 0x7de4eb536bcb2ddb77852d2580a8a948eda3a50f2c7af1844a9fec64dae5adf1 (-0x1a60768077a7b33bb8a4f4162412fa5a70747784c4b909707de7a64a5ea34a85) 0x0 0x0 0x0 0x0 0x0 0x0;
  Step (-0x1) 0x1eec37ef681db1fdc1b3668d9fa8b2bfee61f4ec49212d20e0dca5bd63fe96c8 0x4669aba8da4778fbe2031c8d032fcc5f78a89ad12265c190331f64545fa8d003 0x6211899246dad86eca59ba9fdb543ccd5d2624102b0fd65ec5403d16acf2d2c4 (-0x9e816ecc5505ef22eaa68b2af16024061b8e607549be560ed1ff1e823068ad40) 0x53f293137cd2e3117d03ecb401b718491734f884b89be52f2d058b67a83c0b1 0x6711cb03c12ba02a7c9dc3a5d7e01a547ba4beca9769bac55dbf1dd9001bc2c 0x1b52813f8eb1b2dd111ebccd12bf6e19aecf8ec9772917137181948897fc20ed 0x95ebbddb976e40655269ee31276cfaa1a361884fb9809e9a88c00c1b0990c9fd 0x3ab75ca4179e292f69a755abbeb177b390bff9ffc180dd348b4debf2282e5d9a 0xb9c98d6a2eaf09d63b600270f9ed31ae4afde1602730c8eaf711426d79e5a1c 0x418977f6b2527e1e703e5b43dfefdb8f6e272383c604899217385f43582d77c (-0xbeb69505d8488bcab920bdbfd5e2a924d1d31016e8bafaf38a138c27413a910);
  Step 0x0 0x1fe944b9285549b0af71dcb80c8d053ae3588626cde3a69d56c0ca6431b02af4 0x94d0e3069b563e9bc4e1936dabc152255d4a31ce933fe7fc26286d2be9696ee4 0x9180fb5c960904fb2b85a31926a57ae3ede0c922517626a161c191146f62d69c (-0x15d6af1a8dddeff03f1bea51c6d1194d8119200cbccb99215060e8bf36fc22aa7) 0x5966785cfd35a91170fe374c020f5517830f6310906815abed80c70f025331a 0x3186d4a8acf11ebe9c24f5ab2867e3a46db9a8069e32a1e4ad43c73ffb1a76 0x0 0x0 0x0 0x0 0x0 0x0;
  Step 0x1 0x64b4db41a8cfc464d4dccd4998d20d837983896b8bbd6094b2e0d106dc9ef2cf 0x2a761e999d952c2803e58aabca9a29de6b13dd5dcbc75fdff03bda52c0798ea 0x51e921ccb08f05339f2426f14d61ebac694bc6d0440276d9444cb254d3d2ed0c (-0xcbbe49822115214131739746dbb8dcf57fcc7369c036d9557eafc8f069b52908) 0x37a5cfa0fc0a2d599bddc30b970d4857a831fcc8893742128708f0cb9b03829b 0x50c3e93f011382b0d52dc58b725d1618d2359d601f85a4bf0039b65d46f6abd6 0x4bbcd11897657e756733b0c154c699414fc2c3178e35d3374db2c0b3ed58a9d0 0x47ce16ac08e2be7917206d48e38bc746bcbffbf1ab832ed1c4fdc08d1b220e2d 0x1b505b98ce0dbdf8ae7f28373f5213a48c025f3849c95070a8103970a7f69484 0x3c58a684253aba98f52b388a132b514d605736d9658cc512551e8066aade59de 0x1f796749a7359feb31c1fa4ed3a4be18fa04818964d28b37d50022c76feb61fc (-0x1cbcb50263320ee2668e3a4c033826548d4251dd0b2fa1a9961f12a0d2157f00);
  Step 0x0 0x2aeda4f19e8699cffe97111a37c5b2e335c8f51024881507df3306d55db533b1 0x1c4b77da7247aed0d95a7100341ff35b482119c8115502f0b733c9bc4658b683 0x508aaf87622a59b8dffe7b0762d560a8c1b25dc88cfa5ff9a5a43cb9b2203fa6 (-0x4801235826d64944902de7301f77918a564ba89cafed67e7d2c908e4ad16146f) 0xa1c91b3960860d17163b78d314824146378f32b9dc60119ac54ce65d4d7cad4 0xa3fa8ef04f8c1b746b791c21fa65e69daf8dfbda4c7bef67fce3d79ff098de0 0x0 0x0 0x0 0x0 0x0 0x0;
  Step 0x0 0x63f2219c39f1701814d52d2681bb3ec73e01e54061606235691bd64cbd2a405c 0x8fab3332d4c161d28cb581e66912c5ab887597e193ffc8756989675f5709e7ff 0x4dc13dceb9b4af07584ad4698a7514b1d7fb89dbf1482d6971c443e94649d069 0x4b28daba05a6f9969aa5f635562f72847355addf0a7a724bf1b1c0aae20cb519 0x36cf6c85fdeed47fe2b580cc146ec115220228b08b628fef8d7e79c381f3ee27 (-0x3f45621b6d53b6eb28686b990121aa4b611c852e680ec180c4a7fb728cc2014b) 0x0 0x0 0x0 0x0 0x0 0x0;
  Step (-0x1) 0x57f0b9e8d0d20b5ca95675b5e7304fbed37325582c57e3e380f6ff015380bc3c 0x26546f1d628639c1c6ff662b31a4fcaf803409b09676d974b4b4487d8baf8ebe 0x49a75e11ab41f07b3a45b5105d2a42dcb795ca60536d26369fc59a0834576382 (-0x108ba3193e8d65325b6e3fd2a1b4e607c96395f7a53d37e02b46b60a54aed2fe7) 0x2a6ef8f0afa15d831b7a6b489191d5a1c48972a487750ec99e9ea4bef2925ce4 0x32d429687583ed47230065c2a1999b6607bbf1d1c13d84294bcc9c5a834d7d65 0x1ce0ffe658001f99ca5ee11c27a750f207c487fb06dade353fbf671675660d6 0x67d8a373c9da9fb3d043c41978d547ac696e9bfe5a75cd4dfd8c93a90c0eadbc 0xa62a2f7444f3a6327633c4aefc2a4e96b8d4bad2041ef380ef02f568b4e0eb02 0x115b674c00bd4a4f60cb8ddd39918ccfedea537fbfb794e0c8293cc84acb32a 0x4937a2df2cd49e67934ba418ef84d04779387aa271f784fb4c0a3e65c4c51 (-0xa61af1541fda0325cdcd34f834604c9f899a8680a888061de6f4e544dea9b8);
  Step 0x0 0x2de55eca7970303909712325002c6bf2939f3fee3d839b284c0e8e8ce01ebd3e 0x1dcb771a9e16b1e0c236439be6a5e0baef1271ac1cfa86ae5fc095c1f99ea802 0x22ade1dbc12affca3884139ab6ed1b4191035934e74afb3907d65ad15e23f40d (-0x5dd31a24aff39d978cb3ddfbc72040506de16a6fe81f586b7ca7fe3771913798) 0xb8ed7628ba403f4f2b7f7e2496de61f6e6422b6e642704e91e7388bee93a3d2 0x12a5fb151203363f4a50e611e2df68189f5a939da2821e840b5e7c76e11aba81 0x0 0x0 0x0 0x0 0x0 0x0;
  Step (-0x1) 0x1a67ee9c956d629e9bf19dd8643fe8527b18e0e895ea3632fd627be8c20e79c 0x38f1ef236f4d8672b9470381875f8c81ebc883da18f75c161c33e4bdccdf85e4 0x73988ed6e9d8144ac5bd5f1468df9fa10504a94f9fb0a7711a40c260df387a67 (-0xdfc187d696646af8080bef6e9c62c7a381f1df232a609edfd9088641e6da944) 0x3d370402b261dbce4ef404d217dc053abe996745581e69401af8df10b7e48 (-0x3ef0b8d9b0f6062ea771647cd34a05b3362151bb574c6289d0368427b2429c) 0x29206c3ddcdc17f67547bd22dd4eec32816c9f7e01709edcdee985854fe08ca3 0xdcd58a82f4b40251e11cf3c09165727798834025a8fa831551e9ec22704a496 0x52fc6d114574c1ac9bc651690137d1cdc17e96b2e929ba31cda8dc6557ad72dd 0x14847f15e8cedb69f5aacb085323e608e5729eaf140bbbfcc3f2d1ad995b6ea8 0x947d9c2f9290cfcfba09ffb8534e102c9023188f9522c1e96eda05a850957da 0x9bc54294fb003ee1baa8b35b7bfb31b3f4c574e158da08d792aba28b37331de;
  Step 0x0 0x2a24b5b865e5d304db1c7ec0f176a3ad907e1f8145075529b4345e18c1b9f832 0xa74a7bdba500bdb9d2eb2dc9410a4e9b7ade8f7213b470df88558679bc309af7 0x91cd4e391569aec8b417462c94bf58e1ddc58da146ac5af7517e6b74c7baa10e 0x233e5700b9320c8af0ee1e23b85bcfeae25c0d7e4430f51897bad1ac432771c8 0x9bec69b618a2cd4142cada5536ab5d1c758c4279086f23ecbac869daa54a9f5 (-0x237e20100ccafab474bf5b3dffd6ecafc28ba7899ec98e3dda1b8af726fef8e1) 0x0 0x0 0x0 0x0 0x0 0x0;
  Step (-0x1) 0x383a28cf7d93d009e3bb095fa7c0ee0d48573784314ebee6932707eaced8827a 0x202af21840dbb3d2e55c042238f7bd68c870d37bc00755e66e3a5fb10b0b153f 0x61d471bdad80b50b5e9f8c2bbc5fda7eaf675fbec1436030d25081aa9a694590 (-0x172b6e9f743c37de02ffe638a993d32f52b7d97ae848efebd0ebbec7828bcd2f7) 0x1158d7022b3e8e5dafec28e40138f633d8e2e109ee9e99e40dcce1fb4634e883 0x29b01202aabe7c3d9445708c8df9f087314b57e76b49921dc9c8ac235085b3fa 0xa0843da7d072207c3a0af1c34f3750ca110ffc14d7fbdeb3171a48dc1e30829 0xb43dd7f32511b0905d0d7a4d09de3cff70f865f5ba99f68d6496f3fa8440f5fc 0x968f17bdb59dea7e9f73446cf808709d5c72c8a0385d180e6d29a222e3ce326 0x65e6fadb298e5358efa912bc270a492c232ceb108d3418888b77a8f17a13304 0x8d5ff6b3a8ebd6733951aa382b418f6bdcc0795b91c46017064e3aee0e18ad (-0x826a79989a4245ba85e3c87bfdd4f539d77800cf8ad47aa72228f0e3f3fefd7);
  Step 0x0 0x3b459999857246daea2458e904084ef0b331897a0e0ebfaebf47a47356316854 0xaa2977b654729f47842040fb5c31049b4efecc59e0b79724e7ac9efd6ba6ecb8 0xa48cc56882e045c92b38a17e491c366e58c9ae5cb6ba1be3001e005fa65ee (-0x210a52c28372c9cc40b99e9c9a71545a4da44c04106ba05b777a0a1b0e8542040) 0x1346cd64ad185eedcd42bfcf590866a492152ddefe747dd027be4a3973198460 0x347328664fa4afca3a16a8be593edd2f5522fc19282db4f29be57006c053aec 0x0 0x0 0x0 0x0 0x0 0x0;
  Step 0x1 0xaa2a7f26d5dcb82c17956375bbed3f84a5f17533493dc3a49d585ecac01deb89 0x1fa8bcc7fa2d1929664962f105fe6b9afdb9a11deaad411be031c9727cb09c5 0x7e5dfae4ab463461df339c9b9b82f1018fd5ef9ace02fd3503ae6977bb216727 (-0x1dc8d5996ddc634fac658857f6c576f5d5606aba992c49a6ead8350327c90af54) 0x9ee21b4a270aeff1443636f6c7ed97a07eec9f290238556aeed567c1fad0674c 0x9d082f9bf15779fd04a359f9de59c5a3eaae3232759e8a275f86921217b201ae 0x8e37d8aba407f467eade7053f55804e8584f3cf7f1c9614a4c48bca2f026cb3d 0x2f082ef69a474069fbc1987667ff2e1c7e5fe09f9434d2411b3fe4f44c7a5cd1 0x6268fbd1eac33e13e084ad4a3597d9162ed5c3fc187d08c6fb12c80da032a0d1 0x71d7f8785709d5435c1f73b771a44e7a7f86b567bde6462d7a4fccff0058143d 0x6efabc4c2b7e10142b00ac8daab6b6cc4e5b1f9ad82fd1d450768a0ac0fe8c4e (-0x23283bcacb205e8e003c88a14a18e89156c0d806728f3ac7f05c25a8d6a9c564);
  Step 0x0 0xa65609a0322dd29ec1342f77eb83056d8d816f6a874cd507c6154d5e6172f15 0x11673578fa82081c91f285898433460b3d33848cb589f4eca38f1ac076b3b1c4 0x5d9fdbd546079cc363e1b53d3cc8f26122a21169744788e8c246762c36a5a2fb (-0x192f3af9c1c91e8597ab54d95851f375310b5a7c84b23362b3caca12cf99f54d) 0x97cfcf65caa10222edb2a7d2bea3dc0b6553c40d19f40751cadba340cd420f 0x1b0aa9387f6b7f8b833c21148727e20656a6817ce5274e93efc295a6297f369 0x0 0x0 0x0 0x0 0x0 0x0;
  Step 0x1 0x8193bf8ddfa111d40867919a2487db409dfa92916e02828f1a3628a3ed201071 0xad49dde248d84fd3d720040d3c3d357ea2a7a860c9644f9c49b00fe324de0752 0xa8dd3cc86b8c024dfde624d5d953b6cf5921ecaeb622da2c0ae5d236cd6c86a4 0x80255147b2104dec23b362e99d8e352557755bfa4788360cb372f9cb0d6ec9de 0x5c20a364d24424b4a2b2e527b157a1294d77c9d5cbd627e88cf50dc3ad7cf5d3 (-0x6ed51005fd23dfeecca13f37eb5504fb90a9b0fc49d6b40a8805ad3e3a90f011) 0x1977a62fa00ee490089f94bc02d3bf8c7712159288d68eeb02c2c3f99c724445 0x59132d68bfbaeea545ffea09025a48869149937f992732021f38247947a64928 0x210fd76f7020a2a7edddb012a3c16ed65b84c458bf62ce5bb2ee6ff1dfe3426e (-0x38d65e9bd950fdf736bcad5d7e919946a2d59a322732efe012d2dde662b54d7) 0x38f0c1f37abe319a93e15fd09ab55adca7c9847e1959199dd585d5a6362a8ea 0xbc495599732b00e6a9346ffa6dfde75713ccf4a4cbb17a2924f8a157cdd1540;
  Step 0x0 0x7e393c94c16d82dc3c55a7bbe7067c9cd74c4cc3b3668b17d6e077425e8dc4ad 0x573899c86d5c8984ab6f396a827dcc5ae1dd37fd5c662f3e608236ab8fd57a59 0x73a4886d70c333018473db92b6340671884074056f1216e30ecbe786c42aaf95 (-0x54cf630aa5e7431ce4b611f49af0af2a3af79cbc14fab8e8af036addf3c8bea4) 0x576ba81cbdbf125bf5427b1f88082fb2bbb1f5b8a851fc211850d40163f68540 0x148af41158bfe0aca37ef3e6e1098fb44be709bdc8f751042e77d1eb8d2c160 0x0 0x0 0x0 0x0 0x0 0x0;
  Step 0x0 0x10b07daad6160c6b1647c79187fbad84862265ea115c193a6bcdd0bc0565b4ee 0xa6a738a3a0dd2a7f89fbe6ef3ac5df2b92d9d26135bc7a6df1577e88fd9ec64f 0x77fa4ceeb43fbaa7d17d52e390317e0234557d0c63b69e03fd7c932bfd260935 (-0x680bff0232655d02d5f8617c1e711569cbb77a5666643e6a0272a745b4a28593) 0x1874019d438b441d4098e704eb04296b672683a467fa92fe9370b78954402bf (-0x74620f888ab7cf38b8bd8471c5d285c8e52c2e33787a3520c6fbac86bde6dd6) 0x0 0x0 0x0 0x0 0x0 0x0;
  Step 0x0 0x960291f51ae3ef5613f2c8b6f6e3cd328f22424c0ed6261d91154b2aa9019193 0x2f8487e62083f8d0e22ba1249b414e63d374bdfa3a2d33707295b3a4eab86442 0x3ed12ffddab99aa3689cc977584c3611003036ae9c9baa715c515af018ab4f6c (-0x103aa84fd26bbaeebb2437355a6972b665857c931d6fe15a51041301c88906869) 0x7b792b4a90613dadbea8cf2725eef6d82b36b6d799d2ebaa186075b235bfc1fd 0x620f7b9dda10e806d8037be116d358add5613834041187b898e4cdcfc716a90e 0x0 0x0 0x0 0x0 0x0 0x0;
  Step 0x0 0x4be787de6152d6e40fabf9cb74ef7440b01255419fa9ca0cb7cadae17351217 0x6591ec50c3f554e7a660fbd84b0e3c76f6cec0e8399ca64b856bee4c108be457 0x2f95124e568da69fec9932df725d2b9fe043eb732ddbb51d6300642c1e4f2fd7 (-0x21e5b565c88780147b0cb8126533906f1b63d7dd44fe7d4cf83a31bdbfba8574) 0x1f9cf19e11c0243ddcce2493d244a4b6827037c70372813cf79719dbef83ee (-0x16831179ab01fa347cc0fc13bbe6efa012c0bc4888895961474bdc39422789e) 0x0 0x0 0x0 0x0 0x0 0x0;
  Step (-0x1) 0x710aadbce07d322d546ec1dca22ad7a7f73cfdfd3583f0543df06f1abc75b140 0x8197b1c6d1eac5e52d7924d6057b36ccd81b28b50d00e889f3dfa4ed47cb8b52 0xb23c756612f704c925199af329fe5e478d6a7cae79121ee863b494755bfd6181 (-0x6ecabc49d51c33aca5aa1b1229c31b4eb5c7346752786e520e4e62464e5d5e6f) 0x461d65f0eef7b0c83af36e2c77a7dde2388755320f60e0d1be5d90f0aa13ec00 (-0x116193b4b4fc36dec43311d8d63508f3849b465fc67c6b35892ba37f6b49d2f8) 0x449002d4bdfef3cd79ad2a1bda849a285461431eb1bcc0321563b1b936907d8c 0x581dd3c8130863d653d4e4c338fdca5e641ac9e568626c703166407669f9ad5b 0x602a4f411d3b038c6aec27e982b70174f166be482b2ad626fa4b8c6af6a1d83e 0x6dffd0bbd579d37453d396ad434d0008cc3ada177e82c96ebf75aeb9af92bf7 0x19cb1356523911abe280d8ef5d11de8d3b8858e5ab908b6da56346aabe4facfe 0xf9a72726bd7df541084c32c0867502d43321e0332816562e39de45490c051b9;
  Step 0x0 0x7b8b69b0487beb9f122137662303ff88eb87299fa735424c55b0722830701e3d 0x5e1395bf41c30f959a46faeaf9e2ab0ad15e7e7b89a3ef86a0955372901a2d72 0x8b77210af7a30380e2e17d6f0b018367976cbb926aec2ca4e734fe89d3f472bc 0x29127600d7212fe0b41856528b9bcca31f1fb07711fee60328db7b104924855 0x53bfc177842f881039eeef49166893d1f307d534cf1b3739cc5c66c675c445b5 (-0x40a49e05f455fa2b466a5c1cad86dd93535f48bca67a30c02aee8834f66e259) 0x0 0x0 0x0 0x0 0x0 0x0;
  Step (-0x1) 0x7c61a63f792103a5034d02acd9a9d2ad97ddf4de972daff01cf992400f1640d4 0xa087bc7fb4fc109d3505f8421d3e311666da2289c1e9db862e8e5eacec5e5ee8 0x29412133c6bd6133ff7ee804579e970e46906abfc79647fcb1d85dc726475dd7 0x2cadab0bee45b60687a44e4771f20fc2749bfe8d7dd61e51483e3a077f419ba4 0x54e331efb215ee65f8b0f89acf8f75f7d935ad0187a42a4ee69c12b0b7cf2814 (-0x2d5a6727402671ba9a9db7bac3fc6dd575aa9cba7a38411bcb3ba73d86cd6567) 0x8827a4d6b94db8c9ea777eca3dc0658736079cd4199f3999021287f3228dfe95 0x30370205dbe4b21d07f6d2b3462242999a28a7a04fdfc2669c1e33967e11ff41 0x16a508c8ba507db4988ef08b1f0534b608e828cd736681758af1aadcefbfc45d (-0x975d0253efb7e14323f926d9082aa3bb522589e4303daba63087a8432e31882) 0x65b7dd46f9e3c2c55657ec9ab0bb33657e9d0749d83617f82bd5d92a33eb33ef 0x53e88398237f58dd7b085f84bd38363f975a277c8f8d78dfa14e22a3886fd02b;
  Step 0x0 0x61702205ee6053030e2821002bf7207c254c00b1ea02da2cb60d451262dc880b 0xb5f332ad8bb403207e7915e35e4ae2189e99cbe5903cf5509caa05dc9f2493e5 0x870806a4cd4abb0eb89c0f38d230c9ba2f813a0d6abd3c25cd1d8425a23b0366 (-0xe0d8333a35ef14ba50fe297d67d1bc77dc27e29b19a2fd25767b74996f04ca9) 0x34181d5b58973a1234ba72196d7033600e50bb3d7e800ca1e8321852437deafa (-0x4780039250a34f0db43445b48caff5b06d894ceeb58d1671c8b5fea4eae7133b) 0x0 0x0 0x0 0x0 0x0 0x0;
  Step 0x1 0x3659be0c85a6c0792741e6bb22596a6a2667d64e1172d27a32714c1e3cccdcd9 0x9b5e2d530f8b2cb1da6626e0ba61944f8ca0a3d92a4b6970209118184c5dbbe2 0x1caa4a2d82e4181e435fdcb5f5b51c78e855b7d30d4d522b1a75a906a2e1fa96 (-0x1d069d41064809fe88d1c3a3f0d3543ba5edc960845e39543ed0f2ee36e625a4b) 0x10355a710ae7315f025b81ed80afc907035ccfa79389e781936ca18d3cf83c69 0x7ed6452a9d3c0f2dcd79568347f743a45ca7cc32466d4e636566c90dd1efbfb 0xd70570626c4e870a190fa6238dee62513d726c56de7316b8b99b175f045c1ac 0xa410543838531d22bafb49d7331a6bdf225483f287c02d00c9641c683b3035e8 0x4e804a4494b0863a669bc7a61370cf0999f8970f43163638e609afdf7d613f7f (-0x8d96e01d93c8f8846aa31b3ff052c0be7f72c44bcd4447ced696e37f91e20c) 0xfdaf6c59bf5e4374e168b0c3b5c007fe334b1817d799457588da1f25af2bdd (-0xa42726d910d25472738d5e3a2d1f4d7d2ac164080f0d8fde9f0344badd9321);
  Step 0x0 0x96d40913a174a40d89a2fb179b927c2950f3862eab912baa5807353e396ee17b 0x8ebff38aff363837c7782048f7243984c5fcd9d7367b26ccb1b605ae1bd512d5 0xb832206f1e6789a91cb3f0a297e3f02e7e65c9eba4f3907482f61ca75e37fea (-0x13924ba7d18071fe01a7aa4fdb7f08d2ed95595ccc86ebeb82ff997be0d15fd6e) 0x7cd2ee73eecc6ffcca80312a34ca106b9fcea464a1804b5955104bdd8b32f684 0x11a3a4a5c676f913407da156a8844a778eb4b51d8cd3c14ba99564b37fbf9218 0x0 0x0 0x0 0x0 0x0 0x0;
  Step 0x0 0x5fa2d27daf91fbacc9cb8114b9165e95fdb372d7a945eed65d2f49a8cef40330 0x9baf7e285c71fc943dda9b6d6913030824fb26dd533627f993383b3398d807e1 0x19958018e8904f39b02baead9cb31776cafc28977c5f510baf0eefb5d75e5dbf (-0x14359a005708254fadd6e13718791f81c1650536c251c960bdb48be48f849e387) 0x322f67fdb1f20452ab380f9325b2d9dd1dd98fe3cfc63af3d16057f437ae8f59 (-0x6c9bccd0796dfc612f3fda608254f121c0ad09373ac7e57c07d79a924b383dd) 0x0 0x0 0x0 0x0 0x0 0x0;
  Step 0x0 0x600787fe968ccd921529dc5a2f3047305e6e30bfbabc08df670e7366baf004be 0x28ee918116eeaefabdf5001e6b4ea709c863edc88e9c65fe417223f886708c39 0xabcf0b8948265db5003519541ee9af85a0d867e147a559f01ef79f7f311e61de (-0x17404a6db2c7a17fdf73d259d19bc1c46ea4b6d5504e4888ec9cb84000f903aeb) 0x3299516cbb9a9236c4a1bfd1c36dcba0abea75b3f49721a50376d68277e92f7d 0x3c7701ba8b5e14f23d20c68643385f7473f611750b913cd874ca0476c39803cf 0x0 0x0 0x0 0x0 0x0 0x0;
  Step (-0x1) 0x421a23b9a6c556c1589971d758d8ac67b11565ffd817c23d6ae3763339ce84fb 0x2f8a34ee554fcf41b98461985bdb1269773390359655baeca9940ba59c1ece92 0xa89efb678055ecbf1142ad09b82930c8aec99a69e8ae33ba398cb15f0dc10900 0x610d1b254b04351a90071c4652f3d42d8e2d41eb0563bffe61141c04bdf05815 0x17f9a9bd47e79dda45f949cb4feedd248f568361060b79cdfe55245c72177b79 (-0x2658ebb49c7416277b39d79a79bb017a27fa6351d4cc19508032a647c1b2275) 0x967b5e71f125ddb44b264dbdc097a96b072b7afb4834c83b861d9b181a9c4a5b 0x2e6304e78e5e8d1cac2a34427807d2778cc3a4165c40ac99cfa7e0d005582a2b 0x8ce6295ee2778099edbf8feca0ba184fdf60007aaf3a74f77e98ab1942d48a7d 0x52d6dacc68bf3c9a07ca592dac1e3fc8bd3c734bf757ad612f2bae4cd79d7feb 0x7c405745c2674e112268a4cb7ff368a7e3ac1c1f6388ba3868bf529270b34ceb 0xf3bbb9b1ce64df3ec069c557c2a978dd110e5fb39ad645c0520389296c19a0;
  Step 0x0 0x2b30c5fe4d44019ef19cd6f09e43c3ec886d946d1788a3297bc7ed52775eddf3 0x6c9c679a2b8f19728a216f30817cd85d3a10c9289576a204cd4afd7788116171 0x66332a6d31e21ffe37750b51aa49092123808d5883f6bac78b960603da430cf 0x1f5cc8d2075943c09283aaef4948cd138deb7d15994530f35d22447941531d9f 0xa3c4a2ca2052b1aae18044b3e57dc67ffb2dc4b2424528641be3854380da80a (-0xebf069eb243f330f4485943ce01d1c4f2802a097990164be3b81a24b286c816) 0x0 0x0 0x0 0x0 0x0 0x0;
  Step 0x0 0x75ec204f0396d092e101c9d4d8490bf4170f74531775a9f45613cb396bdfe486 0xb4c30beb0fe7f0c7fa8a1195b13a66ab47702a5d2ed5e965b1686ecbfa8e9d07 0x739b1c806fd4b2609e5c3e5033fc4cfc7adc60e18c59cc97eef4c3ed3cf3ef6e (-0xb9e99d1e6a50040b6b6d1ee46dfbbbbaaf33afef4304cde0c23c2b48bc186ddb) 0x4c4cd059a02309c4fbc3a176c0353b92439c8486447275abbc1a033b00153817 (-0x2eaf2d0e7697f32194d7ed472c29b6c386ff692e0ed8a3f5320c5fc81b3f0395) 0x0 0x0 0x0 0x0 0x0 0x0;
  Step 0x1 0x9b573eb9d5a5be922a16b7c804b5a3355ddb50b524b8484bc7307e7a9ae476e5 0x65a46a967b884ede7c0633889ba9cdf08838e5d2fcfb27e350e6c6f7dfe6884d 0x962672800df11a9390cf1524520be012ff06a8eefdcc4e70548fdf339eef1fe9 (-0x154c8d201105b7785d71756d72d733b5390244d42c49442e807a98eec90e1cd93) 0x84679d3d108b12fb566b3591ed803671b0e1e885ef218e2ac655a7a8a25950d6 0x43700918c63a76cd5e4d41ee5ca70d12825a1f282e78337faed4c8e1efe7f527 0x7259c69ba417d157d827f94cfd749f6d233c594b1471ab818ca8192fc0b12695 0x63a89417b3a7404dc982337defbe5bd9850e7087c102a836355cb421a6af6919 0xb5e5c29d3b6133e2dd1de0c60f0357756bfe2a0c257d0592992d8cde568695ec 0x1d00dc1cba3dcb35295548a4a2dc78e861d14bc6de609d7c5791ae64dd79d69f 0x47bf7f49d4bf231e19f41ec6bc3bbaf18301af3eda44624d337f58f19b77132e 0x13ea318403968aeed4cccfdd07ffdcc3e33d5f39af2032cf8ffd4b43a70d85b;
  Step 0x0 0x26b03dddbf7c0367182656b9e9afc31aca5305eb7d7100359ee1a61997519127 0x642af12c2ae4d48df2a36167698758e3aa5e2a5d47481bdeed7afadee5f10a1c 0x87545aafc5542ce713be1cbb9a186445d84a346b6143115c6eae18f299fd44bf (-0x56426e527c334a094f6a37b6e0800b464416ac3b1073053182de445335faf507) 0x8367eb3083d9b4f8eefa727fb5ab2fdfa0b86c26744cec49542089073e11b9f (-0x1bac83627e861e85c6b9396f0a918c6796de50cac5087ace61c7cfcf08f3a0) 0x0 0x0 0x0 0x0 0x0 0x0;
  Step 0x0 0x5b196e906a225d42d58a367b13a6ff2ee5554cd174c5132d86b7b47bbec37275 0x92ddf381908cf7d4685ba207a2c9da2e0a23617ca839fb2a137923e6bd76d567 0x88d0b766ca2e09d42653a8aa023a729355874cdd706ae7bd7c241baa52c83be1 (-0x1ddecf355a762bfcd5a03f61a0b1a2bc7815013428851fcbdcb5b2aa0b1fdc22) 0x2d896ecd0260c856750beeea8aefb8339da693152de1227bf8bd0eca2c055e62 (-0x1757d251f478132adaaf9ea7a6f6d68254527b5e30a22dbf7a4ab18326805833) 0x0 0x0 0x0 0x0 0x0 0x0;
  Step 0x1 0x7eea767c1155086044bfeaecc5c0f42fd44344692a3c777583a7569e7a880158 0x4dea79b77f13d47d7550b098beb9cc0cb0199b2e9bbcc68acfa424afaca8572f 0xaf8998f08f6d0a4935bd6dbadfd88fb41bba583facd696634020ac6168faa5c4 (-0xa4822ec6903be26ddf10b46f1344446b72b0689ca622bade36de256403584d9f) 0x5861d176f7a453389857d70f09034f2ef3b3d48f0f35dd9e479e77ec9e6f04bf 0x300431bc76c2a4dbeeb117293ef9604d56a104f73aeccfbe785cd18002e6c6f7 0x75c1431c0d48096f7e64dd1c1dd6f1082b36f609037fb33cd030a60890540391 0x9dae2163808df1a92e5e4ba5094e30457f88fb001ef1cfb622d086eb20fe0d28 0x3246e8b684c0953c1693e3d00370d8801cb6d1486f267536435e95b25b028c05 0x2d326124423b59e2a3b8c076dec2d035c95659e38eaac27cb7f8f45a6426bfec 0x4c1562509f1247501d7359607c5433fff0e5d26fe65e754990df8c4491c21d31 (-0x33897f89f5cda113fbedef1b6be9f3a1f681a42c1c3876f0a58177a68d941aba);
  Step 0x0 0x9fea57aa733ee6a4b4af8625638775b8b19b6a68ebc5d1eb3ac78c67abc01614 0x3e901390e30c65911f379df48e22df40492eeb92a88b192402f4b486b95d43a5 0x71ec22f92b82c65b6dba4057c3973365580cb6a5c3ab7faf17f8168a0f145950 (-0x141097cbc483013c7ef45042e2349a368bcd1d91e0a55d8977fbedd98d3f89f58) 0x8c51612721210c9e66bfb1a6274e70a1a0966530beee6df4928bbd896fd2a8f7 0x5375f9285e0d0a3288a361b98f2d9970c711753373b407bb8559db81ded5bf33 0x0 0x0 0x0 0x0 0x0 0x0;
  Step 0x0 0x74d4df483b7b1a54a0f22a7da80d13057cc9ac022c4a440e20258eeac5d03dda 0x93de051d62bf718ff5ed0704487d01d6e1e4086909dc3280e8c4e4817c66dddd 0x94417225b381c0ea72f3463d99556b8905d6927f201acaa6d9294e50d9129f67 0x51a1648c37932f5caa8354accf12c6e36ed7c8af25736659bd5fddf74752a219 0x4ae51c3f40481a6ef4836b580094e7bc2d84952f1a958756530318490f812f01 (-0x36af3be90c040520c8958a49886035eb2fa3dd6e566f1d95175da408e645a6b3) 0x0 0x0 0x0 0x0 0x0 0x0
].
