(** Certificate for the order of the SM2 base point: the affine points met when computing [n-1]G by
    doublings and additions of G or -G, with the slopes and the quotients by p.  Generated by a
    script and checked in ProofSM2Curve. *)
From Verif Require Import Base ProofZops.

Definition sm2_steps : list step := [
  Step 0x0 0xd6a6796a27dc312621ee1d7807d53f6f50deb90e13e36666ba6451403bb1c3b0 0x56cefd60d7c87c000d58ef57fa73ba4d9c0dfa08c08a7331495c2e1da3f2bd52 0x31b7e7e6cc8189f668535ce0f8eaf1bd6de84c182f6c8e716f780d3a970a23c3 0x11d6cd80f81a9b5e9badabd304c2519d600d3f8b4fc759d131c1e2e5c0ec83c10 0xb3fabf3fdde018ae8b11c6c6c230d119ab7a3586127dbf7325ee158cbb960de0 (-0x1e380dfd5e1b5e2882e2747670d8a7457ae3f364a6717b3578c57493fb0d2b0d) 0x0 0x0 0x0 0x0 0x0 0x0;
  Step 0x0 0x17e021789ef1ed9ec506f9ba33bba229384f476f5c75b6707bb4d0c32e74636b 0xc239507105c683242a81052ff641ed69009a084ad5cc937db21646cd34a0ced5 0xb1bf7ec4080f3c8735f1294ac0db19686bee2e96ab8c71fb7a253666cb66e009 (-0x4f09124c394fa03cef9d066ed39ebf371ee29a6771c9f23670d82169e1bc2c39) 0x23a0a3e463ffc20684142caa30690db7211c7346977c77eb50b4561c8f25ac0 (-0xa04988a7d8bd1088592011163b1877b16a3712bdbe2746cb993e93b5aac0173) 0x0 0x0 0x0 0x0 0x0 0x0;
  Step 0x0 0x65ea2030ab7144438852944b7c35697255cfc01dfe1aba9d4fcfe4fa492035ad 0xb9c3faeb4b1610713db4333d4e860e64d4ea35d60c1c29bb675d822ded0bb916 0xc519b309ecf7269c2491d2de9accf2be0366a8a03024b3e03c286da2cfd31a3e (-0x12c8a8773f350f11e9d9e0d929a9e07f124dd891cb837406e06d0d3b579fc0e82) 0x289293856cdf92909040f1428c3d40b7bc88c227a8296c2ff05baf3a35cc3fd7 0x35e070e389d282d30ab856179080bb1ec1931edfe054b6ec202fc382f19bd34 0x0 0x0 0x0 0x0 0x0 0x0;
  Step 0x0 0x3cd69ab3144bad2d8d82e82f98a39c834463428456b2208fbde56366d461a775 0x35648233f554ae51bbce44ef5db3e419ea133cd248a93e2555645bbc8704fb68 0x4d7ac60f6d975ef6117bca9ce885dd6154b1870a6a651664411a9a30eca2046 (-0x136b802f76f3329dbe0315700a6e3068a4e0f0660b006431b044a43e779107703) 0xe754c6b00daa5ce53237ee442a150593b0d6763a9f6f57755458e4244e8921b 0x1f75581808aea3797fa74c3c7f3e98844bd03cec16593ad0e32270ede0de07fe 0x0 0x0 0x0 0x0 0x0 0x0;
  Step 0x0 0xe7898e699636224c4d62603458e31bea0b320c82b10ead86029143510cae635c 0x25d3debd0950d180a6d5c2b5817f2329791734cd03e5565ca32641e56024666c 0x92d99a70679d61efb938c406dd5cb0e10458895120e208b4d39e100303fa10a2 (-0x18a5e2cdd4bc15ac6fa5da2935a056183fe5b9eaf39a961f797fd2b7def60793) 0xd16988ed1abb4ef422a5eff217fc367d4f900df08524ed1d00b9210a968e142c 0xe13e0907dd0b7f3486d951310b7bb8f94f3af29114b0972f08830ee2d293258 0x0 0x0 0x0 0x0 0x0 0x0;
  Step 0x0 0x3763ac95cf9320c99a99ad110d56564ef1bf8c2d451dbda31a2a214ba88939be 0x97662389f36ce643a47dcf644f700651e988794843797b0c4a69c806e78615c2 0xcd4d9449aea5cac5328b8d67d4ae956f5eb06c4515ff01bd17eef58bf866b33f 0x2ec711777ee4fc0ac90cd17b70bce34f1d8c83303e31ea72efbd1efc3611e435 0xbfbfaf75b656572556356acaf803817ca044688aa3f08d6761f15256d6cb996 (-0x1892a4e9768f79f56ec0b43d2611b9df18cc298cbe94de365d59f3e0840ef44b) 0x0 0x0 0x0 0x0 0x0 0x0;
  Step 0x0 0x6e6f70c3a8be8c5b61e72c47f3c7e5f0d4d0242497202f0584fa7b4953f79a36 0xdbe264a2ee1ad8805b7ded5404d3fa8c94a780beb0eda9d8ce05418c9fdb0589 0x3f901c7848bef8e09f71be1267cec822f60062c177a572777aebcd67079987f5 (-0x5b7b8a73f8fe2867d2659b72baa4d7ce24e9f2d4272440c50cd67c7a69b9358b) 0x2fa3f56b4fffd478cbb5d3ed09a040c576141c0d98b4112c94707d5479ce2da9 (-0x1d8b3403c75babb60dcd139b27b76fe1b30d580cc3a1cfbb64b3c98527d67ad2) 0x0 0x0 0x0 0x0 0x0 0x0;
  Step 0x0 0xbcb6587d806fcf667717f655cd067887f354d2b4c29deeef4581b0765d5fa542 0x32a499f45d6d059ce9f95e03de5d9678462405f2ec37fddbce9cd33d29a59885 0x8fb93ba219f0fa22eab902f42b28befb799106a722c97755b7a7c4ac40438c8e (-0x1d8e12a851cc5322343c470af3f0ef43d988af04cdceb72626321db32cab40264) 0x8b1c53dad0c9b147c19d3554c979e307cda83c81a7b0e64c90ad9bb063b17e93 0x7cc1ed46fcdd38f135908c7ac4b3671e10a9d50014db3fad0288a4207657657b 0x0 0x0 0x0 0x0 0x0 0x0;
  Step 0x0 0xd4a5aaa456573819ab27c90488592d393375b0f91b9fd5f062a874e174a6c46e 0xc21239b06a82a68f65b2bdd6b571e366839ae78e6885ba355c27fe8e7eed5abc 0x350fd6832d5d8a7150dd06b95ff73ea8a51b08789892639926426a1c44edf006 0xd0b6ad3b7d9870d5452d02cd1301a9dcc6a6c4508a1b9550122a130a0f826540 0xb0a2cdd649393b59b12a712ee185c77d01a4f636630466a38cb11d05ccd7ec82 (-0x7723998b04dad846202e324692c5e6382c39dbf18e728f01d792801a099cf3ca) 0x0 0x0 0x0 0x0 0x0 0x0;
  Step 0x0 0x4dc1d69a151e7d3a101bf22c2133d0caf4da59b74d31a3ab2335edbb2a135e32 0x33fcaa4055c87aeb61c022aa2b71259176e1e9656957f8b1d1952984a42c160f 0x67a92a7c276d6c81f9a8906e4ce8d9742e04362a29622184f2f3f62c4902c505 (-0x1992300518552c8f6ff96a6fd58d91ab161341e0f911cc8298c759aaab157fc2b) 0x179e2dde108c5538339330011e19ad8532cb5c68d999278e819299361bf209c3 0x2b2811818f7c5c88a57f73a2621e989500397f7f963b57451a1de10d6222c541 0x0 0x0 0x0 0x0 0x0 0x0;
  Step 0x0 0x40ca369b9194350acf3a33ce561a4170b481768116730aa5f19b480eadba7957 0xf29dd95946735ef9e2f258b581de40804d8b0d26beb0ef2d8d82279edb41f35 0x4f196e37a79fb5c6ffa942d8c58917b71568bfbb7707cf3193893418172f05f0 0x14cc68cec8ec0218563807285cd65be569c789175d6b497b2714d1ff21c71b3a 0x1065bb081257936551a5b98d5ae58822e845df99dd8aff1d641cb02b141cefc2 0x951c95b102558f446cdd80afe60ef331bcec23517f53494e2d9407afd5bdcdf 0x0 0x0 0x0 0x0 0x0 0x0;
  Step 0x0 0x6d6d126f8d46e23fd32f0760821bcef44aa695756a110963b9aa4ba0b5b16325 0x528dcb8d80e860359602ca421aa4a41baed8345f8ed38aea8a017bdc76ffc624 0xb1abb72b46da3b76f83220cde8ab6637bdea0abb7806701f9a762a7150726cfd 0x40ed4277409f893652cd84bf82d2d211dbf109f6c36a0d715f15738970f24b88 0x2ec6102be1669bacaed6d3e7b721526fb86ef11d8a09812a85c5d373c0d86135 (-0x1cce42b9635144cc72ed23a33b55142b1af780102ad7c902365bd66b18a1ff88) 0x0 0x0 0x0 0x0 0x0 0x0;
  Step 0x0 0x813c3539413a42fe03521182c718183f8bbb696ff749263fbfb71fa8960981c8 0x6a0648890192e2aa7e4e0784ab24f335c95c09597429a11c7d1ac6eedf3d71c7 0x94807b00167be83ca577d4b85131e5f5ba220b29f5ab259e9f2ab43c574a70ee 0x63853226e92424006871ce3cfa6b4c6da5126607a7a1c4bed0e33a4b64cfd9dd 0x413dbbccf2e1c8709599b25377aa6490c35588f4271a53b50355d3b70b61d1cf (-0xbd93c194450249c3a76fa5d42667b98823c40123fc6fca3804807b549dce7bd) 0x0 0x0 0x0 0x0 0x0 0x0;
  Step 0x0 0xd13480efa48ba0b28efb8261087639fdf13d640c9dacb6efa113655b23892024 0xe6a673aa7eef2180af18252f1b75dab67a6984a32f85525e4922262d13a9821c 0x7b2491f56bc8b2c9972926ff1122abbd74dec606e9c06cb87806edd756a2852e 0x6efb15f43cb1b3499260f39e48769e6e6fe06f6148fd787b4124d2673c4e9720 0xaaf6c54c97ee1f49b51aaec8464ed695f0ea8e3a24f3f6b4ba37aa358f93609a (-0x65d852843f31b053f07ebb604f630850398c62d80c61456ee23e075814591df0) 0x0 0x0 0x0 0x0 0x0 0x0;
  Step 0x0 0x3f09977322a8149b84a8184a02b91a4083f6ae8c64103b895fffc0427b60dec4 0x60a9a380525dd8905ac4bcfddaf74d4ebdec579c5e68d45fa4ab5e0b2a35430c 0xd66000fac9ced98e16665a96b6b5974d55d2e0a1ac916355b6cc29b6591628e4 (-0x232c95216f077ad7c83a3913d22fb364ac22c86bb853fadc9b7948765050e5d43) 0xf85b8e6ba45e9872883075923bee3454274c58e48def9e1cce8929d24afc134 0x20fe3c6234ef7e03fcc8b74ac2917ac3dca7caffa5e32800ca3dcd1fce0885d2 0x0 0x0 0x0 0x0 0x0 0x0;
  Step 0x0 0xac053077d7237b1b8cd074027756ac563b22d22bbc92c2518c129f03ec056983 0x39d99bbf92f69b5bb118be112c2b8c73b3541bd290bed320312d5ca67482d023 0xa9c3cd42271b243c2994db86931d37267f379746714872942b875a20cc7cbe33 0xb29ab121e0a4c7d7e05e8e815f7a94c95ef768b739a92310027f7f08fa74f855 0x7396f93c6a8a36d344c938f95dcd411e99dea03be9a6ccc3414ceb03f6529d32 0x1a148e9eee377edce7d35d74c2252cb32a19e2a368ff6e0bc4f660a1ef9388dc 0x0 0x0 0x0 0x0 0x0 0x0;
  Step 0x0 0xb5894398730cca57f8011326a745450f06162af359540884cc633ccc800ef7c3 0xcf0c46b0be471f2005572c01d47807c14e296824a48770bf2f23ee35933e4717 0x7b751753196de8ebc24c5dfd0952a7d68148c9b90080041cd2eb1f233d544184 0xc98d0c7a8943012cfe8c4ea7a28e1dd7304ac433fa7518d4c820f0e343aa82a6 0x80bb632f7e6fc401fa178cf2d44aab1d9a806a800b9408e5cc9f6817732608d4 (-0x69ccd25f845cc23f3bafe711ca49dc04aac7d049e90b19fa457a2be62c45f86d) 0x0 0x0 0x0 0x0 0x0 0x0;
  Step 0x0 0xd602f967bb4d28bb66b07d0bcbd9faa25645ce6f28a49693cd4dbd2ce6d057cb 0xb0be744f06251460a975946e2fee6d9850f857b5a9bfa0a13cd4e958b1dd35b9 0x232f9df87b8df8c3dec7d5392ead9007199e1fb9720c83301133241b67590148 (-0x127f3ef599f4dd7561e55ec205f01ac92bbf356f0e9432eca99c778a368025328) 0xb2e8f902f8a7dab545a1abda3723927667e5acb0d676194be3a3d2ac4c5e28ee 0x195567ff6721f991a65ad1c57337521ff732ff419f8d84749912a0df5f6d8b42 0x0 0x0 0x0 0x0 0x0 0x0;
  Step 0x0 0x944cf398d62b2be63ef29bfff301d19c98378020a8bc9200f5b62c487f178a8c 0x9a6582348139af0d0387aeb3a39c0ec9b3cfc7749cbe9aaefde9da89b2a8dda8 0x234a32a7d7b88db8655028fc0b53037fbf2f59a7554eb29347f019dbcfc35cce (-0x1454f12f64960364abc9f1f17873ef3106df6f9f7a055ef8097a36549cd9aa7b0) 0x55e910ca9815a703dd5afd087aac724b03d4946814d5739aac8d40d9fe400c8a 0xcf223a306fabb2bb453e1817a11ec2983a072d915552f1d8e75f905167c0aca 0x0 0x0 0x0 0x0 0x0 0x0;
  Step 0x0 0x670e68597c83922f43573d3d98a9fa0d8d29af8d4c002a51859ad70ceaf5fe31 0x528d42bdd74af9ccb8e581555197280b1df17698e506ea0206f4b5b644608d09 0x22dc58c3cf90288456d6ab0b0d751eef245926acc4732aca05589f0bcb5b0e7e (-0xfaf12d10ed4d87f65cb1b89cb8b083f00a9a54b354664ad61795bb0189fbd41f) 0x297c98c7c000eb407c2e40e32d43bbb5563a0662529f35f13627a71f8f8302f8 0x1cec0ca54ab05356abaec7109931bc8ea142a1e2552470984aecefa9411e3add 0x0 0x0 0x0 0x0 0x0 0x0;
  Step 0x0 0x537410f8908a7fd2fa20f4a73def0d78cf417de7dafc8558a850de73f2010c76 0x1a202b9abefe35565fb12b935ebda7dde8d79922fa0520ade1d64e56bef8cd77 0x6967b93e4513278f5ba564f36717008493f61afc9cc0d19299b81165d1c26fde (-0x3921e83e2f0922fd25b35f7eae24c3ee2b2de74fb216ef688e74eed7c0f06d38) 0x1b3477a0ab514770fea376b74f7946adab622e71eae47b7722abe42f1632a125 0x1264f3ac8a2959ab1b0aed4e081e511b5ef30d8171a8f422cf5d4d137ebe5910 0x0 0x0 0x0 0x0 0x0 0x0;
  Step 0x0 0x40f10156fd150187ee831f76c5a7f707489161150dfda3dfd0638ae1f3dbe63e 0x53ad2d1fbdbac7edbf1411db43aef64f9dab3b4efd03652d495c32969586b50 0x84c55c0b13dbb73d599f3a7ac81fe23f16dabf60a5f1620cb53b5a673d59299 0x2d7aac5172135cb28521ed3b962677e1ad26c809a9c7f261a06b16bc49625068 0x1079638f14ce31691c5171f6f0dc4ad02c903ed634c29e541f3d9add76228f3a 0x54d0236ca2253d2dd2bd032cf561c5a0c186cf764e26bb0be5b8f7d74343305 0x0 0x0 0x0 0x0 0x0 0x0;
  Step 0x0 0x9bd9c37ef026903ec095dbf514cbbd29ceb6db21153ac9100e2a937794c51610 0xdd1ce9c96c69de4386c8b2dc72877b7aed31bea13b137101aed38689b13d44f9 0x3d33179449fd804bead5b31a3bcffff1140142a084740d51fccd5d96c27bcf4c 0x9c880ac0ca1afa726d6039eb946d70d3f6ab9e7bb843c3a75ed296b04954bdd 0x5ee16bf9182de0d1a6c3c2aa010c6f0371a5c75ea71e6a755db9b0bf0d675a99 (-0x836d876a0f9c4b5582fb8f10a759cbba794d07aa8eb64be17a7997106d9f7d8b) 0x0 0x0 0x0 0x0 0x0 0x0;
  Step 0x0 0x66e0882411e2c4ab488b64314f986984a8e0acfd62e0e0b411c97aa57d24538a 0xbdb80209762066bbbf48338b0a121bbf2c593d2432d34f10608a9a79434d1e8c 0x78bda5af8714d0187990e3b9aa443c61d9bc25a6960b343fda7250f8a3b78fc4 (-0x20bc0bb74518c2c1db9f23e2381555546d3a5451522c434731415183bb1891760) 0x2957b16b6f1e0b1212a94717cb2feb7160b9f659bca89cb90dddf0ec47b4e21a 0xc9dbd53583697a84be4d8bd0a422eaf8738107f7c2ac92a10bbab45a5f5514e 0x0 0x0 0x0 0x0 0x0 0x0;
  Step 0x0 0x5bf1a07794ca7031159f0983307fd1c49d61d5ce4feb6d655ef89f8fcde46eb0 0x802725f4f3ed580b9bb46dc7849882b8a6dac9052bcd9fee42ed9aed861543b3 0xf334dddffeb4112cda1e50b7d2bf3bb27f4cf904fc0f2e5eb0315cba690f2eeb (-0x14f10e59566e37b1eb3e701d02e5d7bd2b3eb523853a921c93a6a6210d57ac7d3) 0x2105ac24aa896ee7833f8f91961b9242535e79436be03090e2b8e224d353c7cb 0x161c9a31db5edfe86c6a4a69b0eaf85e38e78423113c2ed02693ac1d48130b7f 0x0 0x0 0x0 0x0 0x0 0x0;
  Step 0x0 0xc43376cb81fe2d4e89d1d374c6b5a69f755c82356104d1c063ef265072f48d59 0xd7b698839ea285948815a3ad839d37fa78743df2a256b478ec71d451b13c9708 0x941fabca137624b1f94635e6cf1bb69f19c4a7077c1dc63bca812700133fe46 0xb45538b2e467dfa1644964816b97238b11f33f30671ea90d19da3b42319a1012 0x965ed840c1a21684ced8b38cf81eb17b7771e8855062ccf709b18f0bb9b3f57d (-0x431b6deb0a3df93d73b5e6549d186c7f05182b7341d0d5f183de2416a5270942) 0x0 0x0 0x0 0x0 0x0 0x0;
  Step 0x0 0x819d74ea3f702c34480a802136cba39096fd43569336664cb7c1aafa0d434137 0xa11c3324ff6c8404258ede25feb6dc1396c9670b5d0c668a8f32a33b1ca05c53 0x13cca2bdbebc956e18d3c132192b3be361196eae48c3086c7de5b199ab720f1f (-0x217ecc12c950a9b6d273b8117cb7f31e085cd7e5433d70c7b1a5d4fbe818b7d57) 0x41a010acf2460ca58bd9966dd5f6951e509aa04f74229ee6367ffa27b5b29092 0x1ba562b4e17eb22beb7e59732bac17045dd0fcf029f04d2ea30c21d385ce7b82 0x0 0x0 0x0 0x0 0x0 0x0;
  Step 0x0 0x798f9f73f5b4e06598a0fcbdaa3cd18fb335c4c948c97b8d1738fc429e2f19e1 0xead4fb5d2ac47ec1dd2087206af3f73eade18678d283fe2e62c8a9e4b2f1e313 0xa35756332515aac09a89c825254ad7ee703b3f01f009c65818da9ec6388a15a7 (-0x11d5fc93117d53c9714e0f02d8d07b4715ef8a6440636240e95519b6c63b159c6) 0x39b9154f5edbd13f75b8083300d51baf6c9fa514355c135d13c373baacf6e3f8 (-0x2301b2c5affd40bf03020048a5ffd9338be08ba70254d2052c2a9d42caf3ac7a) 0x0 0x0 0x0 0x0 0x0 0x0;
  Step 0x0 0xe88cd74fdbec76a77403eee9a0999c54a4c7453845bca8a247237bd17548b6b 0xe5b872339b4aff828a670299e6b3a53c28f7c0d8fc6de66e40d2c08bff99c73e 0xb713cc4a90c68b79aad69d5b5325e79bbda4a46a4b56f5cc1f71ef51abe8e79d (-0x273b205c0ec33c6a6bb3e69e3b8c2ceaf00a882cf21d68a81370523ae30f75962) 0xd33f93bdc64bf1bfb7e6e4ba2c7a468a2097e91a758be5fa39f15e61582eab 0x4a4ac3540c99b4e09f4443d762c0759e6d56344f324afe48b7c9f9d29eb43d 0x0 0x0 0x0 0x0 0x0 0x0;
  Step 0x0 0x422a5ae31adee3511eea5b1294421782bd3c733f45aa977d5627b32f20fdd256 0x204643bbae0b27d5c5ac0179d6a5743fc6cdee12f4a73224b455b45dff711a97 0x50023795ad369e5fa6b4c2867d4fde9ef777a811a9d93e24cbe67edc6f15f8ad (-0x20bc7b9cbe45a8aab131fcc6cd04309ca26b97da9048c61090a8228ecd342d873) 0x1119dddf1dbe1494ea3b4445813ec0c3f3588ae9e5300fbc422f45a313d7742f 0x33081ad00b2e5bb313f33aac6b210cee3791f08fe3d2d1c67c3be5282ea8e230 0x0 0x0 0x0 0x0 0x0 0x0;
  Step 0x0 0xee97bec7a0811d36a0247119e85782a6f8f9f8d3396266057726c6c6ccabed16 0xbf341dbf1411dab6418af392252e880ef2e0da1c22e229c077432b283aa64dfb 0x4902f215fd29fa0315ee40528a0efeb1bcd101d35d5f453459b45922a0be16b6 0x88ee0c9063a4c700d00c67c1f5a0fd979eb21e69531fa048d420e51a34ddff74 0xde5e80aeaa7ad93b4769accaad172428f6b55284dea1d002d913588a9292c545 (-0x941f556bcb528c491fa0caaada1fe9c87d117d4d1d73dc99b502b0fa9539f205) 0x0 0x0 0x0 0x0 0x0 0x0;
  Step (-0x1) 0xdc584a5d3426080f079ad51cbd2a4ee1a562ed0b64a5c2d3f2baf51fb05c6450 0x3d251b54e10d581f71e834cf86896c1051e46707fd55865668a88405ae53c1e9 0x87891d33fb98b4d85931f6831a8d8c11eeaf729853e526fe1884d5b0eeb19032 (-0x12ebd0077c1be3e163c890c6fa6317f477e131ca7c7a0957941481fbaab8d8578) 0xbda7de4424f71a586f487751e1acca205a7a3c37904463704b0e43afe2d1c4df 0x6ff1c10438f01cee968c66fe7afda444692347acbd91d372e0981712c074d948 0xc4e8ddd319ee8c6323e304700600a1f2f34bb522a5e26509de6867dd82bf2853 0x529fae93aebaaf4830d8e87ef896c6b568a219333fb2b50c96dd870330bbad45 0x9c5a3bf93c67caaafc63b34daa0b4493b402cbec568ad6be2f52d36bae693d1e (-0x7fb43f3f62cf7960d92ac73bbc9e5cb52ecba5b12e9ec5ae6c28f0938222ecc) 0x9775677ea5ffd7ae88e38f09ed57c9d1abd43980cee60858e62b33929427d90c (-0x1085626e1e3a0eafd7dda26ffd2930db372e7ad182ae45e5b45b7ed88cc983dc);
  Step 0x0 0x7e2fd54c389db33cd30375dcb5e99fade456543b5ed6f2243b3176f9d954491 0xa75bdba20992ac8cb70e11074c4d63fadd151556df37933450e0e8df42ad59df 0x82df15ceda33dc3e55e1ec44a69062b141a2e7170d773b3adec28fb2fad7b483 (-0x465dda47a7b4ddffca0271617286b8fd2703b82f32345364b4f3f394045e2e34) 0x3e331ee749a31227101af84298d17256bc8c62c54ca374db120604e6fd5a48 (-0x29c473534c351e11aed1ece35736966d50e06e48c90e5a247f0652d13616325) 0x0 0x0 0x0 0x0 0x0 0x0;
  Step 0x0 0x2690ecf6b43af311735699c93f986fd4804cc09be0e4a9d9d5ba34a2e17b8d4 0x32c4ac3e63e58e1f7c772e0eaeb6d8d9279d4d1201b1ba636482a8cdb7aa0b4 0xba8e235db6be80dae11b2985990fc92822b879c6add48239c01cb62671e21b3f (-0x145c4060f8c350e97d2667b5bd506ad5d8c10ad65135761d33f453fb05370d838) 0x5cf5864b43364eae66921949290b7f45ce925b145792685f0a11c754be4e2 0x18bc023ca1c7a4a61531352a004b3aa8d1b569fc01d0f6595cb252d24c49026 0x0 0x0 0x0 0x0 0x0 0x0;
  Step 0x0 0x27d2c1151afb621c3525986ea46610787babe9b8accf9fe3b7dd2b2fa6792e5 0x7f1d09867d89f2e807d32c92d45a0d24802a63fd312cfdb6a60b53a2622c3a29 0x80c7882bfcd643e3340f45ec8bc4a1b930bbc4220f70c30043d79c0f3081ef79 0x3827356fc417f3791b37b52bbde631688a60e85551e3429ffab6041fb09e0f7 0x631e455ccab9513d528e2be4c7cffbabbbc656c155080f70339794c917ab8 (-0x1347b606eb94d87336906b024994e02b94bde13cf898eadeb57580c9725f59f) 0x0 0x0 0x0 0x0 0x0 0x0;
  Step 0x0 0xe487ed7c8fb37bff10b51bd416d7c105efc73f59cce9bb43cf1fa3e679ce98e9 0x39afa3a7474ace53f6e9afdd3a01e1f1f7faed9ff6df17fd17812ecdcc2fea2 0x57f0a703b9f7859c758c404641d10897682cc1edbe5d8f0b78d6cae5901b0a05 0x2892b3b3192fbe0b25ca3936f08fe0f3ae96510dc418d94662bedc03ec4a356e 0xcc02673301a98a0bf8902906375502b429da28d9352a81ec17384e3eecc9eee3 0x6e4169c9b7ee31e7ed316fe3f548f45ef92890ea95ae7a3aba51326d22dba39f 0x0 0x0 0x0 0x0 0x0 0x0;
  Step 0x0 0x380dbb2fbc44e69528ebe954998df7846c55bea84c185014ead9993aebbe5b38 0x3340cb701b11cf3fef502818e5de7fe26513596d20236d553f9a11a8f8e724b8 0xaa5cca0e54b8d58c981030e8c0ad1d955eb76151d764934fc529d2463a0ae036 0x265bb90ef8df4397414018ae4f63290dfd8e500ee0effc66547bece9be09ab59 0xc4602a17a5c0c757c0944444258d6d7e5d3fd8877f7327ea938e91e5acc45bc (-0xa6ed40668e8dbad12a11e572dbcb3d27894f90dec30031577f6f2e6be13eef5) 0x0 0x0 0x0 0x0 0x0 0x0;
  Step 0x0 0x31052c606fe3d5b2446cc754164dae57e246b66d77853ae7a9b460fdb0322ad 0xfee7d52b9a7ac5bfcec0ce120c162ac0d59be8f6f940c9f678889c22a8ebe2bd 0x1bd33a8ac8b1deb2943abe32cb28b17457cfc2f15fba1b27f3396f12a364c343 (-0x1ab4bdde8e2a329112b41aea3d709675673c5fb10c92049a2fb8c47f9f88943f) 0x962fb17b7addc96bc131872afddeab939d4cc2173371ef98bb5d0c7f9c344 (-0x26ff166da85e37347d89b87c29e5ac0b1c075225da0ddd35bc062230d104926) 0x0 0x0 0x0 0x0 0x0 0x0;
  Step 0x0 0x30e391c6aad318e2f1c1ea43ca1bdf09de044dc8954318fecf29f996a5dec5a6 0x4500830c328ab3523fe1be8946686397b964e48c0c7e4c5700007b3f6973a8c4 0x63dc4913c0c71cc043bcd7a8760246f92912cc68e5afbb93a8ab0731fac55695 (-0x2eed1e8a35f7717b0ebd4eb35d335dcaf078ba7280c37a0f237f61b2da1f59a4c) 0x95620f662bae4597294fa23678a6e532adb299c37f1452604e03c595aca869a 0x2380a160235105226bbff4e70a2810191f7b9e2125f4bfa2f4a0928c2ea9e562 0x0 0x0 0x0 0x0 0x0 0x0;
  Step 0x0 0xca28616940474cf176583ec2e50a0321a205d04660442aff578689bf626059ab 0xfcb18c6b390a86a2c779e9f739d4ac8d24c3b97f374601a8d594fc65015f2aaf 0x4d43269115eed8bb8def34bb6616323109aac7c53deed4fe026a99b853387975 0x65eb503af18fb3f4c2a8719e3986af4ce71658bb704a8252678643ba48783d1f 0x9fa3c0194f0949ca3c315c7fdebbf05c16453592c9531f7bab0536cf889e23fe (-0x910eaaf49d51d0c272bbf916d0993b82502a601f655ba384f85237c6a967b4fd) 0x0 0x0 0x0 0x0 0x0 0x0;
  Step 0x0 0xe694e2e165c8a995e883a65717cb04e43aba937577c5d6c3033ff8797d45694d 0x2c46e4dfe42732edc1ff7e57dfd2ff85271ea140eabc7be0349c37ebd894da70 0x4381b2624352237d8a8afe76ce20183c640eb2af9f7921157fe4f4635c4136eb (-0x2611b8ee22d241a8d1706135cd37dd554bccee9c9c13d98545cb8e969e5ad5f82) 0xcfafde44f044dd2cc204ff6e729fedcb6a75866f7395618918f09a44ba80eea5 0xbbb908e66f0e0d6b13a5ec6ab6e323a07595d27e6258daa62f7606720bbab66d 0x0 0x0 0x0 0x0 0x0 0x0;
  Step 0x0 0x99fc93ef61a348aee9ef34cfce3b222b01d9f26b4c7ce0291e8c9a3350237509 0x48f25487bec544109feb9d88a5cd5840de5d1f74f3d86c958cd60b43303fb61a 0x62a181188670cb229ed8a652d90ac1c62a0cc1c480225cd30a27b10dbb160fa0 0x3a3ce5a94a367dce081bd1da47bf2a9e5d4dcdd30574b222853b7744e69e2877 0x5c9fe208141a125939ae4ae54b4248bf135b0d5c58169b332830d7760b7230a9 (-0x113ebf0e8c3c49bd9e6fe51985bfab8b3b5199443471cc6171d7998c95044e7b) 0x0 0x0 0x0 0x0 0x0 0x0;
  Step 0x0 0xac30ec9a9d39efcb2ee933287363ad81bcf3e46d34a756502bacea439226e4dd 0x203dd02d1773a8a25011d51303e983df66d7afb9412d6ecd5d8f1934bd9087b2 0x294af3baf5f7eae1e0cc6b51853c888c12276ece593dd68e2017577d70eef2f0 0x46531989b61159f90f13c78fe7a2860bcfc88864a1bbf6938030fc2f3392f5a9 0x73d1c749cbc006811b5e36e0ed1d7e463100fac8460940cac212fd184bd98d1d 0x1b611064d4666065e01445b0928ff11ced6fe7cc0f1c320e34ba103df20552c8 0x0 0x0 0x0 0x0 0x0 0x0;
  Step 0x0 0x7d54c15c172f09f8d6500a5bb635a2f08f02c29790e3d4f449316d41cbc174ab 0x8c7f6f3598509fc5e1eb2082c8ac731c8afcce76a275e4973b042e49a8c82e8f 0xa0eeca7f675380d74f437e81ff384ac3e2d16b600ccd5c7b02a582136b21afba 0x1c4000acee15108c77e80cc0e412fa3685a2f804de26af718c884f70f3459aa9 0x3d5be0e3a27b0394c803aca73d8ddfd2c4f33a05566f8aefeee922a4d2e7d3ba (-0x34ffe1f3f4fe68e3cf899321b299d6ed2c5412b909f3682b06bba97dc289c3b7) 0x0 0x0 0x0 0x0 0x0 0x0;
  Step 0x0 0x145a8476a64f5ff75fd98783bfd45c54ca504c1b08f3be9765821ca3c245bbb6 0x30bc208183ad7583c289237659eea7ddb7c82dab2130908ca7c89753a7601b70 0xb6dc5dcd135e04b06498fa9d6db13c5d17ee974520d20520cb8e7c1f8338511 (-0xcdbbc521883103c95e549521e783f17fa4b24d37eef969a72282b5e2c52c7cd8) 0x19e44b3f3922e01acaa2c176a83d34b790d6f4810134400a3ae56a46731132a 0x74bb44b006fef4ee01794aef0230b7713fd36c3b4d50d8e864293a1b804f7c1 0x0 0x0 0x0 0x0 0x0 0x0;
  Step 0x0 0xab11738592ee1d3b92f3caec86518464ed7b9b0f455a6f0ecde86fc5e77f20c5 0x7f7f4ac26b45eb8493779714cc8fdb48ffc91dc2895b32c30488234b7f245a11 0x8ab7c29b03948e01d8b1ebe782fb35a0bcb815766bfaefaad327238cbe58fac2 (-0xc8f0e1733fc1751798e6274d8e8e67df6540ed0775198b6e50a9e7f709a992d) 0x72505185707937e6d6b6ca1fd0ecc02e6ef07fa602e03903139f607bc03cb958 (-0x34a1bbba22389ff70f741d53f30f5bde514e475891fd8c75eb80243c5ebc2e48) 0x0 0x0 0x0 0x0 0x0 0x0;
  Step 0x0 0x9f7fd070401e58f0e64396a5277e16321ccae184d023c8908603fb22acc6b977 0x24c6e56174b22463b84bd9e8b0bf38c77fdc17537e252e30e6d7883412348bcd 0xe8cff4ede5dc6aae6e43481245cef48ce0f938a3323e1af8411db1d0670eef7d (-0x11a3da74a6612c9b9b6e2d65e294d1977c7a06a888076daf45c1faa12dd5a4fc) 0x636004bc4c1beebd444cd3f69da7177b3d66598d30f5ee23fa098db3be0c0a9e 0x3885d24f5689eb895abc76abc186462f9e58861065fc15275be75ea8fd47e4a3 0x0 0x0 0x0 0x0 0x0 0x0;
  Step 0x0 0x490db4e497ea4f50836cc0a498f0cafd1f8978e2e944eeba0993ed20467026f7 0x9946940a60b74d6760d25b5a24207d69c9a4e363b1a7d63ba882963fefaeb353 0x59d2485b41787edaf2be5bf282a2bfd8d479780b31241f0f779d7116aee6c5fb 0x7505e6b21e22ed44f979a04d0955ab7b78d7e8b403c9cbebf70775248b958742 0x14d8d1e6528622aebeb441d94a1112d72dca5541e7ae4a4600f70c76e209889c (-0x213ea59bf8c85fca42afb4b9a39ade0730369bdd398f4cfe759641c628b0443e) 0x0 0x0 0x0 0x0 0x0 0x0;
  Step 0x0 0xd3ed42520e76dded4b672187b379fde035e8eb5589ff29f651359892546a514e 0xa6e2a0d5386e4e62b1c461013f6ea8e7edc62652ddc41c5d7ffd9f658240c990 0x348ce7a251ffd242934029cd324ba42c9fc49de26f278a8271c2395d7919141c (-0x7e9930132e35812da975524e0c1b66a09afbe12d815ced0e80d3dd1f9471f43c) 0xaf70f737d0661ae67375777d0152ae39102b776a2393f403250f7d6ac333bc72 (-0xb443b89aae704c84ff8229a63fd0baf867a5e7cd1eb81f727722225bd321253) 0x0 0x0 0x0 0x0 0x0 0x0;
  Step 0x0 0x86976ce441bab36515d691fda92d118509cbed37468381b911c6e7e0bb01ae53 0x83071fc5052ed8bfff024d46727f60486368541379e6cef1f75c5960d535d192 0x13390b3df01d7b4d6f29fd328e83ff46fb147003a94708eae0402949b2c44ad3 (-0x10f1e6633ee75d194676c98ead9d5fe9beeaa9b1c6dc2c59e6dde379ab9b6c72b) 0x46c2df90df2940990012d24d397edcc5cb98e9d6d83d0cfa74cd483bc45c75c9 0x12da1b48416237b7bec04e90b0be22b85cd1f83714531dc2bbe2a1141ac25395 0x0 0x0 0x0 0x0 0x0 0x0;
  Step 0x0 0xf83d8466fffe18e667040a2de851666ccc1c82633f5c9fdae794565145aa5398 0x82461c6c3ffeaf05cdf71d6b4963157836884f744c5278ac728b1be2420d53ec 0x2f730cf66ffcb8af50730342197fcfc01c2f1f40cca9ed80aa166e1aa5e7490 (-0xa3e91d4a27bd89dca40554a3125a8719628bd555244e9a1e9fe549567dce86c7) 0xf0b73f50de43f0162bce7f62a65edbc302b7810c65735017d09b8610db4d0cd0 0xbb299f9f4aeb7adb65b1f6ddd1649a11915a32a82dee17abffdb06ae1f52d3 0x0 0x0 0x0 0x0 0x0 0x0;
  Step 0x0 0x63c041a1355b887bce0a14b1f89764b653c040bfd24892dceaa8c982c336d2a4 0x6f1898e95798a53b214a82aca31ba363de64cef64b55a5e6c9b3cb7fa35fdb7b 0xd15b465d00ea63b03f1ae8a7bdc2ae226dfb25367b873f0824de1f817f432e53 (-0xc49234265ee93b2c302ec826f1164363f08ec5442b83a371bca1d65bd890f3d3) 0x26de432558c65a9e7766c75703e998f16ab5cf72e7177d437839fc10c4f90a43 0x77900e8eb89fd3102cbb59ae4700a411f8c46b9a841f5e33623a353baddc87f 0x0 0x0 0x0 0x0 0x0 0x0;
  Step 0x0 0xc92ba16f53e47ea6f1e304be39f45ef0c91c6938923beded1c07a0a50162edd8 0xcb6b47568b7e2e3b96d79da04a56c918c63504472fbd871d1225a92052fd9011 0xc2eb277db4168983c63a66163933709e8f4fd912dd21ddb00f4d2938a484b0bd 0xb865ac4d28cccae549431beabd53ee644856d78cd624fcc97c07c55487b12d38 0x9e158af11105c08507e34752be82b2ca3c98622db48bbe3af0e6bb98f363a0c7 (-0x488ca70f78711c095b4889760f1d4ca29827783b106af312afc3f85af78ce460) 0x0 0x0 0x0 0x0 0x0 0x0;
  Step 0x0 0xaa3e7413ffd711f3c2e82fd155e0ba202d612f89c70f2b53297297fe4a75027e 0x94c7bf1686451eb47f6cc3d5aadf4a196d1fc64611dc902f684e6e59fe92537c 0x92199b865037eb3e88efb56112ebc7af1e58b34cbc43a35f16acf7bf1757848f (-0xe1aa852b23ab1f0ea89ff7b946654a05d56f1f786b691f38a15a95c3f21b8aac) 0x713701676f52b2d6c22138141260504928816a8c04a726df19984fa6855b3d9a 0x2455ecdc05c9ffffd22c484e5290451a0a5c72ee02cec405d40e1355968239f6 0x0 0x0 0x0 0x0 0x0 0x0;
  Step 0x0 0x141b9f6f9588b5793e87912a9f159d164ddfa13014fa039fd0841647b9326313 0xf81979a1187ebd43088313ef27496b1acc1207d62c981ed7674686cc9b8982e 0x33b8823d01e071a7c73edabc0ba860b691b1a38fa14ecc9c2989cafad3a90313 (-0xec732ab80237ce902f8e1c249211be4465c0afa8c045a8d311de60f36f635b0d) 0x19453e475c707788471cdd0e06e7c5c065969f7c0bd658d52852f7a77198bbd 0xa77dc7c9781609cbea74b0c92300473f8b08a6b6c561d4f1684452ad82c76d8 0x0 0x0 0x0 0x0 0x0 0x0;
  Step 0x0 0x399d8d19cb23939ad04490c13a17237e2859a715ce52dae76f40aa4ade4dfd70 0xbdbbba6846f3d1d03c1226271de06b3624db7ca5aad4b49cd6353fb594533421 0x55d1f0e4b7e978cd7c7333b30a10acd5ac9615ed160d077726e7928b8d378dc6 0x14767f3816663faeb1e9a2959531e8d3f35601bc30005389b10ea6d7f85fba29 0xcf789cbe8d5f7886434c2c969aa49d3f71fbeaec4451dea1063707e777dd37d (-0x27362b6efcab3e60d1466d913763eb36eb3f3af2d53ccb96bfd60c6a8d450dd7) 0x0 0x0 0x0 0x0 0x0 0x0;
  Step 0x0 0x43ff17ec9d3a6f454a1c597f5390c62542ba25fe8394605dd52afce84b6742f9 0x66e6f9b7f6d998c4d692082f39db4bdc2552cd196f49b15a0d1103320ecf952a 0x5130e3437803567ae07d226966278ef57da845a2726e74344b970f31e13fcaec (-0x178454458f918d6cd922647f1b0b2078721b9becc91d13695c11d32fe74759e6c) 0x120f84b697f9b4514d1a848793842e1441bf141f1bcf9e54588e3c685b92a73b 0x171034778a6ca15e14bd9af4f5172bca42abfe52be6a7fc96e54620550150c73 0x0 0x0 0x0 0x0 0x0 0x0;
  Step 0x0 0x21494906ffbdb2dfe07719867d793b70b13acc53b961aa99c5bf75450496cae8 0xea748e900831ee4d129dad1dbe7afaad4aa196e5e119dffe0129a33c5f35a042 0x7f865297f7fcb3ce9fb78451840145b343b2a0555cd2ad42bd6b654a21e96f74 (-0x66f98761dc046491df3dc07441653bf0d4bcb05be11057e1523d7b10a1ea7b17) 0x453f9ce8d15ba277505fa16bef17d0ecad7b3ec527f5b9ef6452966d421d856 (-0x111ae9165522db057b271ac68d1d5865d28ce45cdf26acc0559cb54bbb8bc7e0) 0x0 0x0 0x0 0x0 0x0 0x0;
  Step 0x0 0xc1370ec38f7118e68ee7f2c42f707405a78f0dadda1daa9194f338246348bc94 0x663adb846e65076239591cc0b2d8a10ad71c9bf1f52a646710d722cc8c52dee6 0x751ccae90838a30bc0e65edb633b1e42848acb443553b2b6d978b4618d285742 (-0x1c3ac7a1e0e96212ea5f1a338fc0e59da314887ff21377fb4ba35ae5247e78b17) 0x91d4101ac8fe335354ee09b11a489b7021a254425b5fd7d80cbb4920349469da 0x63cbf001c4121eb5cb80541793dd1f9efcd6ad0dc5a19ae2b65b68aa481a6d86 0x0 0x0 0x0 0x0 0x0 0x0;
  Step 0x0 0xb4cc4cb690820d1ef619bed0b42efd1403db8cf265d8f09c5a91bb40934a8308 0xf2a496aea43afa63777450c616b9ab089218ec08f39e938f88d2397daf0acead 0xdd64112aea05f9daafcfa041e1ab44bbadebc39f2e263c74c3b3feb82bf0f9e9 0x2af28c0a2ee66a2fdec9ddcc030441d60809aafae552a8e81a822674fe4823c9 0x7fafeeeb94da08a30a8e10fa03719d0b688380dfbc4560d3c602a2eb93ff5c39 (-0x632a65eebca621722f265ce0b6ef83283e14b38ade6e4ec81060fbfe7cee5b9d) 0x0 0x0 0x0 0x0 0x0 0x0;
  Step 0x0 0x31b5213a0c05378af73ab37347781979aa815f7bf9160434b9fb2b5197a9d363 0x4bde2bddda1c2ebd87223d71345bbe8ef46faffb7622f26321382a0b913155f3 0xf6a4d893814bcb462c6886300f9b365030ea8a124abd0eb4967999733b19ad64 (-0x25bf92c9239fddcc47e8f70160fe83af6b7392c4daeceaf7ee5235f6814dcbd7e) 0x9a6d6e042a5d9c6cb0b678014efa4868b9890ecfe405ed03865ce595e049b04 0x2061fa61013e978e8c5141e74e4e5363e5d04703a49ddac90b7924cf34a5a95f 0x0 0x0 0x0 0x0 0x0 0x0;
  Step 0x0 0xe5f502b67cb48a222866c5cccac3ab2f91bea360fe6138f4438d537c47f0830e 0x853f261e25d5b466c8b6ad926ef687c76d1f3f9eb1bb40ae9affff09f4106ddb 0x63c3c044be2685a51a3f6364f7d1e0e008315ad1acb9e750f76e6193045d7da8 0x177a73cadcf1ae994c963f24b00f4dae981159e5ce8201818eca78cfa8be07f08 0xce9041597afd4e135c42d70107eeac6743f726945ee8013c71d2fee9551bc4fd (-0x338aaa46dfa9f20e83f906e2a5d1fca0e115b70afa9952da2fabd5506d99ce44) 0x0 0x0 0x0 0x0 0x0 0x0;
  Step 0x0 0xb0b8a02e88724bf50c77461c7185d1b40335f799ebfa4bcce70c3cc814221259 0x562aa1826acf1bd164aed65092af82285d3bba8ed5be6cb536f479f68966ef62 0x9d254e4b1525d56761323164cd9884dd3af2726b3f35f512380f0efec8426954 (-0x4652f8f1bc7f7bd3eafee764f09f071fd2b895064c0fc3d9a7fd5e35a7c052c8) 0x79fe61671cb9e1296edf0c67006251d373b911a8c360ec43a730bd93a8932827 0x20800f5fe2ac1971d9da64e8bccbe49aa88e4f08b94e2dfc3c7c3c658cbc6ceb 0x0 0x0 0x0 0x0 0x0 0x0;
  Step 0x0 0x7961977c8add46557cdc45b50ba12b7fc721ae2b8e1a85e815654a4611ad8164 0x17a7057e2b5610743e77f4985ca46fe89767cf1427183242d286ad371d4702cf 0xf326f1c82a4f767a87aea82a0387613095379bc6573f58aff88a3b6e12638f8 0x3e03116c6888aa618bb87a83e1c323ac68609a459079d2171cb7fb48ac3f72e9 0x398d66681ad7f6fc12511b0187ab4daad69c3158dd229167c49e8dacc586f283 0x1da4099a47ef5b3a985bc5741612ee8bb4b2c6df7253119564e0e3f8b46325e0 0x0 0x0 0x0 0x0 0x0 0x0;
  Step 0x0 0xbc4f4a546da714aa452a9c59210f219d2ff012a0eb328275f8bdb131869747a3 0x8cc3110d91ee13ffabe5890a1d2761fa638fe3f2e0697f244f748c8d25e5f6bc 0xa173d104fd78fff3f2b61b2b0ca7f34dc5d8873a287a2bbe8390960fbf7878f0 0xfcd2d472e15c2395b0e4dcb7042f4c1654b5561da1c417ce93a26659fb78e50 0x8a848dbb81428c71147f86bf7921dbda021093885977ab5f60185c31261e2a91 (-0x5624de25f171c80ab7221268bc58442a2bddea65ecb20712f931df40ddba4331) 0x0 0x0 0x0 0x0 0x0 0x0;
  Step 0x0 0xb41f48593342e9ac901e1816c8952ba3505d404ebe33979bbfc0e4add10ea4c9 0xbe02f0bf87f49ce5c6f619195b62070db3316db3a21691323e9b7ac1b3688e26 0x6078cf76ab2c7005a2caaf2aff93c9d7efd317ce8cd86608d72d6bdca8cdfa96 (-0x4ff7aa032d7cd9c397c114c9b6384cc380e89cf4f2fdee61a67541909efdab3) 0x7ebc019088ded04a1d8f4f19335119090f3c797e1ee5b9a073faea4b5d2655cd (-0x22a6edf07a2bbc09acf8af56f9d886fab7a34f8d4ca8ae156b1536c50164c240) 0x0 0x0 0x0 0x0 0x0 0x0;
  Step 0x0 0xebe88ac074a6d6bd7ee172a0c89a718c3525f650d8cf38742516f4152628d2ed 0xa4ac7d50169b534d367bda1dfa9006eb8bb562702f8d7d72da63b6278dcd6f06 0x6af379cfe72c4fdb28030d487f81a09384a1c5ae5d3742dd1df2eb7c484c489d (-0xf54c07c09cc28940254d377fc679e92c1eb5eddf3b2a4c9752bce2867df588d3) 0xd964c1f9f7968d1224ec768567431d05eac78307fe8ff67e7a6823a800c4dbe9 0x1759600ba80165d2eb093125e73991c7b7a24f488385d55c9869ed4f43f63293 0x0 0x0 0x0 0x0 0x0 0x0;
  Step 0x0 0x89fa4690c9629e0283d37643a2a4ba50925e0f12a77b066acb2084fa55a7d48f 0xda05f8f0f6b0b51201ba05a3a7797bec07236dbb3c24448b091dab2123979877 0x1cea601aa5909862f454e74a350a2e535ab2657d5b6664eb2c4467734d9b6c91 (-0xca7ea775f3fc5726cd0d8b83b68e18669cc754d58d42d34d79c4bc07490c8afd) 0x4a5dd435282635f591ef2896332543217ebc1be1b9852176547d96f646234ea2 (-0x1cc10b4093e2a878a797e5ea7786aa5e41aa3dc0d044ae2ca192929cc62290b3) 0x0 0x0 0x0 0x0 0x0 0x0;
  Step 0x0 0xba70a7a1234a6ce963fafaee1070b0a359e837dbbb4534692bf688e175ab0de0 0xf5be6da90e0a29926c52ecdf0214b5420f75b433bfd9134944ad75db7eb0e39b 0xd6ec39941a525be0674d6fc60762618c55f5c9e33c4da05611b7912b6e26dc49 (-0x202ec7dc331c3fe1496ff800debccdce031f0f526105b94ac0c6422ffe92c21d0) 0x87c7e529c9d28e04bde5abae69c436b31f4da8a2dd46dc2aa0e69b637bdf9089 (-0x143037a7aca93383fbe85b585e07437e40fdade1aabff455ff0b99d0a03f23a6) 0x0 0x0 0x0 0x0 0x0 0x0;
  Step 0x0 0x7605bcfa1a711cbb49ce4b84b3f4707bced0fb1a48216870bed98c92557cddb9 0xe92b2c47609a7b811c440342f6e480626b0d2777ed6070227d5696975b3b1616 0x9ed0a1e2a43dc3fe760cdc638255a599490876bb1c203a4c35f948c03bbd2c74 (-0x1fd86bb09ef7ef37888cb8512bd34458e686a5c45eb097ec8ff8d51bd32c3abfa) 0x36694a57b40ee46d4544521e1fbda97acec11be411298a7b55941b25f35bed9b 0x5cc284bbfc41d8499f8b854d8aa7e3ba4681db18b74be1be51372eaa1eab2a0 0x0 0x0 0x0 0x0 0x0 0x0;
  Step 0x0 0x1a00a7759de7642e545d3feb4e00c75665e0571644c8f73f0ee98c8961f86fe9 0x355226f80bedb19df8da24ffc974d3917434a44a819de4f27745e0136678523 0x202d7d936509c7d37541bc3a85df7a3118691019b1b159cfd8db7f4b0d4890ce (-0x25cdba8ffb21f43d3b3a6bb97d53f6e6ae74bfd92e79b9e05903400385784257f) 0x2a422045441cc6b590063d8b1c4d42bced32f126f1fcbc93432b5e65681cf3e 0x175853583d16f671c865e03c96bcc6b19a0998b6fadb253e7855e0808a357317 0x0 0x0 0x0 0x0 0x0 0x0;
  Step 0x0 0x7bc5f48f6bf5cf286329cdd6c8e0415e0043156799bc0d1482218d8705541131 0xeb7bb6598de34303512102b0d8e6ab56ab3543b0c6a9b60081e57d669bba3f98 0xd8a52ab635f6289a010bd5af8a01268902a01ec97446ec199ce3a16d5940cc56 0x1efc28ce4d2ed15ac3557a9fc6f1347219077f2b6fa4b82b4db9d7ddb6035d7c 0x3bd7d2145bf3e59c5c708317f4f3a6bf1267b7f6cec6c33c6475b973d539be7d (-0x703e0c888c196457eabb2239e953020844ebc6f8f2bef919fcdc7fa83edb2d77) 0x0 0x0 0x0 0x0 0x0 0x0;
  Step 0x0 0xf6f477fe4245cccfb6084957359e3ff15cdecff65774d9581cd6187d5454bd80 0xfb974b67ad32a0c777f7934063b4222026893f08da838cb0ac46cc92c12ae2f5 0x2145c61cc75507dfdfc6c4406c4a94f27aee524571a5ca95c50fafca2c3fe436 (-0xe7d9e1acda7f986c899cc6ccdcf69bef9f54d5776ce1820384211ed5dceed343) 0xee3ac0128a8598e4a0641db01bff2c12fc6f9519ba578e8a8400fff710592225 (-0xf89e31284e8f42333ef2d9ca6f1bbf79ce032a2c6ba9ced8c1dc6187b0df7f4) 0x0 0x0 0x0 0x0 0x0 0x0;
  Step 0x0 0xe09661460ac68a61be10440f9c7317efbc377eb3cedf18ebfccf8499506a17ae 0xb6493fd07b959b613e9c53a3acce937fe2dcf153dd1a6ada28abc1994c52b4 0xd8e039b8ebafd3a6b100cf89b346bf8da5444e0e49182d8fc770ffc6b9c739c0 (-0x2ab64e419182fcfeb39d7fefb9728484134974e7e73453f0905eb3c545bc77200) 0xc50782917aedbcbb0bfacb2c616165be5df766b76af217c2b6d40c26bd595e5a 0xdc18410ee67acb58099cd0e6a03e08ffde5e5fb1eae78aabdd0eccbdc2e13ac8 0x0 0x0 0x0 0x0 0x0 0x0;
  Step 0x0 0x6748fe9008d9cd9f2419c8833c500d4f3aeeed3869922d094769b37d1d5801fa 0x5da35543b931df01f2918979160fbb2f2d68bd4db4b835fbcf21d7b15e3afd1b 0x200d6118a7f82f1a3ef9cc0932e4f51bdc51a0e558dca96cc69777d67ce10d16 0xaefe96803f5fe7fd37257144c1efcc1dd87eb84dc3019ac06e9d97e97d3720ad 0x29abd1a83ef2323c20e0b4ea7b561ef7b84d7f7b769706237a4c965c90efba5f (-0x257ddee893b1c4c025ea4d956b938098814c623aa825fbe67acdbbd44b32e994) 0x0 0x0 0x0 0x0 0x0 0x0;
  Step 0x0 0xde5c4f1e65a5d6014c89d9381e85d4e63b3ddc21f5a0e57f96e23b274a26f40c 0xa40cda06fadd77fbc6cc0fafdefa7d03d500c8c07022dc6407c0049e893313ed 0x211558afaac84fba768e9074604c4178c0352bef02802cb98dcff104d2104ca4 (-0x2f11eaa6731904fa2883d01b729a808176d1f937bf21f20f48e53ed4d5240788) 0xc1243a826fbcaf36d6ba02dde757375c6de1af51fed2250c0efd4554f9722d93 (-0x3d28e4d032925b89a3ea68f8126af5766b97888151f5595d1d4a77a820816c6e) 0x0 0x0 0x0 0x0 0x0 0x0;
  Step 0x0 0x32cbf5742868f7e0ee845943d37e52fb4f2071b5a848240d1aa88d035562b85b 0x5092e00137e0c27843dc1465ced3c081a92f759a9518af7b38feb7496a2a14c2 0xe72d3a91fd53562fa80c80655e97f0d3cda4c4d36c33854e6e9f6c035d5a9141 (-0x12e405a0b5ab055d0d8e7816470e9f6110f03d7b8445fae8bfb6f406a87612060) 0xa144e609b6cefbb27490d61539381bdf1a6a899370a9829f92f7be664214c43 0x109054980ff1661a6491cb06a5e1f642497cd9dc621640828c6226cbba5b419c 0x0 0x0 0x0 0x0 0x0 0x0;
  Step 0x0 0xf30214aa9337b1f20c80c49a0ac0402971c4d0b9ae473ebc7eda03e55d8c8640 0x78fd46cd679cba35d7d2cd1a57ec201fd6b8372bcbc0eb71c32d4dfcd07af3c5 0x974d942f82dab2dad0fd389320629326ca92bb959d89aa54cd23599bd7678c45 0x16acf3e6b862783c9f339e917ca0c531eece9d70302f105498b9563f2d593fc89 0xe6acf3410e7e1499e871e5c0110e14172781a1d6a4a55483c56da76208680d49 (-0x265d53ac03333a9a6537c307a970d014e82e208151a3806363ebca0bd5a68fba) 0x0 0x0 0x0 0x0 0x0 0x0;
  Step 0x0 0x629417006e44c0ff6cf7818cdd7a816ce6230601c82e371e2107b015fd6d6b3e 0xdb2249e610944bdf839c3a84cd3f5de27639dbfb0c924d99ddad31c70d8f541c 0x3ecef41e8b18ed4812fc9420645cc932b4b2b0d8d87d4f9318c17d6b9317bf29 (-0x3704d488d111b7ff63330ea6cb41c21ca7c613baa0282b65c2e64b3c9a80dea4) 0x25f5b74714f2ee5a55e3799f0e7363477ec5f57bad36669b885980d7a2cc58a2 (-0x25caf166de48e09f6057e2b71c272e443ba9d09af602d27a812a9a7046420280) 0x0 0x0 0x0 0x0 0x0 0x0;
  Step 0x0 0xa839e84eea5ec215d6d1940801eb7c2b9c9470130782146e95feaa57e1f04f2d 0xbb9eb80517555a9c71e9400c0a9810ca9a5f23c8fde3f2f5563e8ca79f429792 0x4b8197970e76ffb6d65a83dcd93e26ff3767b311e40294a9bf19bb44cd67040c (-0x1e02f028944dcd60866998d495be07a8749e21df6cbb40bbb084e5a0f1c75593d) 0x6e8c0e01481bec0fc7dfe03c01e0866877c32d34cf37021810670ede138471e1 0x14b578a0268287f07719823252c255a49b79bcde7fa21f84a2d6ee94437308f3 0x0 0x0 0x0 0x0 0x0 0x0;
  Step 0x0 0x3f703be7156627a86d3cdc8a6840a6dfec8ff77ef2eb04b6a3f45be51aa095a2 0x77fdc32eacd5d11349adf640087b93d32f5af7ca71351f951339d7d102a25094 0xa415b7ed8a27e9e9e832179ec4c298c506b149e51d0b545e7e166c2045273ff2 (-0x17717cc67bd624dbfaf8ae3c15f3dc4e2af6d805f599bb02208f6defbc9066967) 0xfb86eb04477c40c94086d6e20390ebed9457a477620c9bb66750e2bf7318534 0x10c2427f1717c5daa9bb86410dec1734252c4100137e6edccc36d7d4810f8142 0x0 0x0 0x0 0x0 0x0 0x0;
  Step 0x0 0x29804a1e51b5f31e6536cb97ac18af985139ad2a72903bc9df3978190148ed6 0x2fdad7600a38199fb114618d39972427813711e4a975b65bb0a383dbc632b3c5 0xaf589df2b012293c90064e6c96f1dda50d525f626e198ef804e71afba7dad62f (-0xa5667e6899a8b904c16323d5dc155ed183aec98b32f4cca0b9c429243858dfeb) 0x6ba5807f0ade0af3cc5d77fbc07c38c80699803c3897a6a83a97a6a553a09 0xbb1be1cae55fe616214ac8a630e6b19636717d6b4fa9732060b259ce8e2f17 0x0 0x0 0x0 0x0 0x0 0x0;
  Step 0x0 0x5b31d0a3b224cdcadcd9c391d93eff9d6898e821bafbe8ece011515b204e47a 0x60f8ab86b97b4ae794e626b8f1321322cccd8d69e174ef319ba49d465bd484f6 0x50c680da2348fd2d00b2b453775986f1c2a2ea7c0b5c6dab4b9949893c70c808 (-0x13076e99f89ab98dd946d781fb3100f720fd1130b0e2bb4cb3e569b77dfc9c04) 0x207c740609d73a932fc181a97ac0f9ee1f80f4931a5a235de357285080625c (-0x117f292711bee7c0c86906945a63f5c52b55f3abe8bfdb26901896b57830c6f) 0x0 0x0 0x0 0x0 0x0 0x0;
  Step 0x0 0xa266b80b2899cbfb8a1ca0537d6f24971d956ae33833e4f8a3bcdb3eb491736f 0x42d4c78d0b71e0d037fafd474f941d4105c63f579dd88866a037c7bc22890983 0x3bb7c22e78289a9a3ca05ad0d1fd5652995d881ab0e9d0ec11e330664ffcc62d (-0x7b6492e5a855c1ca2b57ae315dd2ae2d1a67b936729d2baffc509cb7518d1c7) 0x67062a25b39d35b833bd09bcb650609cec3bc57613b36a1a2128518cca67294e 0x131ece3c04ea1306a852f9720a9e49c393974addeda1d041fd73fddc041b5e58 0x0 0x0 0x0 0x0 0x0 0x0;
  Step 0x0 0x2e2777d8d37ad79eec9dce4280452b9d17b46b9bb21fd77fae6dbcf8be3d8afd 0xe01ae76a800dc34dec19732b22eae9b18a1fe0fbcf5373160bf20a4bb4018ece 0xe396163f093adfe3f7b57172b425a569d202fe1ba58ac452557d070424322cb4 (-0x1ecec38fc75939c35628a5434dfb3ee8a5fc4d817689358482d66569ed08cdda) 0x8523527b07e165442683b1533f40bd1ea61ab86b85998347c2f4e78e50be3cb (-0x1c5ad9098ff2b7b0bf5477fb312421e5d266e5ad07a6048125ea4afa62fbe400) 0x0 0x0 0x0 0x0 0x0 0x0;
  Step 0x0 0x2f480d2c827137b90b0662e52fb0b516595084399883fcacec77df3b3a4321b1 0x69b90c14a188fc4afa41353bc7f41482a4c7b51d0979fe8730e6e34cfd0a8f35 0xeb820f319fa0ba410432985b3e3634782942c735398daa2b5d132529192f9ec6 (-0x1f87c0f68869ddf4012183ae8e2b6ff4ebfe30b35844598d42f4ac5f39b50af9f) 0x8bb891dca58083fad85b58c12dff1a23c56cc8a9345898ec156956f89f89070 0x15dd48e217255a2a9b242f1f766b9260107b3f1caadbf718b60358aa569d59b1 0x0 0x0 0x0 0x0 0x0 0x0;
  Step 0x0 0xad1880c7b16da70716904c5ecea9ffb5da3fbaa36e9bec69b373b7c170818c88 0x2c6548978f1e2244e79583552bdec7bf562f1c39a9862cc75ff19eb520ab059a 0x995b823b0e7170775076e8ee7d7aaacc8a436aefc8d82e30292fb9594293d715 0xbb7ee8dbf7b39354113b43abb2648499e4b48912c0d8d51299a2b834aaf38088 0x750a2066c111e5e8a15ebbb3ed63c95d98804c2f97eede1b43dd73b92c8b1bc4 0x297779cfbb0017701177ceb279dc986bafad8c9fba991c5cc07dfe1de2a69783 0x0 0x0 0x0 0x0 0x0 0x0;
  Step 0x0 0x158187a1da3d023a3397dd123015c093af1b7208ec269adc565f4e7be38afdd5 0x73956ef7867f700193a859c8e800c242165f913f33fa7c09ae4997142cd3eea7 0xb22edb605062932a66b3d59e546d8fc27054ccd27bc7a8615a654c960a7c8fe7 0x2ab4904005ed20510bd2acbeebbada04f7d379a3cfdeec3add3591ed1cab6f7 0x1ce81ca88969024e6d79f6aeedd1772ca2055c5997593d1c99954320ad746a2 (-0x5faf820a1d6511d994c072daee691edd2a6d481e10ca55d0941a003fe91d833) 0x0 0x0 0x0 0x0 0x0 0x0;
  Step 0x0 0x7359447353eb88a142adfd9d86b417c893b9c1f2f9580b7ab76e013869440522 0x606a722ab5b7d267ea6893c29524ed8c7a3ff59faba34609bb14aa08e72552f0 0xdca995e3865732d5a25c4f86b55a0c4d7efde89382ca62b1f7c13e6c8c29428d 0x403923047726afc61c16b40c3543d7a98b11880f3423b3f4ae0c93271e19374 0x33f952a07bdcc1afff9a7020e76e6c1fea4a96912a9a1263515a7708a2a2d7ba 0x8a2fea1fb5fc9f1fd642b5567c72542fa94c1fdcf0866e8bf7aefdf80ce9126 0x0 0x0 0x0 0x0 0x0 0x0;
  Step 0x0 0x656bede9651809ec778be477080b27dc9a5f357eee8b900e32e4aa8d001ac07f 0x5239e6471c5a8032c94cda2bd271eb5b623b39232399157ba7a3d5728f3cd26c 0x4ec859cf8622ada550b3b5e1761fb8c039eca276bd227372a5ff4a215a03ba91 0x41e7da851ce5149b4eba215cad16743c14ac701326d3328311a722b623545b17 0x282e573b1027cb1fa235fc379ec70fe58997858393a43850fa746ed2b2fcb94b 0x59f22ab2a8d91883101d4c9f65188d7094b6dc0a0008aadb41af1b8dc0a3ba2 0x0 0x0 0x0 0x0 0x0 0x0;
  Step 0x0 0xf79349525201f3ad82586751406d79e224f572d1cd41bf9e833feb233f9e1a3f 0xaf067466a83b73e5e935f901746e2196b29dd8ff0c93706646ee6b9110ffc259 0x916b4258692c1137a762a74fc4708252cff1b2356ebcfb901b4d826ed006328c 0x4925d6ad1572deb91188e179e59b138026c5845bbdb86995b8e8f6612e08d14f 0xef6d8c3b13378bef7e802471d2806c180313fe05c60ae4f577fa0cacc5048bb0 (-0x59bec12a9198de1e021bc42d8bef3c39ade551dae23789594d1dbcfdb358f590) 0x0 0x0 0x0 0x0 0x0 0x0;
  Step 0x0 0x7940686220da21b77f6ea3b35a211d56d11a64c9ef8d3b33735cf9af2929803c 0xdfb720920e2cd8de11c9151c9439455e82ee63d23004ca134b6e0f1b5f13cfcc 0x28c608f681740b7bed3f81bf5fd0fb5b23cf1f6bcb5b86cd5b8425124333e48c (-0xdd3ce8fb877e7e912b5dcdf62666877f216f8011ce237a93dde971a71bc0a8d0) 0x396df2e1581c742010f0ec843c59dd187c6d638fa4a71c6fbd5a8a67f59f466e (-0x170fc16614eb72e16bfcef3bab04c4977f7be154ac777d81f2b9191006ee41f4) 0x0 0x0 0x0 0x0 0x0 0x0;
  Step 0x0 0x80200c3c248f9e2ae20f8f8c76e5d96523b37677c1c06d1d18c5df7a32ecc740 0x32a273e69bcdbd0f6cd88be03dd86bbbcac351dac1af4f4c9393a00adfc96490 0xe8aac11cca913735cba021f8451888ae80f42aa3c8eecf555fa3e5337b799f32 (-0x221b16addc641f6faee97c17888d0ebb3c13cf9b96bc4aeef47447fa29e894e53) 0x4020103f744e83e0807575aa6c6f617f3bd498c49c8ece476afefc6ca4dc7428 0x56a0013146e65e4ba772a298f489b3e815e1edfe6038285bba18330e7f6710be 0x0 0x0 0x0 0x0 0x0 0x0;
  Step 0x0 0xb5c6d1eaeaffa518428cba3b3171684669b894641f42f95b7b6c8ac81e91eb24 0xd5478cb98b4b271ca53bbdb8431ea512d46f442d590cb9e928f8cacdec913eb 0x3297091edfe205084b36de1e5bffc9f5732b74c9b2b62d6cec7a57ff76d34f72 0x12c5f45b182653138898975e3d5d391a3baf82041bdcc5aa7a14f0243c1c3e0ed 0x8112bf4014e52d6fa32ae4958674f94d208506c811589622a22e0e39f798bffb 0x1a7d1b71501951cbdd12db0fbd2b25c7839aa97c08b747b42d13ab8680c52070 0x0 0x0 0x0 0x0 0x0 0x0;
  Step 0x0 0xc2b4cc36d505c74446c3a36ea3cb7eb62b527934030f873daf0d3383ab0869aa 0x58319c0c09c863a982d6628f285d1bb69320fa72a96f6216145988acf5a148af 0x78c727251af865bcba87d52b3bc34d09bc9705bcf5894a805c2181f9547b094f 0x4adf4e81c7b52a48d258f1f10570aa04daacdfda9473843a1c5496052ac725c0 0x941685337ef64696f781ccb723e1607b2bfa852d1c9544c13b3a849ad0f68ba1 (-0x38f073ec18f95ab0a5879c65d29dcb66307d0fdc4022fb945289964cc95a3917) 0x0 0x0 0x0 0x0 0x0 0x0;
  Step 0x0 0xddd25a6943c6400952f3dece801f6cf379f69c76bfdbc4e54e50cddef064419a 0x5ff054eac1738d08de213ce4e8056b10ee586ba080d96bea5063412b7b7cb5d1 0xdcaf5a9061817cbf075dddf6906e1b82513407551ac08257af96beac54088a29 0x7627e6f1f313f95a570814115c7e8cab1e3ab2da46d5b75644c0c832dfc965d4 0xc034dcf2f3da87b42bf82383c48b3257b4e257d75ca893544027c529559fb68b (-0x6b602c82e3c79a82ec6f9b3bbf110137552f2d7b35153696e5fc5be997f2414) 0x0 0x0 0x0 0x0 0x0 0x0;
  Step 0x0 0x648c7d8f8558101d93e6702765576d55da83554ad77ea0a5a60e7458dacef949 0x66245cf50260a451d4bb6deb0eaeb47c99b890545ade365200833ddfe7fa9381 0x54dfec4a6b3996ab82b27b6fe9f95ff160cc4ba1372408a11dc263932522aabd 0x417e75161c185475257bbc36d62efd4ec3b33be4f468ecc25766f60bb52d107e 0x277e0f31da3a2cc8d3b37af65bf539d94d141ef8d0a85f4df6130e2066b8e852 (-0x26fbaa34ba083469fe6bed0ca574f6452de0b9d371e41e14bd1e036e6b063ea) 0x0 0x0 0x0 0x0 0x0 0x0;
  Step 0x0 0x6197b6ff57a8a1f9297da6b1338b69b72d7594e132ab3c561287a213f86cdc7e 0xc2185b0636a6c1e071b092d470fa15310ce1e1829fd21231ef1e990e2a6bd931 0xabcaad66fa461076ef926d62eae1c9d784e16a9141aa8beff88c0881c2ed9575 (-0x398cb327edfa176271b0f7e92fb782a2012c6f27eb71cfb381ee1828b238b50c) 0x2534529709ab95987550c2b10c76767c7f7d4f068846e29212f5c89b1228322f (-0x230df1eab229246a9babb902ea73f62455b3ec615465173bf2aba2b1260c332e) 0x0 0x0 0x0 0x0 0x0 0x0;
  Step 0x0 0x6aa1a56088a057311be92180c44da478fb2a97dcf3b181d7e972635bf1554ba7 0xd3c7a469f931e83e7d92b5531705c2c6bc411c4342faf92440965144a032807f 0xeb8c0e946ec29e4233795c8cff6498238c8c95e7c77f7b7b34e3081e26fb4e7e (-0x12a5dfa58c9c30a78c99692d53c4c4fabacef7ab7f0a2b642c9cef9aeff8f3a86) 0x2c6a43058bd0796d54441848d7916d2c109326e8ba36379b516edbcb33c8ebf0 (-0x75dbf0d2321bad0ad3ae5654b6973c15aa783293b9d137cfc7e0e2813961e2b) 0x0 0x0 0x0 0x0 0x0 0x0;
  Step 0x0 0x9e3faed70fd9c532711b066149f59028fad1a172eda70511b6ee1b4377fd672b 0xb4670d948ebc9f9b4f487cb2364489514400c0b85d6aa2bca5810437b9816b8f 0x24a38c2eab7f6a87fb5942182f58255d30a010c3d125bd02a7fd39f6b1aeacac (-0xea620b7b83c2cb29f9610ae6cf47be1db6d4bf844477fc6c715df2fe04500554) 0x61d2aba95ea6567a59ec687e1dd67bd5e1ffcd9c1df547aeb415037feb54cb54 0x13656b4aec34167681bdf4038968908a318ba0aabe07c983f4a2078b984ee6da 0x0 0x0 0x0 0x0 0x0 0x0;
  Step 0x0 0x4055913c1a5456fadbbda366b134bc95b70141a435fa2a7e0a91d8b21abdeeda 0xb03aacf7f5c018a3d811381c02b2eb28c541605e3075631b1b676cb02828364b 0xb0a519f3c92e1f8c783e8eee3cc6794fbd0e04141e0ee48db5e6378ff0ce13ff (-0x16af8f97b0a310b8e72e965183727d22d9c7aa1bc26364e538000a5b888995750) 0x102ae537e1a3b0a6f6de9e40cc79d18b1ded1f482b52d2e6157a4c88c66cfbc5 0x10c7d4158d7a3fd84bdb1f9f622c2aded1920d5f28cf41d2ce29766b1cc2cc3 0x0 0x0 0x0 0x0 0x0 0x0;
  Step 0x0 0x417277c3fa45acf1ff315301c02bc437b98c5b642b23793377e2e30720d0625c 0x4a2f381a489ab3e6eaa522933ccd06697b5d2083f75a3ffcaacbbaae24301eef 0x151281152480bd4c02fc1062841006e0baad3e51f4304fed81c4748e0be72dec (-0x111a062578ab3da6cf5cfff5ded8978a84cae363c401657463fd2b66bc0f26d60) 0x10bb540078656495651e55542c49c5a998500bb2b1e3883c512148cf7935fa75 0x1a168983df94293d1d2b1a46e3c3a6bc92f49ebf0254ffc1c7b879dd1bdba4db 0x0 0x0 0x0 0x0 0x0 0x0;
  Step 0x0 0x985f4039ab54a11c21468c14a10cdcd8a1b26b2705ef51dc6b100112722e43db 0x2f64dcc5344abdc19d1c3e902c406ac9f82b8093f80c535d70f5acd7beec6384 0x85d09ddc5ff609ba12e1c0a7de6c9aed16dd35e5fa1bfc31085097b3e5db1146 (-0x276857d707247c8afc2d3ae6c674c083bb7a2b9773e09526e5977e85904b7068) 0x5ab13fb5910fca7e9a5c3d92dcae3777b0457c91183bc83d9b36a49c869c4409 0xff21e0b1865c3271b27fc85fbac8b5f815f452f13a608d0428b25314389e9a9 0x0 0x0 0x0 0x0 0x0 0x0;
  Step 0x0 0xd0efc6b5c667624934aab4e5b461491ece5cb667873e6e95d9d89fce7f70badd 0x2627a19add3bee68bdf40aacdc4b4033b60878fbe68b7a7e49c497f8ad37c69f 0x1aed1b4b86d5f1b8e9f45f7d32a09870c9e18dcf8384abefcd1466ed9d40e949 0xc01b196175297be47a7dcd6923e4b32a08b012e01495dd820e483f0ef3988951 0xaa86837cae94a8373cd8b3b04a314a731a48c891bacd06efcbc3a4f0db4aaade 0x78a6768960461eb0385e1fae8e6559569f4d1e28b14dce1a07b1311c10226de 0x0 0x0 0x0 0x0 0x0 0x0;
  Step 0x0 0xf1556d6da980f978882f9def3fbff2fb69b5f9b215a73c11c184de645d61e744 0xd8ebc57422de2cc11753bed6ee0a87f53a5f18eedd0404a2001d578b6eff7a34 0x26c7b0db06de65be538d91f644e156ef9ca467b1fb5ab1a2d9114d797fb3c8a2 0x21b5078799e71080ca614a5d2152f6c4ab8063135d257c478fa3cc3f06755778 0xe381f48b363feb376d34a12ad89957f5b6b276c85d757afea9dfa2e44efb3d62 (-0xa8864d4a315c7af418f8ec34a27989298ed212ce56121e0f20d7a6a60a7f2781) 0x0 0x0 0x0 0x0 0x0 0x0;
  Step 0x0 0xb71ddb62e6565eb5fd1358b815626985359cef4b171e6c2e1a5b925c320e03eb 0x8683089c5ab234a2eeb5e049fc7067c9ce04d10f85e35d0097ac3e3e1bbdf145 0xc7053ccc586303fe1b785840df99f9d2ab07114c160883abf545004f37225b97 (-0x1eff1987b5e4d97daf779f5821b197cd286da63b99c09a27f16ca7b33cab555bf) 0x82fbb32358b5ba69ed2deb4ada1f4b9e63a39990ef1588b612809620bff98bf4 0x3af27b7b4f4661029101d9fdc83ca23bec4e6ed75aa76632e0204d9b5a00a3d4 0x0 0x0 0x0 0x0 0x0 0x0;
  Step 0x0 0x21c232b3cd4def6c383ab41b9c36fb5571e8d156eab89348392653f7497ff7b6 0x38531d198b3d4467de33ab620ca0f4dc49c3f740a78002c0e46aaec928945ace 0x94d96ecec8ad5a2c85cbfd920af339d70b94182a8e4fa7116ded7f94d3a9f158 (-0x9f8b03ceac85b193a8368068f79bf2da8658a6a8085616cd4f7c8aff9b9aa6ec) 0x473a46341efa0b7399cfc9a1b41aadeaa2a78874d4cd3819910ead3ddcb87f4 0xa4f7d28a6642cdb96b2e9aae6b9caa7e6400d12790b19943f3e6cc777058355 0x0 0x0 0x0 0x0 0x0 0x0;
  Step 0x0 0xb45503d61762077022d70a26d6a7868f0b61744e10bbf37d468ae61b4b8f1e75 0x3c7722b8d0f4f4140a4e0ecebddbea82d6b7361909bb8fecd5a73b6c384b354d 0xd107114731f30d85105a8b90240ee0b155a859cf28031882fa6567028fe63370 0xac873987eefdc3a7c490a46284d751ffe476c5c26d5652b0709d6205fcf93ed9 0x7f07a9a11c23c2c723cd1f05a189c4f1f587f820dbc138f99b20c474f11e4970 (-0x2eab3f9c06064dbd4dfbad298e70ff6dc47d16466a0299376c8387ebe521d2d) 0x0 0x0 0x0 0x0 0x0 0x0;
  Step 0x0 0x54afeb0483f9a96560d4d887e5f4026555a6a53cde20c860ce5f4a348a708eee 0x537e331bc8456b71ef635c80fdfa29cc24f8717572861fcb5c143568fef677d 0x8458e95ef20b471e73d1937e6b1969505727707c7bab43d3ec607c5d161c811f 0x5f73bba345979d94f9e095fcdf6480316e282b0856e167b2b8023e5d2f8d0738 0x1c03eb1e3a8d7bff1b8a6ee2d8d66e24abc8ae2a848b0bc6a93285e90878ecd3 0x1246b7ccdb1be0e028b2bc68002e212d01e34f7f1376d77efcce287e097ffd2f 0x0 0x0 0x0 0x0 0x0 0x0;
  Step 0x0 0xb673f6e9966aef5ac25d08fae40ac5cb20d3e6977633040d397b0ee4f1e9a996 0xadc30426b17d2b7c86de24aa51117f69a04761b3c5ed7000c1ed8f53db144b91 0x74afb40a5d66b3447d377e8c491043d06d306999a472a8e811e91f866d0f93fc 0xbc54a1c7be93eced23d767e38677aa92a9a4aab73e01a054fa3ceff52d633ac4 0x8209179c67ec0a3d2ade908205dbdd0cc388787ce269a6220fefd43e6b8fb6a7 (-0x781f427de7a68464b8bea0e2a8c9a0c370c5fb9bc901bdf509604dfcb071132d) 0x0 0x0 0x0 0x0 0x0 0x0;
  Step 0x0 0x2732db797836af30fd5c41f9b98bb3fe51da68df83fe2d8400a94291fac9c56d 0x15b7dbc392b98e0280d1b4b7c23344de34b88c95427055f32d85eb2081cb702 0xa5397e40d9a599239f60457af43069accb8241b5e1093fc83f02f10e251408bb (-0x13e1792f34491b290bb9ef59160212197b6d623c03185f8cc052ed48579db0438) 0x60088f9803d3507487506e2ccb7185d17ddc8bf4507a1bef4bcef3f3cda5dbb 0x1a660580f166eada132564bf87d2bc36936257ea587830447a7665deef2050d4 0x0 0x0 0x0 0x0 0x0 0x0;
  Step 0x0 0x2c65e98347a3e031feb8bfc9a93811539d0e138172d016ed906477756c1b859f 0xd51a70ad5724904a29a539128b3e839a750031d4a2d337f20e1fe066d53a030b 0x7a086083b2d46e83380253ba5f553dfb13815f42acfa56d30776ad0e0ed29bd0 0x3949c925f25c1e6c054090fd2bad2e816653c4e2a24829fd1af69fb382646dbf 0x7b330d73eea48f209cb8cc0ae94188b3deed81149e592679a8f6cc1482ad84e (-0x24b91d3cd016020c926ac0516dc2c5b77c97825f2d44c6574cdff6c05d7374de) 0x0 0x0 0x0 0x0 0x0 0x0;
  Step 0x0 0x2e9569fe618ec45478601617c219c8b1e4ea7aee7ba1937d1067b5a828a5076c 0x187b3d7cb74a0f841af811e33f74420ecbba8857dfec90cb92e99326fc16ec35 0x46a90de1d9740823f487ea9adfd04092eb6995bc1f57f500b5614af08f5ad3f0 (-0x1e7c591376cd712091731cee8d01ce57510d7ba6c15591e34b3068cecd3491018) 0x87a094c018990d7c0a89b661a5cf570d671d9a371db084a7ab4e180551bdcbb 0x2252b1f4642e3e70195ecf1960faf858627a7562bddd5a29a377e87fe5d1f378 0x0 0x0 0x0 0x0 0x0 0x0;
  Step 0x0 0x5f378f560b23d52f7821c7dd1aab3b3ed9cbf9b2e27e1c33e13987494abc98cd 0x54a1a8f5d4e440cb0520b9406c64f317e751e2512c909e64437e4087982e1e07 0x32dece73bdb2e1bbda3c5239e916d3b73b829ec3944fb65efc65988bf6d36b11 0x2d8a1f7f8c4790a10b167e1f697dd593931113869c0d40bab327a425e584da88 0x236a4870e6e8e76d4131f5b7c0cf94bc44cf968f6e9aba32657e78a4440fe248 (-0x165f4fd0ccefb869cbec673ba84b9daf0a19c8660037e163f882a1276b722bd5) 0x0 0x0 0x0 0x0 0x0 0x0;
  Step 0x0 0x9e8b14e8a420f3a8ddd6af77f86d4b85e7980c3a92ec0905e78da60d7a4efa9e 0xd9ccb61c02cc1872c2b83cfa976682c6db5e7d730e21456d5f838bafec8d306b 0x22378337c2823e3fe741a1378e13371ecc1f0869aaa8e099863193c3b1cc5ef9 (-0x14ed29cb990ef1bf46c36a21e24f941a5bcd1dbfc12b2d8dcdec9b69b254706c) 0x622ff95f43200efb595c37dfcb303b1381c9ca57f53d50619cfa5176d74872f5 (-0x5278eb5e67f48e178d5086de0797904cd9a4926696bb772f9c6b43982a45343e) 0x0 0x0 0x0 0x0 0x0 0x0;
  Step 0x0 0xd35bd5004c96cfb19985f1f766d1b948e7bf08f0ee752e959373590ac1361593 0x2792545915c848cc4a980fe31168b99a444f57650183351d93943ec22b4518f2 0x2df7e66d145e40e5af829e2a1b5f707b2e80f9f8f6c6cb0e94446796b86b3798 (-0x1f3660296fb15e085835cf50bfe5323f468ca102f312aaf5246707a80464305ce) 0xae8082104c310f19c40e6ed401dd12939f9b244082b5a80fd97cd8b1428a075f 0x93260d9fc573f528f7490c3ab1370e1aa8a626e53fc439f2428a3358575f2f16 0x0 0x0 0x0 0x0 0x0 0x0;
  Step 0x0 0xaf170ba2122e3b1eb4a4d88dc88600a26d780bddbfab37c031716f3640e80011 0x38a66fe37b02bbfa12c5ee5f7b9a6ca216b6ee1bf0c133ef177d6cb4f75bcdc3 0xea17f785c4afdf835f9b4eff68879f34133a60ab23ef9ab9029ab50ae760b171 0x2c8777bbd5ef1a263b600d405f05269539046284738e27bdadb30b2a00e96c19 0x77c083fb24425148bba22605e698ea49f82cb7a5ff1200910b4052c4af15fe86 (-0xbae4868cd6f34d16110f571b0a5641fa2ce440f10c8027f99247160b54a1516) 0x0 0x0 0x0 0x0 0x0 0x0;
  Step 0x0 0x6313b805e61801b5820563a0bc315db746efa4bd1b588603b8633e714e05bd8e 0x55b5201ca95f4551dd98fc820e0a5be1aa97c137bd49e535c3d2bcff9d09acef 0x515d3606e3d5ed128a3a9345d640394e3358b5191df3fb1b432416bd5c199033 0x8f96e2138bedaf9ceb2d59ebc8272bcc11aa330c1484a6a6d75e352f685bf43c 0x265841d98b7775a17d2d0ecde3b11b288723b4fc576dd493764ff76a0fda4db1 (-0xb3eeb20767b9b7193cd6fd4f30c57051b67c5d456f1ce53aae72dadb47477f4) 0x0 0x0 0x0 0x0 0x0 0x0;
  Step 0x0 0x461bc3e6a6fe4e1b09342fb2ac62dbb9c79306ab9c930c51d0e177ba3a9d09c5 0x6d25fc49de77e08b5e41ab554ab07f021f97a288badd4edc29138b695e8f77e5 0x21c01c5a0b3a30b31d7a792323b29453f01480efb1f557f49d1e65fb62fff1c4 (-0x2984b6b0c09d64ac41679a8a842ddc85056f7a6a670b1430beda90e13b296f1e) 0x133332251f16b0b84ab37e54408440e5abbe894720f0f0e52bbc246258a1602a (-0x66b670bb21b730bdecfc859f07e6d5829e11bfbcf8fba6c522524526bf0a8bb) 0x0 0x0 0x0 0x0 0x0 0x0;
  Step 0x0 0xdfcb46367a74d65b1fa650aaf9fc5ee375248ea2cd9466fc0e9fa6df2637c2fe 0x18e37c5fe9a893715f104e77b902f3d3ddcb585bcdaa4c8f51963cde1eb1a3d 0x45a8ebc58bc57f67c0747e05a5b9c0ce238fe7b801b9df8c10e7167fc207bcb3 (-0x5099d0d875af397091691bcc4b266229ebe4a1331355c1d582c92d346e92b868) 0xc3a3c5bc1aa35f0a996326ba8694801667fe62d2fef551c85c00c213d9601603 0x5e0ea30a77d9e82bf03643b0e572d8eabf4b96c5acfa345d6fa5a931dbe171c7 0x0 0x0 0x0 0x0 0x0 0x0;
  Step 0x0 0xeeb360aaa02d2521a8270e2d8ac1192e3e5dc7a59c3baa9cf49e945df718f2f0 0xf7beb9611b28d5084eefbe2fbeeabf9613d89b6641666cf8fd2806e47331534d 0x85464b3d709be3b521818a0955d226f7d0da0802bee08d0aad6ced748bc5ba75 0x81e072e4acff2659cb467ac5af212a3b1032e8a4225681588d5fd329ff371bf8 0xde92056e73825f75f14329a136dbe98580e7e1dc01e86eba3793a4e6a37ce6c7 (-0xe58d99600068d24ef46bc3946252450aad2d3c6b74633f37f61f671b54ebe9d8) 0x0 0x0 0x0 0x0 0x0 0x0;
  Step 0x0 0xec6c07469493f58451dc57852deec8fcb2633ef0bcb28e68e49189c51b01dd77 0xe81c4b5e532042895655cecd1de09f55c59e7670d76d4472b2a282b50aceb658 0x7908bda0f16ab0907b2df64dd5e117375c7dcef85d808cb22fa931bf4ce82df6 (-0x1d91ab1d8fec238b79d14ab5bc7724912a445d6cfa57222345514f41ef2ec4b4e) 0xda575b01200a7419ed30b19d039c2c53744898fa7eae60124162f49d5cacafa1 0xe705662c883ba25e0e319849b1b2cd5cab40df61ecbb2873d100b93bd627188 0x0 0x0 0x0 0x0 0x0 0x0;
  Step 0x0 0xbd93e0ebd0522795ca7a43eb70c0d6d4c2411f4b69898a0cdab2285894a24631 0xf356c59088bd1a74e820a2c6feb2d8f5254903bb55a58d7f0f46e8575b502acd 0xa93ea314528d5179af0521bb3d81d88e44f9930b51194c91d106f6dfb6036bf3 (-0x1c417267cae5fdb75eb775af1884b16a77a924fb8e4b19168191bdc9e7ed8656f) 0x8c63af88d26bc21d5b0b3cd97e5b8f2184bd1f53b026919a289c540bdfaac21c (-0x850a8a8c77775e28c7422ff338563dad41d6697f36c31e6a6bfe7d4d86b1db2) 0x0 0x0 0x0 0x0 0x0 0x0;
  Step 0x0 0xdf728dc5d0d8300661844d532ec0a5a1eff2f2297314df527c7ae4555476af63 0xe1d483af305a1a5cc5bd5d5815eae5ee1f2bb6f6736fbbbe109d21291392e9b5 0x4ab29881ba9cc281c2e473bd32caa1c9496e7283449898d87d8338e5f6684524 (-0x18e76f21385dc1fd8b7047bd088710908e5b268ee71895e09128520a0e067ff7a) 0xc308c641f792eb61172739c625bb1313f1a1a18b77a32a6a81b807faaac6bf06 0xf484d16f76e55111d64b32554c30f389c4818262ce0e738bf9a5e45adac1ccf 0x0 0x0 0x0 0x0 0x0 0x0;
  Step 0x0 0x38869318df4b256176146f8e2cc3282b192c2120347e9842af661e64d92776d5 0x6aeb061046a00ccf4bf4ad5191a706a2c16b8b8698da662be69d889a8a8fe2cc 0x3bcc41d78fc55d8892db817815d6367c29ee6e86680b5581898438bf03058b81 (-0x234a914271eee3efe1f38840e049df5bd2a3a22f294e59ed4fc87000170cb5000) 0xc7b271940bb5cf9f434dc3d44db67be5b32cce83761864781391afa2ba6a8fd 0x1a4196063f4ef3ae48db55b282011f57bc2d1374a292e42c4d5d5e90063aaac8 0x0 0x0 0x0 0x0 0x0 0x0;
  Step 0x0 0x7c46db8c33f11a2c6b3eb1fd13ac3e54a59c8220e92694cf2fe6a3adbdcb5f6b 0x261127c9fe94df91e856e191928eb534556f3a5ac6a2608487c6aa15d87c90d4 0x4e11ff04bb02626f4edc6a9b5f672aac5c71102050cfc496f7f14f6abf5c410a (-0x4be7704f53f3af5b9efce5cbc8a70dd0782e9d0d75c58ca37113d4931243e429) 0x3c54b84cdb9bdf2990d1d572a06b14f0a925fecbf12c797189a696387859bfb3 0x216c964909cda0be6e08ded7da442d7ec05d5deadb373e2be5528330113b81e3 0x0 0x0 0x0 0x0 0x0 0x0;
  Step 0x0 0xb6521c661aeb640a031c01904ddf6357fbea26794c6060d47909a693b0f8da21 0xdf3cf7dd9dc0bd9b69ea7edb3bf30f03b6781d00260241317ae14bf0fcb1c5d2 0xc502a527cb9759812b158d151c02b6a824235a1754339ed6ac71e13f20c94713 0x5e386091d9ed854fa7bd5bd7e77e60dff0738e672e232134e6f9be48e5ffc219 0x81d8dab7e4af4a5f2bcfabf4cfbf38e6c83ed258f6921c618f183461f3deaf39 (-0x83e08a81c3027a5a375b918a6b87068b856ace00b22e4cc0ac518b6d2fce5725) 0x0 0x0 0x0 0x0 0x0 0x0;
  Step 0x0 0x1d78debd10925350cf833d228e28f1357721daa23a52dae95c1f21379c8f6894 0x387b3fdd147ccdcdd9117005a10bc520f1b35959c7b1ddf8e91e4ba9e4133f93 0x62b0095d9de394a6c57ce36cb53534c5da0be9fd01a949556498db13a24dc1c5 (-0x21aa53054557b033a8cad64fa29831503492468ad81d0a835dd29cf4e41f0fd2f) 0x3649b886c31bff61899d220803f2c252b38cdc23ed5c8438cb4b4297d6635a7 0x1332adbd8860736ee6819360030133034f31e8bb4b3422597a7c6053bfb6d46c 0x0 0x0 0x0 0x0 0x0 0x0;
  Step (-0x1) 0xb3f24e0a09c656037f47c3d6ed3f9dfcd9aa74e1c1f3653af6e4cfe04ea58291 0xa00c1bad146c22b95e2cae9cb7e2b8a62da7c6d8e388a397547db1fec250d93e 0xf3394fc7ab00156b810f338fb01dac64971feca80ecc238943adf4a65bf7d751 0x655a8840921fd44900dc9f77cf9cd2cf14f6ae3ef29b49e6f4bab02e5dff760e 0x7e7cbe7a2aecb4174dd0192f36242a1b4d833a9b4b17dc9f857e07009cf5c243 (-0x48cc5034b5f6e37efccd8dbb1a11b033b63b2775f20ae108d0db6432b396870f) 0x33c87d45b07ac492fc5d3787823749ed67bc414f5ed7bc4b4f4a7d8e5018bd54 0xace6fb87d125b9f731a372cbd51aa912617705357f426ba38d38b2be99405ef7 0x4f33198970c2492263b514f31328556cc68daf41348c95253beb266ea2872464 (-0x161ad017f3c7eda0d719edaaf0399b6e72c5d4adb544ddea73402991b66cf5e5) 0xa797eedc8fb4a63ff014b03e1232918fbc0921eb75578d3e91b205e0318896c (-0x299abe1d83ede30d36c7e4d3ea2951cf0ed0378e7593f2fe2b4826d4bd78e97);
  Step 0x0 0x2bfba2bf8b96db61ac66bee994fb06559293e04594dcb626b2300d53d7ba29b8 0x248e4fb53a3487e0c2199224ef37765ceb5d5cf44327a34664192d1155012004 0x1a65469af826b6efd8f15bbbddda667f8e85643e95bae9fe2d262e622f3f38e5 (-0x1431eb9bc2377ce9da613e346745029da32662521a81ede01fcae3e6d2f0d60d0) 0x78e8004eb85e38671d89e36768d75a4ea4e0ce5480a7a6d78cc9bcad15569b2 0x176cea7b0f7d601c15a16c3f13c26f4e53023abd277a66b60f880cbed1ae33a1 0x0 0x0 0x0 0x0 0x0 0x0;
  Step 0x0 0x4b943ee0897a6d91486364c451e427b07a224da8161ac48d6b0933f93b2ecc2c 0xd61cfefb1c7029ef233caab9ab0c1187de6de65ad9b29c876149d286131e725d 0x2b0bd3842d9f09946e41abb92d297d65b7bb4feac7a4e42d1738a70fa8abb246 (-0x131726ae6b4f3d707709867b677ccb7c6269e3935e2fa14ea240153c99868b) 0x165032b069ee6bfa677abd12e20cf609e3ccda89e5cf9d413252dc66727a8ad5 (-0x346b9f734cc072220af9fe261d6d871e16fe07a2506f3daaf692f42dce6e0189) 0x0 0x0 0x0 0x0 0x0 0x0;
  Step (-0x1) 0x29286050f5284f245900c6cf9ee78c867667d3c57f44475d88d9b0bf271568f9 0xa1a8733efeb42e0eee76b7b97ee1864f9fffa5ec3c863a04d7c0d54efa060cb2 0x37000d713cdab4b87bf3e9905e66b6614cd54e1f2246805c64232c73e719f37a (-0x20b661ae94c5466535a3d47aaecfdcae9eebe2357b26f6324be007493c5accad4) 0x69df53832ae4ca2f1df43dc2f6dd10b4e6334347e9a59174bf1ef06de5daf3b 0x86ef05349a4b3219dec5e3489eb98f18f45351b76f84a225edaf5a7d9b64a6d 0x7bac945a687dd1ca055fe3dee13e38ae09738f8e79cdb629a3ebd4ca2a91a46 0x35ed90562c9123116bb38220bae24d2b1dac3d93a68ed209c43399a082a4b8a4 0xcb3227a6025445eaca26f8d9d0515a4ec815559f6ae8b5c975cb8e94feac065f (-0x359230fb86f4f8101af429794d48cd24e356f5cf88ce2f5bddfbda9d8037bd8) 0x3bbf4ae6cb9d444ff1ee32afa8573ae60cbefe93cba8ad6ed949f464d8eef9 0x340b6b049c4aaee5e725b90c2ca94fe0610e4099d7a6e194831009b05619205;
  Step 0x0 0x44ba76ef058b5d120fe082cb7e469acffbe17eef1707e6951b7ff0201b4b8d67 0x222cc74f177fb08c4f27ee8bd7e3e5c11e54830548febacba9d89e38171c5e56 0xb5f9adb6cdfd0cc4d44174176b0941b563978af5a14b4f0ea8d3fb1f947139ea 0x4b05f81708535e61dd69c4ed71b51f96667980e34da13037e2c38938c2c8b4bb 0x1273970017fae73cc2cc6ad4736f5fc41d8630ba238aa527ad20519939f1302d 0x54d98a5441dffd9428e314f8927888acf90964650476aa47036933e86a9f4e7 0x0 0x0 0x0 0x0 0x0 0x0;
  Step 0x0 0xb9a67823abefec36f9e285c02d05b24d4980c782b8f045b63f5312f7e294968d 0x539d2a5ee3dd805712ed165c4c95c7af723667ab58950777aff9721a70760596 0xa840c8d5281a12e0d14797fc9b9434ee9645234def7a2ef5900a76c98073ebf2 0xfa3fc15ae0cdffe6974d5045cea0a13d3f735fadbb197ed9056ec3b25991cae5 0x86a205e41bc73a9b4cc539698ed7316ea514b8639d37c8d515cba6653f1d3899 (-0x23da5daa5cca0853ce84e2f1cb3a80a8c74f098c789fa81a5c268dd5fbba3be4) 0x0 0x0 0x0 0x0 0x0 0x0;
  Step 0x1 0x5ba70a4b4f9283144dca394758035e4deb211138ba4ecc858221999d1471e50d 0xf1a008aa6258006a513670e19586a94f139c9fb73aa5cde2b84ed67f2b1c5a23 0xc6cf5a35a2d6e3739bfd1c8b4a93246cfe345ff2495e654dc79f28a40f9cdab4 0x268bc2f22fee5605bc900b822f7118a2fc805264a4d2cbb0da4de2fea7acb115 0x20d02e501a0e2106b8ab884fdb9337aab34a8c8c32ad33259dc9404c019e22a6 (-0x38921f3eaa6a90e1f8142977d88347c99d5daf3038a4788b496faafed59dcd31) 0x6957ed981fb1fb73e9f47d46f2201b73bd5f962cf8dfa99916cb58421cb9517 0x3340d2bf0bb467c3731e40310d9af831f3050ab485516cbbd6ad5818361c4ffb 0xcb0940d23a91713d9f83fa052f7db084969694c6dd602fd7894feb37336fb069 (-0x4e8985cc55ace290ee6286772a3f3f0f5c1661104070a31c13e288dee42c2d0) 0x2b593f1a4f41cf6d80d131d71be1766b8eb8b5c73c3d2f67b41012dd3756d4 0x4e5670286cdec0a7f7f36ac817234c50eb7df64264c5a823f8dff0b046a5985;
  Step 0x0 0x26baeb3f6b739e218268ebb4bd340eeaa265c517bf18b97f5e6c0ecdc71108ae 0x3b6e9d7328c2da6c3d9925d047c56601bcf3bbd6302baf41239854a8198aa970 0x4c5709d7ec72ba7dfc784d3257bf0d94a3693fc1f75fda6eeaca30cf6bbc026c 0x1ea690b1cc7eae06714a727c11b671b32054e5e9ad0d8e2ceb84dc4ae0e2418c 0x5dc06518a17fc4199d3d7040bd0521352f6bbe2126cc3496d1c998bda5bf322 (-0x13cc4e0143114bc86ec9727fb9a949caa2b64be8fe223537152d0827542d7a5) 0x0 0x0 0x0 0x0 0x0 0x0;
  Step 0x0 0x7a8695dfee0bc24843064ecb84239558f7eb2be52cffcfd0b46bd850e36e7632 0x6e55e89950723ed1b11c74f9c5385bc61f0c28c63f357c6a726b76efddcc290a 0xe6aca54bf5e9a75d5f1490445785f66b28fbe3ecbc8e8f988942353760191ae7 0x1faeb4c6cc630bea354f54401a255bb83332bcc84055ae39af0abbe3f232b0cd 0x3aa48d9ae7b36611713a0978a7378e7bf2339903126939ec4544cbb99b575a26 (-0x185cfcaec2cc621aa907879a5002a12ac6926625cca4d1cf418d9b144c62fa99) 0x0 0x0 0x0 0x0 0x0 0x0;
  Step 0x0 0x6fcdf22768ed0f5350c96154bd9074ba9116ea5a5f4067114132025bd9f064f8 0xed10d649a56bbfd7f489e6d2282d8ed80a5deefba58244debf5e6e3b3a392e4f 0xe74a47ee9a9b0233dd16f10f86a680d02ed768d8b2ad9b7f2e84611c99dcd0f1 0x3ad30a16251972a9409cad6c94a8ce61bb5e189639af5799159615c43ac40599 0x30d43dac15fe651235b21217fffee16bc1b94d39b12c4f5cd75046e10cfed023 (-0x375900a039816cc2f206fb3d5564887d1119a2d6d267cd5edafbef5c78ae0550) 0x0 0x0 0x0 0x0 0x0 0x0;
  Step 0x0 0x4154f5e9cafb9ae398a7a2a4c0b0c9b6306e64e09794247ff13a0c45fc430c01 0x2e826c0bab2cf2f73b72efb6a36761c589e056d287d93dcbd76d7f19306c87b8 0x90e71965ce4e48c6e549a064d38af781dabbeed55997b69b843b7bbf395864e8 (-0x21c8b4c00a65dcb21ba3f870e6f40c589d03b1fab9cf683773b9e58fd62cac4c2) 0x10ac411317668ee105b179b06f0ba0432a425e31ac55351cc5ddb9d463c8cc55 0x30a166c11be5210a69e8f8c4a844c4e0ac9dd20c73c2353946dd5604f4147b42 0x0 0x0 0x0 0x0 0x0 0x0;
  Step 0x0 0xcd92fdefef7c613c2fbfc84f1cb13df20f9d09d1841c95a0e7bb73fe15a0be04 0xa7223bc3dbc624cfd7e35ec8c98e67d2a4e120f8a6ee742dd168355c8d4eff73 0xffccd5f207e4d2b8ad532bae66af9abe2c801ac784d60c557e57f6868ae566a6 0xcf5f21ece9d13b3b4a0a03178b672a52268eeeb3264623a1a21f46022f0f357d 0xa514bf198c333cefbbcad93ddc64d72f9db2d649def6ee3a56e6c784341e1ed3 (-0x60dd3c225527638e797efe88405c8323eedbe6de734970f87a6e47d5877b8b86) 0x0 0x0 0x0 0x0 0x0 0x0;
  Step 0x0 0x8883da8af0e7d4ae56e59ba4ab85b46ea4c925366eaae34b1331812d2301564f 0x3a904a865a352f7488f5fa284fbcf771ad87cb6083aa24dcddf47c6cf0cba77c 0x8a1c7d8baa7c500470d2a28db6935a57ce4f1da7315a76283412c628608ad2f2 (-0x3687e7f5f5eebd14c4454383b15196c3559d4794307c3fc608a1bb4c06e9f97c) 0x48cc5c1d4d86290da724c6170acb2f2612c02488aaccbc60104993c4a7b27a01 0x39e573868d79529709fff67c40703100a7159979bbbd6c57588dad3462641a5f 0x0 0x0 0x0 0x0 0x0 0x0;
  Step 0x1 0xafafa0235f5b716b5fca1a242efb763adb01f1502207919c1787e76a4891d109 0xe7df9711b4206c292005393f434b0dbbf0d4b5c3ab70b816de926e6638095a78 0x61770023516251c8f06d2f0aca6ba7c4b284ecbac88e4c89d25a7722d0f18e92 0x955f5a188bde869171d90562edb70cccc2579b297ae5e4152b0d0936185b1329 0x7891956d297935988b88b59618db2e5473c09bf5d62f4b86306bb52892bef71f (-0x76f01af28ee745e17067234a1c86d26cf784903bfbe87d30a44c8926ad7c97a0) 0x4564ddf03def48db0249a32c2b52eb7a39e15f6078250b15a5122fc47f86d2ec 0x534ff2d656a46e965e050c1159537411b412479f52ea91901ea49fc0e32fbcb 0x66eb6886ab0ff7df3d2bf2045bf81bc2f570581c7367ab6994998d35c8243f39 (-0x31179c4b3c09ea65a0741a896d1eec0e5e2719916b9bb09d7ae8bf435382acc6) 0x12cf8761b84b93fc060fb4723a79bfb08a1ead00a04fd352693a5043d4b0c17a 0x3d714a1617bc233af44d4d6e8079d6fd684930abd227eae5c713dd86cc3e9c4f;
  Step 0x0 0xc1fc454b63fe639f132572fee79ab67e0c9a11f5c4e8ab4f471fb43e4eadeac2 0xc0a78f2cdba09670040445bf1d13d55966cf64c3980679459604f71548a1a268 0x4239b5769e7468f88a7d19ad148f08f7faa69badfc3730cabba24ccc966fba6c 0x9ba873f7ab1d4e4149352e62084c6882275b77f7e555e7fe61d19b86cb4d1284 0x92fe5914bef282399acf88b6a10af3962d14c71e61b6e6905c5093e00b8c5efa (-0x8e0a1612fa39027e7758d01efce78fe9885504b9af52f6febb83f7e5c72d4161) 0x0 0x0 0x0 0x0 0x0 0x0;
  Step 0x0 0x62dfa434a38e4abfe6ba39168d371830b500b8ce80c800744e3b28d7a353af87 0x928ac8b469bc4cb7d6230fd8e6fb72ca3de274493866ec32e9e7c6874cb86646 0xa29d924f11c5e3ac0f729f6bb592d9380b8c6f2a296a1ee55d28e5283a333c7 (-0x17fcb68e18f6121e9aa5f86f292f41d4ea2bb61692bc2521ce8cf774b4b36e72b) 0x262ffd17f0715c9a417ea89ab23b8fbbe6b9e1718a543e140419030eaa17d1e5 0x11cf4c9efac753ecbf1a4a656d90c25c9b0f56697cb5ec05fa543294acf2fa45 0x0 0x0 0x0 0x0 0x0 0x0;
  Step 0x0 0x6d46aedaa5ed1f0ad80d8113d04b834960e3323d3188a19c8175dbe88e2e25f4 0xbb0b79adb53529f070b0d6d4122e530b93da7cabb7d2235321ea4962cad985a2 0x4bb70b087e317e35a3783d14ea21936889e07d87b2526e87fa5ee9364f685b6e (-0xf2fa88d2d7393525d6823aee055f940d8850a0d78a23e3da20775ffd4322a7ef) 0x2ea5446a76f1e2d40672abf24778ba1d5d073767059a8503652659c50af9e19e (-0x1149fa34aab7af267e5cc28600f66e302cd9dbca2d85defc5834ed4f8152411b) 0x0 0x0 0x0 0x0 0x0 0x0;
  Step 0x0 0x79d4afccc7dba26d54f5eb856d2ffdd760b6d99b8d2eed0a041fa736f800ec9a 0x7ff37e682befacc0a4b5fb8dacc960c0034df344f266ae96f4ba21d8a98598aa 0xa0ec4593f65e544a2e11d818f3be73dae2ecfabbc22983af181509491e4bf63c (-0x151ec75420205b485b198ea93308d323dab4908cdfbfbb235850ce40ea2efa0cf) 0x39fabee372ccff413c55ba905aadf7131c172e7a00ced18255ec2d3b048c574a 0x1c1f6e34b99a0f814c920e69f6c27b20ca0aa60f08cb1819556dc0cdc2c3247a 0x0 0x0 0x0 0x0 0x0 0x0;
  Step (-0x1) 0x3448039fa5953571d36657a0bd0b2372713bbb739b68ac41b381f4a0bc833418 0xca9f645bcaa00a473cf2c626bca7f65c70990290d1385854327d46c8c171ee8c 0xce6e75b071f8f1915a45036b950401d181fd40e7900d99f37c57a3af13e9e598 (-0x7e1ff754bad4c6b08aacdfde5c9ec139259da522f2b0a6912394dbf15ca39897) 0xaad55baefcc38cfd767722f69f7432ed30221f287d81b97c1a1b4b879535da0 (-0xf3fec1cccc25ebbb864b543860e35712319c1985496ebb142e63567a38a2efc) 0x5e4ce9b1b1ae2d7a41922772de964bf0da39eb6a3f8197c8c2ba4957048dad09 0xadafd1d9e62aae8c7a374ef11e0780f2e99de254d1b5479e37a51331c32c7eb 0x8e4d7a16bb0756f73402c9a201da3665d4687a9db2db7ef59d997ac3527e106c (-0x37efee734681246ea36a6ffe1b29b730fdf8cb938a7297189d5268cabd076d4b) 0x22bc92ba380eec513dc2efe0a648919269880dac2ddea73e8d2e6396b81200ed 0x46a3bb469f33a3b554437bfdd1330c5ba9662720a1fa79d07b6b516a1f67cd5b;
  Step 0x0 0x22784469fd82f466369084f4504d678b8ee7023acc006cf32e98fd0362179929 0x194b3afa4b633ee42dce7cc6e71430ab80b1462c129709174d20b96a2005bdf4 0x82ab1ff605ce0d6ee253985c5c8f5395292cebdce88725ee2c02ebc2c9412c7e 0x24f0c3d07eeff5de97fdeb5ae22f4284d03da33be435331819ae8d6394573a90 0x4a42aac61a118ec2a41869e66cc4c287d30386fa0dcf46f6086a76a136b4539 (-0x1f1b0b01b2129ff38e27980fb0b7094878c97ecbb8b071f2e142622a59cfaa5) 0x0 0x0 0x0 0x0 0x0 0x0;
  Step 0x0 0xa2774b50fd6dbaccb7e24591af11daf0d09a374a6441b9bc4fd7330dceb73e20 0xc62498ffeca50d3b71db3c7450f1006da016fabbf06a26aa352ff5cbad777383 0x84cab9ae862ce5cef3519c72c0d7eef986274d7a4ada1db9063aaa963e59468a 0x9e5b058d29e9cef05a6b9780924602799c585e62a74293386f9d8f47a3726a2d 0x671b32ea034e3d76714657d240907e4209cbc657502554060d68ee3a8caf6b6b (-0x6db219650ff1a428a0094241db742133f02fde99d7e87bb8ffa2eb8ee4fd3918) 0x0 0x0 0x0 0x0 0x0 0x0;
  Step 0x0 0xe011bfd817968568f6632cce36cec71d5edf746f44694d68d29dd9f3529ff56b 0x6041f5781b73df6b03a8990419a1b7d7b6b4e2cffa855edb3abe6c36d5a0ff3b 0xd5a5e0ecef036653bc5ae6e86a756c056a1aea23beff78cbd228880648c75065 (-0xe3a0b6d1f07051e440ef108cbcda7229b2d3d80339998c0cb5eae22815563c44) 0xc41f10f5f7ddc605ca3c32dbda8d71dc764fbb8ef2c9a297ef7a2b80de5feb88 0x592d5f7e24dce01a4d44e8f6fc6dca5f9ec35e14425c352e5865170cca7d14d7 0x0 0x0 0x0 0x0 0x0 0x0;
  Step 0x0 0xe5c4db9ef26235d330e8f4ee1ad99f6626b23f2adb8439e15c76d6d5031d90b4 0xeeb44e5f064357a11c2310a981d97f022ad61545cbc7222a284a0fa36f1db341 0xd03bfcee5c740e63413519e45b219ce0e238d14c1957878da81972bd6d27e374 0x112eebdb288a57f8f79b8bf112e2d05b22ab8668907e500d79f0420c17b0718c0 0xce39c84c33a9f85e935d3d1718186b4138eea0f1d7b11ce93aad77bac7ccb327 (-0x7fd9d347643057cfbb9f43832870dcf42725c467627bb19f1485604fc270d7ef) 0x0 0x0 0x0 0x0 0x0 0x0;
  Step 0x0 0xfb6fdd660e94fa72b45faa014e6d309bae8ed9c9d52d5f49cbfe406a9d69db1b 0x8474deb927eda1b6b5cadd5ad2f081cfbe7d406328fae7b98aadcb4f4d7c6d88 0x3b48cb8c9fa76fa4ffe83e6e031c6830956178e1f9e94692ee8b179b09466764 (-0x102afa3f7a0420f409ba3c5d9b087503f22c7f8aef4d58becc9ff297cba008ef8) 0xf6f48d08d586b333caa8f673c4b611cceb5e58ec10ad113195abf5b5960a9f31 0x685a9fdc90fa0a230457f584c12383792a51cbeb9a7563748ad08b31e5e5ad55 0x0 0x0 0x0 0x0 0x0 0x0;
  Step (-0x1) 0x7e197da066c1f558b902fb5e4a3d56a721dae1b18abb27202e33cca648f006fa 0x39fc7ef19a305a6bdb2f483eb01f313b8f5e32a6fb00c498e9b91b8b01eac53b 0x1bcec398d9a36f9b49b06d185e2062b5996a3c5518154fb49796a8b37b448868 (-0x9332ba57a371ce507a012bea6f1e8472a255b85e5af82207854bb22d36035693) 0x3e1d1a33ea3e227330fbaa83d6071dd58f8424882d7adb4d284950f7e7f2f427 0x24aea97126d3593ab19f69f78d13111fd435683f57b330072de03305de2ac69a 0xc78527a9def18a8e84dae6e1b83f05d7c682ad7d6e458133a646bc4f8e19d293 0x689ee7ab9381638a95609ce5a89c756465756f8ac3c9147def6fde7ca9847ec2 0xa17b2d1f7d6e39e16391433eb79912896313d0157ef3740244a75ac73600c73b (-0x5a0246749d7f8d2f2daeb8e8fd45342f4aa86372735c6748c027b2ee6431e6c) 0x9b8048ecf0c2a7f630ad333878c5ff1c51d70d1c7fefec1c8e06b8a0fcd0385b (-0x24588102cd8d54e7bc290e19411af7f85aa637211422d910f9bbc8b0f71569d8);
  Step 0x0 0x36e19c9fa7f34e180eb76551eda0449b1015ec30adbfb3fc7f0c907cdf2a1d20 0xf56ff3f8ba32780f3a34f994222be094f2a816c40484d9d425636293f0f24cd3 0x2e3167f0bcc75bf21df669f0de53f31a2b0e0af363211862bb08cfd0c7a048ff (-0x3b07e574aabfb76ba243d9e9883aad2e64ce963ae8edf34f8037e0ee86368bb7) 0xbc3f4e81716cbcc192db3dd4b6e9b7d92060c49c6308556352882e1f22b0657 (-0x1e30327b69e06a5b4ca0deb77c408aadbed9bb7f21d3a9c943f8f0a7068340a6) 0x0 0x0 0x0 0x0 0x0 0x0;
  Step 0x0 0xe07a00c8ebd9ad3e8755b0e62c10577297b9433a0f9f8807b2eabecdd664a53b 0x82d82ff1a44767b33e06e3268c6fc3061166280a479bcb894415077e6938e2d1 0x9f9690fd5bad45fff7dbf6fe92754220050e05252b2e3b5f6db7749688b8ee74 (-0x270ebf08c3e9414817b2c2752a613ba6cdfeefca0c7367ec71cdd54211b4479d2) 0xc4d5bb85211413dd0aeb15f7df046a74bc8ad84a08061152fcff2c58266060de 0x647b6833f32d6f37933fbc6ad3b4095351d028391a46e54e9123035172827efd 0x0 0x0 0x0 0x0 0x0 0x0;
  Step (-0x1) 0xc6c837271e03a5845b71d03af11c50bd379b5377ccfd9715a27b8caacd0f2075 0x48e0bc4923c64a5877b59c252ce39a895fbf12eae2931505ac7d1092d9dd4994 0x95af305ec860ce1b50f8028ebd5624702248bb8d2ebafd1fcd2453997078fbe9 0x2f35b28709b4c554b7528f0bec396569b05bb3855ecbfe10987b45e574f215d8 0x9a5a51e755c8b0826bcbc8ea0a8fcb645be5f891294b78c86860d14b787b99bd 0x2d02b943e162a00ce68b020deba3c1befee49829e094da7255009e062d9a417c 0x8ce9640cdffa62a6bfd89f16107aa9f65a604e49f52fb5179b0963aeb96946a3 0xcf82e5a6ca7984784a12ebd30cd40914e270e106ab626aed188b75e1608d4079 0xfffb2e813da1474d6e612e5f283afff7c75732726e979024e158c33e2e395c2e (-0xc2b7fe4d54f4e9c6b34f2a75258ab97b67a793c03e02cd19212b6487c366002) 0x4d901a35a913bb84fef3941d45aa13fbd98a60397898affcdee56106d283730b (-0x4a1b6cd5450f9f8725b8c63f596b1047ae380a2afe4efe1d5af92916c0d3d61a);
  Step 0x0 0x7a8042a929f1a27a07c44f041a82540d24a1581bd40b74d714f2b045a66247b8 0x8c3a7ed99db6918fdb0b6c1ea3ce867d0655e4e269ad66109c02fb211880a092 0xe2aaded9a7381557d03a49a3218d280d6399523c9031197b47ffa8d173a89b25 (-0x103a2ee24d6b5c9655991478c2ffc0a3d12864e6c9f5eb25c84f75851fe39da90) 0x3a9e7fcc311e69b3fa3c0490c8e75d0381f00333ea24cd60357ea2f63ca38d44 0x203236b66e705d42fdcf7f7b634a2768063c99a538a57a45d32d30185807f84b 0x0 0x0 0x0 0x0 0x0 0x0;
  Step (-0x1) 0xb00f39415a38a7382fe0e9e3106471fd720078ab746326523f542f4e4d5afbad 0x4ca194e444f8cae991d85808b341187649bbdb723178854d5b86c40a47d32cf9 0x318e6d02f9cd13ec36435192fa18067d2627e64f5c09272737aa97f985c8f711 0x5155cf824ca8d1791829afcfa88bab0bc31fbe85e51f04af408c6cd0ba043bc7 0x7914efa21799930f1d0c42fa4c099fbd99a11b7ddf9511dfa0c9fb2479c3bb34 0x2bbce907d6747204bac59f1b6aa9980c72e43369d07e7667e4a5cf683b1970d1 0x7a3a9491895231ee36f23893b61b77333bfcc55a20e2e34cb1b536499f4fd18c 0xe976c1ed03eed6d6596c3d2c8e4430bf76de7d52028a570266da41d6804cf71d 0xcb4403050e3e0ebb74086d969d20778319a5fc4b5123f39001e19b250062ae01 (-0xc5931027d7ed83ec51704289b46c0feac624180587566aa8eb926498b875a59) 0x3a5be30299690d5c2839e441e1b0faa20e643d437bca1e5a60b27a63137eb44d (-0x4ae17ac710c60087dc4015491c09bf3de79fd3d8021874ab272bf8b16c166b3e);
  Step 0x0 0x80583caaa1dd2e403ac5acb31c055fbacb50684e80a7e790f2859aec3297d815 0x7f09574096201f6fa564f6bda724b8969478700c5140b5bd591d82674526ab53 0xc092b1c5c7864181810f99262f4b8327d88ab9728410106ff74e3514cb372817 (-0x1b2ec0a2e1819e2946c9b4c616a77542485425ce57ea3972f2f6224bc47bd5052) 0x40585b14a5e53effba9acfb9f66e07ec3f0ef11b03e8e0dbeb10b0e3729727d4 0x355b642bac7c82f154ee50dae4dd88bda2517a41f27982420e2d8195795d2e86 0x0 0x0 0x0 0x0 0x0 0x0;
  Step (-0x1) 0x39bfc03faa86867c53a60a8b6704b27d7ca66c22401ac3752c6c11e38541e01a 0x3a7bb3cf344b595c059500165775167e17ea1af5b86cb97141590d5305f9b23a 0x9fa0ba09a4513587b0ca524dbbe3252e91cda6cfe58e6f71b348e3e04502a9c4 (-0x663cff713a8c44a57fa40f7f4d63fd25c19c4afb1c03be918d3bbf59e7266df4) 0xd06f33cd656df7c0aa341ea45f7d95364c15df357e620dd95afac36fae5863c 0xf76e28c86f1975d9cf5ffd445f58d0cf836240d32cc689ab7438b9f0f59a551 0xd9edcbe3d3a8f051a98708eeb04a6d0c0c97ecd5e1c6427df91cc8ae01471d6f 0xacbe18efc6ada46b4ae85a2f5dba89263817ecd20d82fcac7c80cfe0b0571a1 0x8928f508579d99a927c6b5951bc6a7e7174a1ca56e6057171fb733aa87c1adc7 (-0x6914e5c7aa6703ba987de9dddedf13521aead75941bc03959ebe1f1ef43ee87) 0xb985008c1c926b327ee8dbaf679a271d828a5b5248d1462341884afa0f574281 0x289854f91977193956219b66569c39805142938a35f1537efd535447ce1c0034;
  Step 0x0 0x6deaf43207adb916ad79a134299c7ee69763b80022af09241c30697ab31cc4a2 0xf9a45839115a94e76fc3e17d3e3a397acbde0fc731f697b73f2fe1496e554757 0xf618a53ced0505f9e13e47058109679de2e633f2ec5a40728c253f36ea9f636e 0x746af5392fed63505c91346df8a0076037fcc477a388a85948923355b96bede4 0x2f31eb961e214d33f43a80639dc9242f5783770efd80a247d3f66ea75de7b415 (-0x668d60384779df325078314b7eb07273ce703e8432f964a14a624f7af392599f) 0x0 0x0 0x0 0x0 0x0 0x0;
  Step 0x0 0x6a9fc7eef32cea5c2b543e9d65909336717f2c6df42883cffe54384d979c2bf9 0xe8963fa324c6d532c8122344880e5b68feb60db4906ab640cfaafdc5dae233ab 0xb579d95778f305cce7e3b0a6607ae2c0c4f05a371ed57db37227d040017908d4 (-0x20d53bb891ef33af18ae155c5f7a6a327db12b7c937dcb734485e4b5f4090414c) 0x2c68b54c04c1564459fe484e6418c09778acf3c5ed57ad9175a9c1695a872a28 0x71a7b4140985e0e7a5f89f0d3fe5e25aaa155cef727e9d151536541bc0c65f6 0x0 0x0 0x0 0x0 0x0 0x0;
  Step 0x1 0xdfdbc290b24a983457d398a442beaadef01fe82ce1dcf571d85045702a19ddec 0x619ebd358099b81085c5781d67a5098126380d005733f73e78f1fa02492e1316 0x26b8a833c2f9f846820093bb8f60eb799e9ac84c8e5f20908d7dfb34950ec9c4 (-0x13c90279a29e717ff74ecc21c19baf93afd243197fc257fac158bd97178c19238) 0xc3c0999f51cf3a6d0b2683c704c0cb3b9323a58b3b4b4bc455980f9f767928dc 0x760576ee65e4167831460782c89fcb3b1b6a151e1e6efe68aeaf4c4223cc283c 0xe93f542f192bea8bea099bf788b943bb49207db5cf35da723ff3d8d3fc32e346 0x739684e4976f8d0c8a175056f0700b448f7f0d288d532e584d1cc8f5b5772dd4 0x2ef83660ae0472d9373d204d6cb84f9a2cae77550437ad7e8bad4ff2057cc935 (-0x2ab00ec1934feb126286ac6b195388486eab8088e99eb6d664668fc8b955828a) 0xd48456e91b339ca84e9bd799dcceaab431f527ff6027d015b8a8098dd0d47e8d (-0x105ef6a12c059852433e49c93003964cf50120767d7dd728d04fce10b5a4a313);
  Step 0x0 0x953fec8decd071c18c274d64d8cdd7dc5baed8645c689ea1353b4daee8ef072d 0x155e363ac067f80bbec8b37e72c8ea1529f7a8bde684980cb6ce95bd4afa4d1b 0xda9907a4cc18312bdc561989e801efcfb4dc765dc7db6e16f13548004405b179 (-0x65cd576b81d6e20c89d48116f4b190fe56d0d84d20bd061ae60f06ea3ff0fbf5) 0x57037953d51ea7a629f28828676ab2308743fc8c382286361d19384cbfaf2ada 0x36ee4cb491922734b29df943ec6477290abecd1eb892a8e4f3751322b2b2eb29 0x0 0x0 0x0 0x0 0x0 0x0;
  Step 0x0 0x620ec41db83ff938c3657fc68eca09c0598a925b38dde52c4ebdfa84560aec35 0xbd7feb7680cac69a5ea754bda329a99a9c481453740bf91c098e487b346013b6 0x84b2c25cfc55b4cf944f6fbf4bd2fce90940f7314f4178d4be94ed3992052da1 0xa21c9ad032d52dc8a43d9d95e444b711a3c652e3d47dbf1bf690098710d92e6e 0x258f4f00f01df664e0a673a0c5c94b26a92e940c7e7d9f6937630222e03eeaf3 (-0x40669a065ce677cd50337e808f417531e5071274d80ca1c1170ea1ad30be1ecf) 0x0 0x0 0x0 0x0 0x0 0x0;
  Step 0x0 0xb9c606ec617c8ad11e7a8cc5ea7311b0a5a5a0e620e014fb186c949b47b7e955 0x7ed3a983fe790091ee0dcc91222c1cf3076ee303bb0765e0592032556c226469 0x6abf2948097062898db23fae835c195f4917afee359ece3871edd9b45799838b (-0xe43abc2dbee329e144708f62fa1d8cb2c35807df13e2c50500cbe8d6c09fcec1) 0x86cfcf30e18c8b4f94562d1e92d87faa2b6586581b3c50fd09ee66d142b0b59c 0x2d7af695576f16f78bd8c0b48756f31d229a4def389369d4071421cc9d8b679b 0x0 0x0 0x0 0x0 0x0 0x0;
  Step 0x1 0xe3601681619d48d66cbcda8fcf2eb2e2900622b0d46ff1f9b8c2a248c8c32b33 0xce008bc6107ebac90a6e531e0b2aa125359f09635a9e2c6e016ad271cb97565f 0x20b00442ea9e3c0f39f07e6c4c8e8acb6edf22a6b74fc4fe479ba0888a17a85c 0x12007bd0e10094cfa6ba8bf8661d222df4df2e0e98664c81aefa25432b57dce 0xc9f38bfb20142f4893fd7d267f4c7bfe8cb64ebffe89d3515c78d6221cdff308 (-0x4652846b9454b250962ec969137beeb1824084a527ab944410160fc6f6fc4e17) 0xcd332537e7aa80a07cdd14169634cb48b06bf4b0502573f9149fd3e80817563b 0xa44e0231e39547c4a2fa508589cb66e39422521b10ac4b3d883168fae2716cf1 0x1b9936e4badaf40133b8754f3cbee7cb7374448fea1f3fec7825bee4134d7759 (-0x7c6df3f375c55efc6ea22b6ee3f7974fb5687f3120ab6b79dab91158232aa9b4) 0xa47af3d4073188f0f53429f168af6b05760e59f4468d472982f97c8195af867e 0x216c4ccd1ae209646904ee655c377cd0c8b867b56e97b538380cc74ebc5b5f5b;
  Step 0x0 0xc5cd35a5daacaa4cb7f0e19d5b88cf7f3f95779cb5b69dafdc53020d1bea61cc 0x49b97b94e5b6aa808350e70b828e7af02d1192f49f71a279cac8db86bccac2a1 0x4bfa1ba8b2bfb575fd08a23aa2f700687208a67c5b9a2fbe0b916e4a9f806b33 (-0x111b61251b2747c66f03556daa0ae390fec3bb4fa779d3347c3770e07cf40f738) 0x98d57910d24187b2c01aac47109538b4b0b07bfc433686d24e83478c8b6161f3 0x45fce782500958384b3a4a7ea83e8e98cafdce44a2ca77f33bef2dfe6e55dacc 0x0 0x0 0x0 0x0 0x0 0x0;
  Step 0x0 0xd76659e4cbc286ce18594d9cd541959ddee98c6830d0f6d9a802500058a0346 0x3b9fcd56e5562554af65b382e5bc972d9b6e77ca4ee97f373e900d7c1fbbbf7 0xa706296c320ae3f366b9be045102b17a076172ec2149c5a19d0fba8748e58d6c (-0x37b43eea918a5c7ccd3a68f3b03a509e305cad9c0f54921f64a0da2f37949624) 0xb53d13eac561138534ebfcb1651a51c04d61b3f2d2d1d2a669cd5cf80e8a15 0x3ae58fd3eac6113614690f3da2f5592b035e658efbf6da975ab7f4dfd122823 0x0 0x0 0x0 0x0 0x0 0x0;
  Step (-0x1) 0xc1cdea24b81baa55cf76f3de52145dd32df318da59a02f32d557bb2fe1ec7883 0x8511383c269b8a7b2596c6b437f437b6738b794d0703ce50730a0a8085b2280 0xbb2a4a2eb546e7e719a8d0068b975b55689514f5f7eed807c872472fe57805d1 0xfcba52b670dc3a45e7270397d5f198a9ed33222f1d496ac13f7c6b3b44725c68 0x92b820acc547d9a7d51c092027e00dbf9886076cb69fbabcd3b379f8dc0f8765 (-0x37999495dbde34f9733e8f58a234a9cad66aceeb51fcdb6d719f6802774bca8) 0xa5b05144f48f6b27638903b9b530abc7cd294d5f7a052436bee89c9e9d8f3833 0xb51497dc091c5a7382c2791eb8c7de0685913214f0bbcd0e4b2437e0ebef41fc 0xb431dc2336c95635c44a301235bf18e41c2d0006826a9044597e61863acceeab 0x1b79bfa2f629167afc3d1202b55627fbc1cfe20e8d275d5defc8639620921d6a 0x6b3cc233271a9cdcdb33a694ebdb5bb1ea093a4a3870aa1bc8fe9c0fc4467f1a (-0x6fd10190b7ecf824fbfc4ef3a1e8f124b9abdccd095be411661fcf978011a5d0);
  Step 0x0 0x792592657bbf747137eaa93bd24228b8bb67847cef5a04d958e9c66665c4dede 0xfb87eed9c1b5aa5281b79eb2b5b7b9f09dd6b7fa805e0d42d3650b869421c6ef 0xd69bdca66b04ce23aa9b721da8b74d591205c260d16f1f684212a256164c4ade (-0xd5b65a95d9235f5e118c640262c7c0b6fab7d5e55940220c43edb9eb0498b467) 0x395489e7cd5d34b3bea7c0b4c08a92e19bcd0c998ef03d6e4f7b8b1f3a0a8263 (-0x2156db13556f2042c5eba5edde332608bc4ffda4ea198b75fe5d2aac5ac0c1bd) 0x0 0x0 0x0 0x0 0x0 0x0;
  Step 0x0 0xbd57618d754bfcbe6ef2c36e6f4fcb37dc8c786334b5eaa414b58462620a647c 0x2c7b57fe5d61df09f3da959ff3aa466b480e00d1ccebe7413b3e3bbc9da827af 0xb0c2f38dab649f6c5bc69f75f18ecba2508d1b2b518de557f0044f40e5cbaf81 (-0x1a7f6de5b0a5e7282bd7f01d2adae64e1ba8de5a9ab611117adf1520951203db0) 0x8c0a23dede8e91c3d8cbb4c41042880a076d3bafb7314f147d8f8e7ed4ca997d 0x9922f78e04ba5b038e00945fd2103765b85bb3204a3e0f053ef541455e79d75f 0x0 0x0 0x0 0x0 0x0 0x0;
  Step 0x1 0x54d296efea383b5fc79dcee4100e1955387b96ff09cc7842467e88cca6a9b0a7 0x6d85afdb4dabe4d8c57e13c3470e32fb321139ca7731c8bdb7d8e7f99c3d5a1e 0xe91aba7c3c2cacb77af739fdcc134e8b4c50a130bff0f1f8c793e0baecd3b144 0x5df2db15596625e8803e7e0f051d8b4e926bb621d74c15802900efb560220292 0x1c1ae049886a12d2dd6b1528bdd35aacabfc7deb733c9d5b9f4de3b78d299c8b (-0x158ce5a9ab478602e401a082e8d7939b2023bcd5ea118c25196d8d8d421968d2) 0x2b9ffa5d1cefcb98bed147f761ef9b184310685b185df70168a2500cd8ac00a5 0x4e0a4348f3b36bd1e817268593de1f560b917c449b8c1e6d39927115cf9b1616 0x879a5e99b3da74485b7e53f47a94740551b535e395d57a95b3892813dedf5072 (-0xa03229e5d0a7b842dfe1348f892a7d2fc283bf4a793d028ad0047f2a9e1ef91) 0x76f221443aba0badea88db1f655d4b9743b1d177ac2041cfa07ba79516c7aa2 0x55d67af04cc5f81b305dfa276236227e8c693cd52305a98680e512f71bd288e;
  Step 0x0 0x23c7ab89126c37c9d6545408aa2fba78203f048124b8965f0c813a9f3f637a51 0x9c9fd58cdb34cb6d69453c5da0d7221c6e7047b9589f016547c83ad0b09c80e 0x1e0255b0dce49f302986dbb4e7be77061504921383dff28deb000f3894b26e90 (-0x217706a6eddfa80125a7df018c0a6a4c70a97861be3031390f9c87163886327b) 0x50034a3a214d824da29de2d6d4a1232b646948d78535dea094ea45ef728a699 0x98a0541b66fc9690554c503cce160a0c2ce8255a175e997639c1e1bdd503e7a 0x0 0x0 0x0 0x0 0x0 0x0;
  Step (-0x1) 0xa46cec357d03635e986b8ce422d33539bdc7d59c863fd0f214ce1d67de2787cb 0x29a749283311a59f11150192dd83c69ab09232297088fe47477d2f6b19c99b70 0xdcb360cf84329626683fea8857fc32b747b4d8fc4f06832ceec911b40c77cbf 0x256d0d93ba0a32f8187c61cc861f7f0b0d5c5b163a23f8f5b8577ce7307e69e9 0x699bbcfd18dc38d563a07d5fd4ac59661e31e568e5074beb34665dcc73fb7093 (-0x147753539729e573579495012038cd675d4b1ab20f42d393d43f37392002c7fb) 0x6be2a6c411d7ebd845c4aecb52fd2ff30e8a8ac0ecd3481bb6f1436ed7f646e3 0x49bd63cec4b7a925e7e52fb89b00cba54e37ea83e359bd0ad794248e6dd64dda 0x1c8cd8777736f133b84fd32c4d5a539929d5402fda15aa3640544208b91c7ee3 0x3d75b1bdf9988a056b4e0f4e96ddcbc004c4279b6e8716168c1d3ae4cf0107c 0x2d774012f3341dc5811db83eb72752b57eb456cd4bc394941e164471210770c8 (-0xd85a58e1be38f749586b1f99101719bcdb13e0079110710e7e24ff68e34d460);
  Step 0x0 0x327a7b9c9b8c87ea353ba9b2170da4c68e796f61406537841e00111e345b62eb 0x88cc0b0632fb5d554b682319bf2e55f0aaa27a756c0a31a6899268499ceed0a4 0x1d44e07352b50353219e24efcca714c762babdb16f7c7945ac30db2f8cd6ded8 (-0x347656ba48e515e9b58b7ec11a695b81d989a704af21f2bafdb35c226c6a27d9) 0x9f412e343ab1733481550ad5965e468b7164b11d476e64fb1770b838750a89f (-0xc6f08172df8d20a73957d673e9bf90e31a9893fdebd779b6e7b97f896ad3ed7) 0x0 0x0 0x0 0x0 0x0 0x0;
  Step 0x0 0x628a444203b3e00c6593ec46a0547d8e8230ad633f11c5994b64482289c9b7a0 0x7eae5a62c66d20734044841615e7e42f8feac07e7a0140330746cfd8de02c04 0xb1657252b5573d15d4d958bef197c6215b3ce894d40e375436f65e0846f13eda (-0xc4c3f1534714065780f8f0e1774d110b3fc38446f21ca2acd4114c4eed6ea2d3) 0x25ee26f05a22ff64dd1995c40197b156a75bc36b73771a02b390f195aac7a94c 0x319bcc0a23ba8b9ac8b1734a33513e21dfca6cdebd91c790724145121152d9b2 0x0 0x0 0x0 0x0 0x0 0x0;
  Step 0x0 0xd9a124866f722d825cfac10b967654a0d2790caf033adfe50b8d007e56fbacfd 0xb9e4ad5b19cf095fde2ef26bde9d25988fec7d05c0d9e8b3a31552bb12e70863 0xa152880b9030a299274eccce12fa6798ecaecb4b25e855994435095cf86f16b5 0x12ce13fc2e079dced39daa0b88ae2b734acef54d6a25b15285a9d308046ecf549 0xb902955b98406a10d0b2fdc0bffb8e5155df477248d08c05f9ffd40385a46e62 (-0x974cc1c423a20fc5f210e71b6f08b15437571c2f4231c9ca47410469b1a30c8e) 0x0 0x0 0x0 0x0 0x0 0x0;
  Step 0x0 0xe54fb8f614e696cdbddb49ace9bc84c976a049aedf1b7781234486bb9671e5e0 0x4653267e3e0d304bda24e2a8b3192dfd9e3fc0d0dc132ab7f81ac3b1fd1d3498 0xe2532f0482de6047671fefc1ebb5325d89d1e5d2804c779fe0aaa7be4cb3ff1b (-0x73f2cb07c53991e76c0725f0b48f805518ede69197f4e1f40b63f1557c008be8) 0xcd67b9bcbc4fd4718a9bbf2ff10a98cc885efc39dd13d56b7fcf67d8e4c0c15e 0x67852b0c467730983d6ad7fff138fa6a9bd9393f59b7a0f25fb291323b7a2d30 0x0 0x0 0x0 0x0 0x0 0x0;
  Step 0x0 0x99a20e89b24f3bb4ddb56d1a91e622260d4901c5bb00a1e90e33114efb53a626 0x99de8c8aa55cb258aefff0df973b8bb2b0e0ae17a11c1cbf62dda699d4ad2a26 0x93e9dd8731e6afc1a726f3a86b51aa45f47e38c37df10f820bf45d7ad0c354be 0xd5b13d033c89c20eb39fb42a5ac75cae85fde02ab2116ae0ca98c1099df18eb9 0x5c331bf75a6ed72e1be2449883e3aebefcb2f888b84f9b75be27bfb2226e45b2 (-0x322332f2bf1a2abb9da5681c35bfb431695c7cf21a6e0aa60d56ade2b2e62513) 0x0 0x0 0x0 0x0 0x0 0x0;
  Step 0x0 0x1631e4ac39265c6a2b32504f6d453c872aa9eadaa8fdca51ec8c39219f07bd0a 0xe53a535c29d3a9f17ba64f25162d8eb442925a4a46120543d19a8f8db4304240 0xfc6f9a2de1bff19c1cab0b34e3fc9a0455f31d3d28a0b4dd1492c2094ff3821b (-0xfbcd7688b06a5c4da3c3b94bd924b612788e823a49ff555d333e63b095e1b1ef) 0x1ec9d06f1f04f41beece4d4a6e3bae263bc2c9c71f776598f6e0f1f0f66d228 (-0x68892f785940fdb659ef7d68bd94ac142070f28b2977ca517224d098ca90623) 0x0 0x0 0x0 0x0 0x0 0x0;
  Step 0x1 0x42c2b682bd9e8385d630f90a715c2f3b9c4818144f7d2efeb905b8212f6d4c97 0x2d80dd12556d04586aa995957ee16eadf3e308e00f37b8b16a461653c40df713 0x5efe73ed97032e50451e3dcfc51a3310c8257b44477738b10854044fb988e91b (-0x1e41aa6b252d7df92563dd07f5bc66b9589286764d7bb9523817b2644e01253dd) 0x1168fa349b7442a77931761fb65b89577351b7e9f82272a5708515b76aee7a82 0x2fe98e068afb382fcd3173649b678eec355b9b1673e118423dff7eadf1c7b7ab 0xbb2f6d96b87e1b4d69da2bfa04f62ebaf9b5c8c326829463eda37bc1a3fc1e49 0xf96dc2c79d63349e71098f6aa101a7663d71d3a077d3729ded5db57aec567a90 0x3e8dedcfbccf600ac187a842259386d8b590696e989b6bb97020a96aaee8ed4a 0x3d9837237765f73e043a5a002443de5e60b686790c15aca87b4e90e02f41731 0x88de52e426a7feed61b70982cb2a331c20741be29fa1cf251dbd3a694a63b599 (-0x951bd3961a88605b1c994a2de23916805adf91ec6cd4dd092087560b956c04f6);
  Step 0x0 0x2abb7a33b0fcfabaef244fcaeb255dec7f9f7c9d65ad9746c6dde9730c9b41ef 0x616df85c499aa08b476f6861ec52db9121a10138d6601c9bd11193013ee6973 0x5f155055a54b815fe5fbf5e75ad85fbc48f610a24ed7d73018e1689cd4ed1514 (-0x2c431eacfea18f9bf27372efc01b771dac8908907920b76e731f0097eecbdf12f) 0x7220d64bf0ef06180c31ec62b4e7defb1ed86ae7c86790f1b054d149c362172 0x289e75e98221bd660ee084b67ae5d2d6813a133c87dd758ab7fb2a5e55c6ab4b 0x0 0x0 0x0 0x0 0x0 0x0;
  Step 0x1 0x5ad50b3e91d5d69fdd168df516f3f3b10fd63605bc34e9b4b51dcc2135ab3357 0xf77e93259ed142c5819deb0a8278a3762c35a3fe21762d24869875c1a0a5b151 0x5decdce509c30348fbcc671b334e919540f6f8b8f8f611a74d59439ff7299283 0x430a00be1f397890d67b1790235af9f1b246542ee898a18458a842624d885160 0x203a7d33d561f5c6b9f55b4e417a05184e7ed694c6832bcb9dce6df421fcbca6 (-0x55a75b0971ba387e929dbfb89e33cdeb8dbf5731b4264bf9e2edc357e704b1f7) 0xff455fb7b8f808f0c816f655006631b5458c3347c6902127f131da4ce0b1e10d 0x9495b584f9305b5fc68492e4613c65bd1af36da8f159ee2d33ba7d66bee5e8f7 0xd70b3a47a0c7944bd4503903d1d05f98ab507a174f0f53392993c63e0f18761c (-0xc42a7abe2ca16d774fd4f09858c915b938e4f1689e43fe0ce2c8d91e3ec844e1) 0xfe8b477dbddcfe244d2b932cfbe542adff44690336c07c0b6893af89d9063466 0x62a0c2828a14ed02d2fa761b77f18da372f71fb7a8f70f80853b8936ba33c20d;
  Step 0x0 0x8fad36a937daf0fb0b5ce79d0cc3e550147fc76cda00d27f863ad36608fa2445 0x80cfd1490eab4b667c7d6e6f0da10556119f7a1680c8a80f49c83355b4718b15 0x25b54c7f1990444253ba1ac1b02bd17dd59a01a5834552ad5017513b2807617b (-0x1156c82de8868d7ba94c658b3a8787c85a68449bec39e84dce7acdd3ad63b028) 0x50a2f844496ae2d19c55ec2f7a85071dccf5b6ae4fedeb958689f2780655e26a 0xb18eb718faf7779a2fe890453ec07b5bdbbb2c438fc76a8d70834ca49dac1ad 0x0 0x0 0x0 0x0 0x0 0x0;
  Step 0x1 0x9f69629fa988378c9442efcd51447474da11986635b7396028e3b9d6e1094fda 0x70d7c983559a512442c0a1596879325a84cd727034666c9bf80c955a29d408be 0x73978be6dd49980f1e070ecf6fabc8e5b85574b80f2ce3c41daa23e3f42342ee (-0x937b2d2ba37b543d1797797207484969ca996500b067ec93d5499d4cf7148054) 0x634413e4c4d2fc03485184c3219be77a4e1b781543ed596a583508d9a87ad944 0x9f19fb5f095d41edfba61afc63702cfe7789c86a7546acb6d8f2a526ac1cd53 0x2176ef01004a02ea94b6e140505f25bbf3d0cd84722f305a20c00c2788ea604b 0x181df9ab250f568fa193a72e7d3264792007d1e3da823f7e9976ad4c300a9d73 0xd631056ea6665571fc7460c9a4050f7dd28dd035fd6a6c7d03582a165f0ea939 (-0x81d4d48f50280eea8fd1bf096a37aa1b6fcd2107a4db1810bceb52a49ee58f1) 0x45fe0df7a821865d72073f864cd66fd358c761c4297f5aad8b34c71afd6c4ff 0xb992c46895fc285f8a5190cad306387af86ae8b1a020b6053a1e4adb2655d2e;
  Step 0x0 0x22b2fd47705e1a774b9680429eba0905b0de9f4a25badae39c049f8708659f68 0x75acbfdf064c6a4a00cc9e93da8d558d38d2addb87a93380381a45824d149375 0x4c02ae57f3f31213296c88063fdaef0996669c8149f2de9d950e83d06f569c44 0x333fa279c3a15a2717a188f19c2f2df934c442f8849291a87b7380c6e05e78a8 0x4b4086c307b925a34499d097e923a85b897397da1d2330c984fce1d01d7741b (-0xcae6028f636320bd59849f4c69011f5f7c9a60f13832cb20b44226816f98bb3) 0x0 0x0 0x0 0x0 0x0 0x0;
  Step (-0x1) 0x4217eba1a0fc210b4f22aaac22f1d483605e2c7d3e765ea17558a98047ab1610 0xb0962e856f1afce99d5dc2e426fb0a58a4ebdd060c960bb29d3d8f034fd039c5 0xc2e30419396c7e1ec13254a90a0713dee8b2f0e4a33d2f1d7c8a4d8be306b554 (-0x7b067d8fa42413d43a54e43cca299f7c3d78aa8020191a924c487c0404e07e18) 0x111057bb97ff69ae23ddf70bf536b13dd6dd9cda90874b90a02a91748eb29faf (-0xf35afb9619b9f7edda456126db9ea4065121928602c94bdb8d4a9df1a2d6968) 0x2c4391692b81cc42ea3c2ce1cab7180de8ec6daa3827731c118415494441dbf3 0xd6ffaf0e2d5b9cee2104fbb624d78c96d17aa5dac0cd93c69b173c38af069735 0x86b8faaca0cdb5930e0f1cb0007d0e88bf25c1f55276b18a0bb2edd3b21475cd (-0x15c1375b60e39f7dbd993bf26339f8f5cee4460bad187aeded870aecbd295eda) 0x7a74bd19e40fe774b0e820eb03d258c5d90b2924d1a9bfec33eb464abc39d18 (-0x6a44585b4bb8a2fd9513864986df10933594740ff7be5f8e9343ff40eeb538f);
  Step 0x0 0x9fbf44e14ecb7f66c14cee67d9bfd01883b78873f9f02a110c4c9a0699cd30ee 0xcc563f0d1814d930823d961bb5cf871996cbbdc04d4f63fc362d0dcc60e8dbb3 0x98e4603b137b333a70407515926f6d3f90d5648b3640183ded466f849ca51a88 (-0x1758e50374c4b51a64ea1827b1f5d7b5d137ff7b76913aa2c79586554cd273644) 0x63af26781e4bfa8993632830e4e12574d7fed24bc0c961249e27fa21dc6fecd9 0x6a733d9a7a0db9d72601cbc2d92539129c482732208e61ddd0cfa1642d2dd79 0x0 0x0 0x0 0x0 0x0 0x0;
  Step (-0x1) 0x1eb1f4d813cc07c85139626b2462bad70b8c82dba92e6db49f96769299048e16 0x86fba86429d3c4a991491eaacbfa64678dee3e23d964845faab0dc451173907a 0xae59af7de08dba5f0948f91ffb99bd31617c4434bec4f1e12aa96744ae86e0ca (-0x1c4a29dd34a06c119fb851ca515f47d9a696e632b5864dcbcd638c6f9e71c31e8) 0x3ae31172549ff2b33feac3900acfbf4487ec174cba32c8b299e2cdac7b8ddfc 0x850d39ee06e501f47a3b70a656f6994733fd77c026e4cdbb73902c92979e66c 0xd928b2d4cd529c1b0665f7f77a373505a7e5e2235a13d78117bf62066c0f9dde 0xba4ed75fe5ae671c4932c8b3901cc2ccf2d3bb4477ee2c61231f853a96c7c743 0x3ee1e6521f3f1fd74bdbeda170f6e7a5415a6061887fd65a00759bc162b410bd (-0x476ffd851c56ef18b5232648bfb1b8bbdc766ae3440773b75633fbd50a5d0530) 0xb83605a5dbb8da880b99431b24983f325253b0f0b17d865596b01a79aa29c000 (-0x2b89abad65d3773059678f7b5fa478c50e1c74c210fec134c0c05389a85d472b);
  Step 0x0 0xaa04c4a0c32fc2778cb367cd966a563be1a425c360ab74223303fe61b00a35ad 0xdbe0ff7b0d0a694eeab6877274d966da55b21b107cd88132edb919a515136d5f 0xf2fe65999dae0057abb0c132bfc7c9429e886fc6d741ff0c1af78b0f47f364fc (-0x1433d9e3204665f8c0632c10ae078860d4b5582af6a5c2660b68fb93b69472eda) 0x70ea553cb0326cd73d19085d3a77e89da3127f0d3ae584c1e09c20ca25dde4fc (-0x164baeb3ba81d896e97dfb601eec0d8e89b4bc0a38b534d8bc44d74e95bd7d5b) 0x0 0x0 0x0 0x0 0x0 0x0;
  Step (-0x1) 0xdcfd4b44ed9d9dddfb351854ee7b2f418830abdbf9c6c24954dbb95190e3431c 0x5bb1fed9eb98b738ecde96311341c310f1a077f9b82ea2408f813be6eeb50772 0x158cffd26ba8a6188edfa0184035f4173c1b751e32ce4224cfd1d418920c38be (-0x930a183dac782672dcc6eb89b04540fd44155b2d01ff1adee9c8c216b885e360) 0xbec453fd138a5aa616d949e0bfd388379251d0e2bc0f1f89c03c0a39839c3720 0x6ea738aecf48ca246f10c7d4f67db0d5eacc7bdd346ddee3172db64a41d870ce 0xfaf3743283f2a919d445d6158d4a4e29371c2f4979a7057c42cbe99244b3fa79 0x9acbe4d12d9d001e0594610ee2503440d40607089819e642145c6aeed120bc75 0xf418fc324daf0f1472e808269c2018b8fa5da90cc832b360ed7217a105464e1d (-0x281eaca112ccc27fd764612261dfa962cee29703b6af3841e9a2f212060cd88b) 0xf60066796c5aa8f89e07c139ebfa2f6b7f60ec314307897167a7dcc270dbab7d (-0x3ddb4ccd2dd02b1a507525fccfe4251fc5fc358974d63ce3f7ff4254d7e6fcba);
  Step 0x0 0xd6b3a70f5a9de6bb94e0677e86ec1f4c16776821bd7bb4a618fc4cbb46953bc5 0xbd68322d9e2307503e2a1045fefe5237005f8ce1a738b3ff10327df45f44bd9a 0x7d1dde84689b456129c5697551d2176c7664de2455e1008b5610270611d5bb9e 0x80a28a1a18343b71c5f482d2e8b3f4247eb57188c70faa32ce9acd2ac5fc91c6 0xb410d9616c0e991974e525caa973ca277c5e14bf7fd91a06d01b1655a43fd0eb (-0x1d06f28b8499cc58499f1028a37f89d4d788748b109643cee635710472628dcc) 0x0 0x0 0x0 0x0 0x0 0x0;
  Step 0x1 0x72f038d6009495725f5b339744c67de87158d3fb2795165e08637d93db1c4891 0x817f63d88ab8f6d77dcafca185d747d3f913f4a388544193e86c1d0144c96bd5 0x25d9a34f46bba9109eff9a218a69fbb744af7d34449ded4e8306f19cb54d631c (-0x1340fa3c44df83492443c5b4c3728c3119de9d502a39d1c1c218f3de515812713) 0x339ad40969fe92e1772ad301629595db3001ca7ac81f8235dbc8c11bf90904e8 0x1ae5e3706f2f2f23a19569f17e18d0100150e1c493dbe75fc14b45ee9fbe6625 0x94e8ffb6810c99065eae66ca93c45c2f0b5592b4963783888252189fd6cfc769 0xf293cca82c17ca9d6660456e71b1e247f69d0b244c64dca69ea43a8edb2224b2 0x73f68da4fc689087f150829f44ec43877cf05a5a31ed4c19a693d51e1faa47c3 (-0x2dcb98e09ba92e9985726a1922fd2440cdafbddde22e615c6060ac9ccb743bbe) 0x569e3bbbd60bcab366e3062d2128e05cbc5a684cba4e711315692ea3b0159c3d (-0x41c6b80b3925f7214a512b1cfdceed551a6512db3559f3f11603c4ca503db77c);
  Step 0x0 0xf4acf90b5da47e5d0db31ff48f40453ab82183bd838c06250cb4619ea9a8c0ea 0x1aa0eb285bbd3a31beacc151f997bba60400504b3ea96cbd4c35aac7a38f0b3c 0xe12b39539223ca83cec2c50a3ed13a1d565a843ee3b477c2f0ecb4989d35f803 (-0x1d3e899d8f1d10ac46968195700b9318266e23afb67fd4c67f7a3211803400d33) 0xe9da2f9e2de8b23489455df90e144c0543efa95abcc3e2d5917e6d1aa1537ebc 0xce656832f69eb6f493810bed0dc7b5cbfcb3d87680ef3b84fbc7b2c401e279ea 0x0 0x0 0x0 0x0 0x0 0x0;
  Step 0x1 0xeb16358f2d828955ec915f07d8bbc830d5d1abac8845639e58576ab6ce58673b 0xf72f655e04be2f212dd52c6e7f225b45ef83292e1ba4e41a2431a757acee2863 0x21cde3f2ea4a595d41dc1737c3b70f4295514230a1aa4f6f5749f3a22b472d53 0x1953d2e25aab4ca3067fb9b5eccace7bbeeb649aed39a87d2af6dc12ea60fe6cb 0xd7e1c842f53fdbc23d2192017041716b34e8ffc6a9757988c100f458dddbb742 (-0xca89ec936763359e9dba2136e13577c401892862a401a2a179188cec627471ad) 0xd72b8b8fc90a17e31f837c670f313da6aa4ad3e9b6e7cc1d49670e5661f049c8 0xcad9c4b97981eb2744a2b29be22cb2243340643bd57e2dfc8169fce336896448 0x4c89ce7c951002d503c70dc02868ab634962fb737750e8989ed2b6f91e6545be (-0xa51708dc95a9de933f2e7bef6b712e8b9588379f3c693ec5cfb14bb069416ed3) 0xb4da2bd466ec1e6b193fbd6a84d5fbefb4257ff782e6928e6d0a7df01a805532 0x25437477b6b582ce02acdcc43a92d85062d183da03ff0a8a0a08c203fab78af9;
  Step 0x0 0x3cffa60d7a2203606e485332028e32b9abdf705ee41a658eae12a9262619609b 0x69019c2dfb46b795e48ec6f3b2fc27e53751b618790bfcd293a539b520db3a1d 0x65514f74adbf5acf928373c87c8970b55fdbc0dff932b98f38bb5e63ad86f0c4 (-0x1bdbbb47e9cf3ad3df5718c6ccae004bf15963d634183f702a5a4722a3503f757) 0xe88d5229a579194463f03374315b2166130cb43947304ca75ec5445873364d4 0x17505f487ccb8298f9ef1b98a00deeaa41a3062bec5d9efacecc02addb758e79 0x0 0x0 0x0 0x0 0x0 0x0;
  Step 0x1 0x160528fe894a13a0acfd5de399efe80708b4cd0d48f6704b97da543c3c6d20bf 0xe02c4dc24d2cf08a23f37862f6fa033232bd4efdafaf9f9323492fbddf493c5b 0x983847e328cb36d5e1e6a9de6f32fcbf21966f70fae396cae009cdc5ea965e5f (-0x6fc8e71953cf918e1a5c1ce1fc5b982586ec5fd492ee7283d00a61f26206cea0) 0x1e4e32661ff8366a2c358c733c677461a00dd926ead6f11345f9bc1b2296214 (-0xa40122d6933270969d5378320c1e2d12009ada7d73d807439796f9d1721449b) 0xcad8495b5ebf3e001e94dae9a3e1825b8eea3b02ded75660babdbede6bc6ae29 0xa23846da9bba32c7907545163775e183e8fc7a02f2c14a2f737f00ed0183738e 0xd556ac702f5c223a1f6ed66a97776247a98ce8650b84f98161198a8bec50250 (-0x8966450c20fd9fcf72174c4c272af41dab57193e6a83e20f307eb44635c1df0b) 0xa0ba0a80b174f7b7124ea24d7f86f3d570e9344cf6cd6b58471ddb4ff031621f 0x3116e519893d903654c9c985e4d2d62c00e986383743aa5592c57691b8a4e1da;
  Step 0x0 0x7606d7eb14c157837398700e6cba3170355dbeddf45b777ab834b218ad32e499 0x8062cf687a9b8731affd91c70cc6cff9c0d4de3f1b8177679ac1f89ce1921106 0x68424e0e0658eb1ae6be846096a0ff82c07d05ed97a67957255181fa04e73cbf (-0x128165d35faba127e9529449e79aadeb32d35e7e0afcaaac4007ec8a040649b57) 0x366a4f3bc2ae39b4e90c6b595839d82fccabd6c32304281efefa86b202b414b1 0xf994c98d08df0d1f78712c62c02bec1722d48dea02c5450f9019cd18a173bc7 0x0 0x0 0x0 0x0 0x0 0x0;
  Step 0x0 0xc68683c647306912d45a503c6952d3cb455fe77d8fe0ce03f1c502a706b7ddc5 0xa20a3eb31c490efee56393907018b2aa65d4b3d277f282e5c40c8966675b2d6b 0x5bfdde9d810ee51af5f2258a5a5df1a5be0946e4ae7dc6875f78f13107b4e7c7 (-0x1f74bf27266fd6057f58269420550d5618971bb4eb71178b15b8702aafe9df8d) 0x99f45a85877a4a2a65e3feb8c5da803eda971e5afdfb39581ad6ed261ebb95de (-0x1a192f0ad30518702f9c64977ed5aeed10c55e9d3b54a24655817ff1b7ead0c1) 0x0 0x0 0x0 0x0 0x0 0x0;
  Step 0x0 0x7e87c7bbeb9f580110a62454ea728d4a96f60467d2774f895736f04cd1fd252e 0x4bae6e681a4a54a536533187f56072486a0e8ae5c1574933056b4ab00b64c3ae 0x367d55a1c6a8cfd688e371978b2dbd46f09e06d30bd8c227899e91c32360983d (-0xd8c36adc34b9b2ac8505d506cc331717c7a73b5441315b8e398a9329d8f6715c) 0x3e89f0a17e82ff952a8042c41631d3bf85c0fd226daa232999d8b9253bc8ca40 0x2aaefe50b0afe99fb711962c25d730f7260caec259d3d91aa59a3fef3abd2f0e 0x0 0x0 0x0 0x0 0x0 0x0;
  Step (-0x1) 0x21bd4ff4ab7d3020693192953a377dc541a1f11e589731433beaba63db89e7da 0x95ed65939b913e493a2c2a8eee9518203f1070b056bd3ed26ef673dde8c4f57f 0x831052c419b4670fc6e550a06773cb0f0bee940a4b75dd43827f0895d034717b (-0x34c21b74598033081482e9d1254b5926fdc12617796a2c60b309880aa603bf1b) 0x4725a9c40e6c38c491918c1a6a6034d0053764d7e1a2d61356db1a90a3f5737 (-0x9c905898497fb2c352fd7490548bf0c0f6eb4fc2eaafa8306dd10eb47b3f34e) 0xb20bd5ce0780d15200051c2a460c5901bd7f49f60a24eb7eb91ab5edc7ea7d46 0x24fd396251c05b32aecc3af48588450df70be2981850a44bc2f27084277745c 0x8c07c41a0ff40f8facd38b8a76240e0b3e099122b62c79c4599b2fd162a856f0 (-0x44f6e516c939321081f2ace2d3f5b9c302558f0a987e1b41794a6528cb7157cb) 0x7bd475df1088bc5385777833bcc1a095ebc6db49f2e25150a4d88b4749436f7e 0x66aa6290d082eef1499c2201bcc57226f0d3688790690c252eea5526a29f61d9;
  Step 0x0 0x1b1ca9d8ffe6bf797476cde0dccdf8dffb658237cd33536824bd80dc0b415977 0xe83b4624c131b6b0ac9b721e2ccf2929cdfda2e476aa2195e8652fb1b8c16183 0x67e5d428513988e13648c1e8974221c1ecf9552c4635db6df51f9c777df19589 0x1d98f6484e429a3dddef26d1673f9ebf85f4b9db2906843524e54fbeec6ed00d 0x2df0f096101efb66023734acfadeadd8a4f2819c63ce84d1cc60adb75fe54ea (-0x18599360fd868165d3079364be8e4de47bcc90e6913d7375b021bf578baf4766) 0x0 0x0 0x0 0x0 0x0 0x0;
  Step 0x0 0x8947a69f150a02bcd36040a5bfc420704139a59aa3c1b6ef0b8aff194e358def 0xb5c680f4215938d4ee2b9b5bfbcd99abef43b3ab542e4216911e3d253b8145cf 0xa868d1f1cb0106bbd6a9c683ad63a66fbd6c2a68554a993614ffe2b8cb8a3bde (-0x2089450c8168bdadf1f88abe0040dd0b2d3b6ded7f4dc5ab5d0a2c98f388884b6) 0x499dc46466d2d90425840b1fff9163ed96a9a7067a7e3875c3201428f55ce3b4 0x1b0e9cc0e39f5b46df8517fd0fd5fd9625d0316799040f2cb42935c0771bd05b 0x0 0x0 0x0 0x0 0x0 0x0;
  Step 0x0 0x6dc384865475048645327eb1bf4e51f5b55f0f28b7cf42d188fc81af8ad317c 0xcb96f6ac0dd433c0d3bf4e7b6f92558954465ebd816a8fddd5a8fba50d2a7e92 0x8de83ffccd4a215ba09aaf8a69ea1e716392fb18e90009085f5be9c53e3e9dcd (-0x17a303cc306493c0b75a2d8f664a20292bab2df0aad373b92777d54fa9beb42f0) 0x2f10142dbc3b31e22abdd1144e2cbf6ffcffe71e4732685d4da3b359045620 (-0x95a6b33f326bd3590d8e394d33caf76805d5cc2fe221c8be07bc50c09b54e1) 0x0 0x0 0x0 0x0 0x0 0x0;
  Step (-0x1) 0x12da50c4fa2722241d3d0ca9dc4ba5bffff09bb5d0c2a8f20c5063d4e2f627a3 0xf74e6978b8c93e0aff6728d697b3d09c601748b9d210bd095809c646f2f5b8 0x5cf0e8fd4bf295582c329dbef6a67e36eb75338f79ff20ebdb8e1c1b04e4c2ca (-0x1d0d39a9a582c278d99e47bc3fc07601171af5da53336ae9a334d7e4bc2594745) 0x1636d895d86ace50cd85ce3632d81035b7d7b277ccfeb3c9338be6c61e0e113 0xeec05b7d2eb71c9e460b4d2790fc4f68b30db93671a086f1b6df21fa27207c9 0x1dea427986d9c5fef0e72a2b8a4c980e0445150720599e6fbfec60d128506af7 0x1f426c5b64efb8d4e928961e3d40936b684b34f9bf13d0b83105a64ac8acf9a5 0xcb4b539a9cc7bc96e6b352574df3caee96b23d784baf9dad83b30c5a946d5ed6 0x5d1d68131952f5d5e2c54bc236c475ef90957ba61f7f523e14a1effb43b7f1d 0x37ee96d2379a99fe71bc385efd70729182709c25d3b53f6b86ed39c0bdae9d3 (-0x38a3aeb899cfb4c6d357e79c66a89c603b87394f45ea0a4bbee46bef483f2b5);
  Step 0x0 0x1b70a10cb046cceca55876fe52b5e0f00c304ca41e35565d6557109a32061165 0x7e5b5cc35c9b377880afa8a5330fc9c63408dc548bf0c1220de73e30161e66f 0x8c57ef5198d568bbeb0e4a1e5d76eb8ebbef024c83a014d6280983eaab765293 0x20214ee63c5eec451496dc1fc567f851a24b78f76dc6a330647ed02efc91ec2c 0x2f0f386008b170d4842b911eb0293ceedf5a583d27309060303d4044cd147e0 0x2810e83725d80a399385980d9c51ec6191442a7ecf54dabd4da8518a3ba871b 0x0 0x0 0x0 0x0 0x0 0x0;
  Step 0x0 0x29db2dcee8956f30370825cacdf265c88b0269c3cb795d785e497734f7a999cc 0xa6b4198b42c3c3cf2bed415a34ef044da1e5dea9226e3f53f25e53357a3fb0ef 0xe961c5a7dd8f92dd176710a37dd243e681b7785e1738acdbf7987ccba0d11369 0x2d296125ca394e07f6aa1217aed804ae9c4421d4dd9ecbc78d4b3a08853f9c18 0x6d7f053b58c229d108ffc5c2013c9447ea054afb003de94744860f76946033d (-0x19f704f3a95fc200abbbdc5fc98a8991179ea4602011173d1d415488a674bc04) 0x0 0x0 0x0 0x0 0x0 0x0;
  Step 0x0 0x3d18a4a5994f188203d462917556c98cfbf898a68346988c1fa12d58e2380444 0xfdca496ad451848b37222d36072d8568088201fed77ca3e9948f29b23e8e1f2f 0x1b168610d0925e5bad25766d67c9a31b3d59ca70133b905fde691c31809a4db1 (-0xd644a8c42d4e8a6533509986a351d59cf46180d7d408c0fd839568cac5db1a68) 0xe94c0d64295c8e523f587ed8a632fbf63498e67e9708d4ca3da0593453b4efd (-0x14c8ab7f638c56d996b91af78312b3b06e750a4923ad8946e67c2650e20655e6) 0x0 0x0 0x0 0x0 0x0 0x0;
  Step 0x0 0x13e1c923d7d5c0ee7e87fcb51a26b6fa503acca6fb1b418d49e3fad6518e548a 0x8923e9445acb42c34d3136118640664685e164619366214b206e3e381d194e8d 0x42f87eda2b2931c846701d1b69017f749ea73918041427a3d57f7e11ba22228b (-0x2ee973ed31da1a0cb341a118ca570ba8dcc111c2a5e099dff357a15effbe2aaf4) 0x18b4afe829fb95170045451e30f1cdcd6a231c20c5fce4a37c252436132b287 0x90f3b045c7b7caacf12e7e226f9f006feb3c505836b2a90cd867737e172d0e8 0x0 0x0 0x0 0x0 0x0 0x0;
  Step 0x0 0x5e2f6ad345ad8291625ac374522bd1b6832fecf07e0e86f9d100a02d47df4330 0x812af21c3539643878f01202d78e98e0e7a1dff47956c73bce3efbf38a53a913 0x3f96c927af60cb4ef72c506d5afc08e08200aa546a4e59c66877eebaa9ed5c71 (-0xab1f11d3df7215e4b253530c7ddfecfc802e92cea63470e6104f719dce1f0928) 0x22a6db3baff980e404b2e4d89b579b3b0139a9a72ded061142743f8905441d2d 0x2eee4c9cbcf31dbcb7434f968b4a46e7f97ce64b622c60cca280c05296b8a1c 0x0 0x0 0x0 0x0 0x0 0x0;
  Step (-0x1) 0xc40a78740f310e3d9d1bc008153e731d01ac5b3f3d8ba4d2a1c1744314ca3738 0xced2b29a528042aec0550cbe3a2c38c3c635cd15f24353b9263add1e4e8ba762 0x6b205125a7104aa76ae34ee76da76fb913cf062a9df33f61076970e29b2769f7 (-0x6220d5fb2d4f510fe937db1eeaa408cc20f9ce3c4ee86fc773a315c735f0b938) 0x962008dfef21595f273991c89a5aa74f8ded1e799c6fd8d1eab4f55972e9dd48 (-0x3b779c7825a91022fa583a5b32a4204f67f36502706595700e1fa025f0b29f50) 0x5727c8f8e57305ff3a430b49b24465518ba63b494a6a0435ac2e8262a6fe78e8 0x129e9c95bcfaeb8188b14779c63ae451360fd73bc8b44260542e2abd7df094 0x214c7ff04ca7bb57aad37b533432043bd44e572d5aee867ebf464f3195955100 (-0x35210427024bcf6cc3c24de2d491c0cf4b3343a13d160afd00574706b398d61f) 0x1dac10c8233c0068867ab874b350cca6fc5064f652c630c009fa1d7139dbba7d 0x4663685da031d7cb2c21ed7b2c9da18e538c750fc4b2249606cda0595a3a8047;
  Step 0x0 0x164c4e2138918f0e17cd2c4bc936853a99260341304918d9a13ecda1cfc698c6 0x52e8f89d2de04151f4bf751861bcf1035f7143d24489713d81c67a2684afa4cb 0x646c2beb1f4f2b6678da67fab07a43c0fc4a0b30ab0a65aad7afc94875237058 0x5ccfbac7b2dee6bc4fc739d2232fc4a4b0577d661d69063028fdaf210b034ad 0x1f1342c333c11f7e4e4f0e3eaaedb7b5b103092372d897f256acc4f1e37cccf (-0x7371ca6dbd314fe537412dac022c20e0c9913d48c12e52b02d401c3864b341e) 0x0 0x0 0x0 0x0 0x0 0x0;
  Step 0x1 0x83a9c58e1d3c64c96c1c546643c0efd4af88332cd7e50a977a141d88aa61c6c6 0xaa59d66862f2c0c61c5d22b17ecfcda2e32cfe602573bc086675c54986ad83da 0xf5fc3c3078e9ccb907a2cbd0b6de5a073a2d800fce25cdb877ce085d6deb24e3 0x16bdace9f099578502f7bb0a4aa023706c52b045d51446b977617350279242c8 0x43b730c623b9a18cbfc3ea416a0aed83a7054a7651ec84f002c0a9df5ba9ec4c (-0x2cf8be7bf98c0f7a1da9541d4231fad99b55a7f6e73415dc20eb7372bd624b2b) 0x886a45c2d1331de9b69a836873914e8408ce05ab88677b290f0f1589ef5009e4 0x65d06836e5f06c5e8553e5aa97bc9a833f9d20d95e34c9a96828bb88608adb43 0xa044e7ae1f3051f780061c2679b9a12598f0bfc3d6e754e5b3606d4db4ea9007 (-0x3fb8e1b92151c5ff84ee7aa926262e86ce098d0a8397da4222b6ffad2dc81c57) 0x48b1163d1f4f3d61816c74a9e681d9e4835c73e9310ff7403a403cd533a300d4 0x2485761f42473079184b4bb32aca0e3900457044bd55e8bca00a19454bda3f6e;
  Step 0x0 0x66e14be554df3d74b76543cf6c6c1bbc11f58ec63e8903e55cf2c027f82f563e 0x43561be9d43684ac0c6a32e8bf546d276127b8c64bafe93831cffae6f627cbb2 0x7984908e28edc31cf3dc5aaa8ae3ccb69534e3d920d4b02fd7f7a9d82f27bb00 0x756ad170e5939c7d5c6ed9a889d6cbe19e8c6396b40cec4f1ad6c587322a334 0x29584ec16899915033723ca0d9ce9eec065dc287ca444ed2d4846b3acf6bcb34 0xddb121c89d6bfcd394d1f890e71f55455bcb64bc2be4916809a97f5853acfe9 0x0 0x0 0x0 0x0 0x0 0x0;
  Step 0x0 0xfc2e8d9ec4115477d039f310cbf9c88777a8121cc33882eabe4a2be1fbad348b 0xfafe6813917c86f1c960ced1d6796d72ce15c68e0db393e08dc86bd164df28c4 0xbdd67274fdd69fd56e607fd9f4b3af6c427017c7fefbbf74356e459065d45050 0xba469ff5d34513fef7d4b2a9b1ca71b4d0d9114524cbc177946fea3547d24549 0xf86baf48bdd48a40ad703f65c0f715febbc484e4bd09dcbaaf823910b087fcaf (-0xb4eb10d1133745bab3826143ca12eca29f385b1651e6cd6703cbb5d38362c3ea) 0x0 0x0 0x0 0x0 0x0 0x0;
  Step 0x0 0x4f3abdb70c0535dd4c424f21f44fe1e143a5f7e70ab52fc946df58dfbb6a05a4 0xaf1bfc725870553d0e1fcd56ba392ccb1eb0b5fea9ce5b14bdfd6f80f069aff6 0xdf2ab753238dab01c7f1b2ce3b961fdd12e672096ca8f23f343e21bb33c4dffa (-0x26cc0271ef789eb48e87f572aaecc1acdcbd24dde23a370b35779aa48a1888453) 0x18854e919579c2ce745d7fd6194f599d35112601e7d58d8f660ba3457638306e 0x177c48bfa67f18a699d1659e8a700bd1b83f0d72b7a81ad1b3061e2633afc652 0x0 0x0 0x0 0x0 0x0 0x0;
  Step 0x0 0xea63de98bc75ea03644a6f190b669510a3fdf624ddb3e589d803729b38cf7f4f 0xc562c7d268ac70fc50f2866f01d7f40509f8c2be2f0dac6b0cb2cbdd9c04bc6c 0x4c331b653cb122e6ef16f2563c05cf72e23cbb15fe697b36b226806d5f9eeea5 0x315263abaff46e4c551519a96df1a1511a648bbb6836ab916fea94aa523278dd 0xd69ab9e5fad14ee4056a1f8ca5050983b9cfbcae054d53949791b553cbc6a1f7 (-0x146566a5382eee710a429b04af7e7c28e6acaa0f42c0e6f73a8a1f91a92acef7) 0x0 0x0 0x0 0x0 0x0 0x0;
  Step 0x0 0x4063198b2347fc2d27c0498d925c601e399fadada238977d254e48f4eedf0639 0xf42a80f29a7d78398ad25af4064f41ce9d27407ac98b66ee1ff34523f5d9473a 0xc04de28b145ee88de3680dc967d997fd6a75393e3469d43a25e37d68f0f9c449 (-0x1a23efc894e3e21186ffbf611c9640f7dd8ca302dcb917d34d26f05c06d3f98cd) 0x1031b32265ff73696915c4e801443dbb83ac1a6eeee8bd1149157e595a6e0761 (-0xbc40a2f9da3aef5c8551fa3f936637b44a62d65d96b327dd99545dc46619134) 0x0 0x0 0x0 0x0 0x0 0x0;
  Step 0x0 0x454c9c27f689771274097bb6190552a0baa8ac3f5994994bc87e2adc3ac7f5bc 0x72f68c60fa625d9846b6163577d3ba6e445a8e795cee793e2799f306be64e6ea 0x8ae27ce085467afae28c994d9605a1d67871c0352d1d0326db496b36e863fdb7 (-0x2528611a0f5e62f4fc95cd484e7d929324c769e87fd7dd58566032847b59a59cf) 0x12c2631ab4a3999dee92dba295fcca6e1e4be7b9d1df58b610a13aa583ee134e 0x22f9ab27d2bccf0b6303ebe148f71228dfbf1431f17374850988470fc18a7740 0x0 0x0 0x0 0x0 0x0 0x0;
  Step 0x1 0xf1ec833fb1d2c0a1a6fdf074df9fd2721905d8049bb64510eb2ceb7c2671c84c 0xd1c601cba7e797771731ab200bedcfb51f7ea75c16936a829e67de152f8c1eb3 0xa76c96373d5d6decbd7b0629ba4b3d4a81c892cf16e444ceb04847fa0dc8c22a 0x6b9d87b4e9a9fc62bd5dac814be4863399ea70b6508867924512e9eb25f15501 0xe49f29a1122814bb4b037402e7b2a2fddd3815a6cad629d361c03879ac8715f7 (-0x5998e565c54a41724b39edd4857aab8646089c27374e082f80bcef2b58e0a873) 0x30aa69238336e32c1f5cd887bd7c0f46ae6385f339e3986080ede156ec40597 0xf006fc2b404e4a3cdb170cb28d1336432f5a2df0329d953b89c95d0b1b3b1677 0xcb441edd7a2cf908ad2022a4340ac58aadb84562dcc8be948b67d5c938b2bc93 (-0x1e3a17dd29cc3801ad523c83b94917f9001d64a789a7d6f535d4a7863fffb56) 0x94058dd28cd598395c75a14966d9f20af1a64b44ed2ba373fa6fd2abc6ae0 (-0x5c052850ee3f57d6059f37718167938ac2a74fbf8e3def69d74614606988a7);
  Step 0x0 0x4acca879d266368644823ec8dcb0e232f509a9340156a34a0b40d4878a1918ce 0xa5c43022e5b2f453ebeaf891239d9cdf44bedf890f2d92825a77748390ae61cd 0xf153f918bfbdcd05e1084eb1333751c2c2cc65a6e3cde7cd7a335d65c426806e (-0x22c5ee913bcb936868a246df05b14930233e0669ef36f99747e7831eaaf410aa4) 0x15daf50374857d8eb339988a5f77c2df6dbe90ef9c5561add0fdc421d48148f7 0x15b2ad14430c24e801218e1573a5fea39d4f6a3dee483a7f6fa8f2590615ec35 0x0 0x0 0x0 0x0 0x0 0x0;
  Step 0x0 0x9af9758c413b2c921b628ed606665ce34a5a0dcf3f72f4ab13afebec467c4f94 0x1e86c883bda16b737fcdde8359cafd858fc1194d3fa5986929b096d138667123 0xc4e97eeff66d80e343b90295e8a53839c9c0b6a790030f419d7b340ebac2c309 (-0x1dd41a88c43a04b1a2dc336f869a8f13d95ee160e481977fe9b11139fa3d68b8) 0x5dd11482fd1cabb6fa5dec7025c89c06849a4f2245285fa3d792d71639a6872d 0x51deb929022d80ea1acc4561237b602957569598d5bfb3a2d15203bc33b5ab2f 0x0 0x0 0x0 0x0 0x0 0x0;
  Step 0x1 0x45c51137160590a97854eb8f5118432c1bfc30db0c289e8671e1524b00471acf 0xa1862d215ae03772b06b65e5da46bc61457ee134af7217e3b303aa115a066cb7 0xe485b49b77b84877f595a2dc26a50bde2f508695ad7dc565c113735da30fe688 0x60696e66a36372f1567bd6caa9ad03f613434852f82f73ca54555bdb381883ca 0x1303d2fb44d3144e7a03adc55b20350a0cab4023472eeacf71b072a9e9329b9c (-0x23b3ad7632317cbbcd12d94328a68beaa306373f00940f5a46fed4936c37e1c3) 0xcdddae37950edcefad9fab9aab01e281ed1e8df351091aa00c58bf814bc75472 0x832a7aff7d9899fd2fc0515d84ae0974e35971c05bdae645863f7805d6272e53 0x2f6961831aa761ff7d4d98137fefc185d509b8705cbb809dba50fc2931e20cea (-0x5910db14e3fd98066484c279f97bb951692cee44cf4dee73246838ff321acd08) 0xa58cc8fbeccd8d2ed63418c0660209ba7fa0aa198e80674206e9ca0d32630d0d 0x1869b776e84b82f2d3195ecce4894b3944f79abdbf259945bf9968ec0f535aea;
  Step 0x0 0xcd4a32c646a4aecead57a966b25a2732cfbc388b6d0fe8cd7660ae8bfda3d2fc 0xa3eb77a2daa350ffbb0ee97b5eab604db2838b1f1f748130fd35d51bd92d740f 0xe1516cd2b06d2a37789c3ee93cf7e7a24883271f50c8bdec7af7af962316afea (-0x7d9340e3be3ac9f27ec5d8d0cc03fc88f09a43fd77c746319bdb04604b3187f8) 0xa49fead396768f295616c81997d812fa8a89bfbf03b734125eb1dfa312b168a5 (-0x1a44089702a3a7d7223e6722fd8d959b4a5ce34b70ba8849db88df1d58f2661c) 0x0 0x0 0x0 0x0 0x0 0x0;
  Step 0x1 0x20c5876c324113d9a8b88fd03226a51c569253b5fed433973c20aa28685832ab 0xf3d2c07b73f997505ea2388a16f763e9b6e6cb422ece53f4645dc0a89bdd42de 0xc548b34875b5ee60e07d45944775480266e11b5f793a3dc22b6724619d4647b0 (-0x1013107e340d8603a8ce984e883e3a0adbeac596638aeabc7e0eceff67e3b9ffc) 0x431fa44c4eae21ecfcc7e0552241156d0e51f0684c73c9ca2a6b1e27ea0ecc3 (-0xa3a905ae8bfc8ec2fca41fe3755d490236f2077b232cf89f5cd3830aea77621) 0x3bfa9155a8424d2587ecc6f75506ffb18442889fa12b603a8ada0ef700814f4a 0xc24a889d4aed066fe25c9d48344e33d464aea12ffc292de46268984b6eabe713 0x200f4e3f011b899a8a78afd01165852b59262d5021043eca83ebe665210a9084 (-0x2d3b338fe831fac0b2dd1c84d4ca1e9ac77ede28f2f8900f1721ddfab900ab6a) 0xe0d743db76aca8ff7623e0e31464ca608af15f9a30cc56f47e544603cb2dd54 0xb9ae00588727667ed8c7d64ab8aa8e9292180fa47f72b6d398a2e29316daa86;
  Step 0x0 0xc4c88ff218302abdaf970b605681ef282197565746e553f4cd662dc0cf3f100a 0xa1f83561572ee91c8f1377e271501a9fad735c0c81faefecf5d9eddd004310d7 0xced7e07a2eb4e17697b3357757772abbc2d1888385825950661b32f1dffc533d (-0x189157a7e0cba8068391daadf31175b464bc265b1ed1997ab310ec181f7fbe818) 0x9743b98c8783a23951df1184f4554a796edb916cddbc5b3a3cb07ffacbad9e99 0x18d85a3793ab4da89353cc44861c4061b8e6d53b78879566e1286018e6c6c569 0x0 0x0 0x0 0x0 0x0 0x0;
  Step 0x0 0x3dd0ae7045d38aa1bafeac88e6394c7b7284050915bd64cca3e295413f3a1f3d 0xe7b43a22296a60d1346cd8e74151e171f7620b9c7f01f497106bb036e483ed83 0x3502c7ab6bc58434419ef4aa6bf5ac367132784aebfd499a2a8d94f8affb419e (-0xcf8a51baa2059cb18b1eac30951595a195258b0ba89b2f4a637a2174231bb362) 0xeed1d3d7d8235389408508902111970fa0ee836f2b5f33f52ed0464b3963aa8 (-0x10d6a56a401c11854000158d5ec2ac0c10d67ac9b862442343c93559dee30229) 0x0 0x0 0x0 0x0 0x0 0x0;
  Step (-0x1) 0x7d1908e589744c8213d3c8a345265d27d5892be42d7c10f101c82c5969d97911 0xd4a1304319b2f09e038ba989cc6540279381d2143041af0463e7aaff5924c603 0x764257c9cda6077f6ebbce1556631759e8e7e80dba108c9f8e9a3073c8181426 (-0x241552a2cfa2d4e17cedd75c60fdc59d940f1f33c21e8df57f88c8010e3f89fe4) 0x3d217523228106f793ec68f190beac5f3d3f0cfa231721bbb196e78cb8198de8 0x95229579d5bebad8c625497f95685db406f95f3eb1eeae77ece458041963644 0x3bbe08768270f4b70a062964aad31bdd474cfe25c3a9eb57454ec4c9852950b7 0x871a01bae87f484f074cd1bf23c5872b0f7b014328c9784f3490f46a613ccaa2 0x7a6d64ba4056fdb2fc72af750f546d8d5b2ab97e22f5e9742c0e73dc639bf281 (-0x25c5f8fdd0c36740f1788326b8ae07d71c7e127737bb8aaf1bc9c61b13b132e2) 0xdf124f73e4274726e78206ad72be984688a315b4350e2349091f90bd39d229b 0x1217b49e1bc7aff1513268731d47e5e47161e0447e742d2a29cdb570cec80450;
  Step 0x0 0xbaa7ef5093258fd23adb9aed86641466acf9a9fa3efb6335b669306f7e7115f0 0x79ea50031f2ec81c94cdd481c8a8b886a6fd98816dffa83f1113328cd254f594 0x65fc9fc2ce3060e997692f60573fb454e3617d4e4d17cca6e509d2820d3f5f42 (-0x235dbb6931407d0c4611ae76938847509d498c3ec8a6640b6f5449604b15b057) 0x881875ebb8c29207492b0fa5ba0beb0dede86bb651cca966ee9691b4f50d49d8 0x99d4d902e2c8ef337b38ef38888d11761257aa1fa96a47515f329ab83db6ea3 0x0 0x0 0x0 0x0 0x0 0x0;
  Step 0x1 0xdff381ee8915a29af9e0e5063c9f6956bc3348360df20226d90ae755faffc1c6 0x1e14d9b623d49daced7ddb1eaa7894aa9d6faac881b14bbc19aca27edf5ce136 0x7146159967508589f7467c5512a03bdee2ccf6f34ca4e2868d41e4ca0c8cb8bf 0x442212764af5132e6ca0d24a444a662957f35ca5107d322162f79a3f4f8fa95 0xc3ea23fe438858c5f0973a94d12e6185c0898dd9ee012a5538b8802230e6a73a 0x50564c48cc9a3337084772f503e2073a4614b55099e1530ba8c6ea1f10ef794d 0xbd7c6d3431e73d8e453ea56cf790a67a8d60c2f5e1c98710dd143a700d932d14 0x32bde0038becd95cb89e3fc7ec77f97cde4a0d9a1087ba26e934bbde07e24020 0x5bf5826f9e5c4d9fd501df9c92c44592304d3a685662a0f816ab63d1a4eb3247 0xf4fddd9282d2a5e701430be9c7594e5a870e357bcad1e413c9efa0b4fc2338d 0x8c40f5b997163bc4853e4febc2bbc766bf3a095746a0b1cb4f2edb3545a38c8d (-0xf4ad45670ae64e0dbbfcb18c6385c6cb21a0e1a2f2d3f2474256d0e500f88b2);
  Step 0x0 0xdf7f72590ba946ff26fa25135f5c7f981aa290a690fa35d3a17d382639c928f3 0x9a1d40c07bb450d2868a77ce4a4d17c95cba9838e8977deb35bc41c548ee69c5 0x2c5dd8fd7fadfbb715682a2f2b7a1aaf80dea8b1a0b28b2951c3b7ad55a85947 0x82651ffb4087df2bba9ed0cdfecbe762c6165567fa66fde1939da68ff1fa6933 0xc31f48aa8cdd31ab6364429c8d9e8c28eb35e836fab8b4122e2a0f0fce90135c (-0x5a3f8bc25acb7906836270b810fd3ebc9c72fe749201da80ba779983f0d224d3) 0x0 0x0 0x0 0x0 0x0 0x0;
  Step 0x0 0x3b2a6668aac65c6d7ac1a7e6bbb5a9281879c8f9d448140d567b19b99f29a767 0x864505d333365217c29c4a20625a3ba40f79331c438454c07b2ff30daa0acdbc 0x5fc4c2d563ea9663541234d70a9e3973804054610864cafae5f11d9b0bf3dc7b (-0x101d3ab6fd7e53339628ea3eb331ea0a6340cace601ce733385be02806ab2e45a) 0xdac923a0fb39ccc1ef38af622151d328396457871ed97c845d3a1013d7215d5 0x4961efea3c8803077ae98892c14368fed97a44bcca93095efc3ece264cd8f23 0x0 0x0 0x0 0x0 0x0 0x0;
  Step (-0x1) 0xd009d804466411bbcc10e722f1c693b240ae1355756b3e6a60484943295d028a 0x7501052b4304dbd9fec2f5c96d2b7e8e031d419b8c7573c0668e47005c24e9e0 0x3570ec0a604d540adc5fe44896814c0a3f5de61a734be9578c73e6ee06ef28a6 (-0x379de4103f7036c3d9f93aa1a36baa5a27b15787197345ef30863d2911a5ba6f) 0xa90fff688206c61e113eedf290b3f57af55d8a6b7c0cd87eb67d3844a3f012f4 0xe07ea7e31749987610d568bd45e7ca9b10af3519d2eed78e692ae2b46427889 0xb1637e73ebadbf231fcfc02ba56de473f43e19046bc1e8728c9980a9d000ddc2 0x2f20dbcefa07382520826117392eed7656b11a78165284a7877cc9d200152581 0x817f2c16a1d4d362d452a2e3e3c729b733635a0552d90e07e9480ab297f3eb95 (-0x2de57633eb4d14594702d680d86d167f9a90f8cc0cf363772e13729e0709c754) 0x7aeabb87d2ef96b4d95038d54c3b97aeb77ec0c9003d0c6af59923db8f6dfd24 0x306b24ccf5f4f01472a39dfa520c06ea404a3120baa458baad3e1cc10e6a413d;
  Step 0x0 0x76bda6b58a9c1b354b1f35cce67d20f391d6ac87a063f45fa25e014c7d02433b 0x2b630bfef996a4048ac3bde90349f4788a1d4af8623795a4854091d8a550f399 0x37749ec9ee59d26aab469c611f7226aa5cfcdca7694a97192bccbc7ebabd17da 0x5e19dc4bdb16f0b6b893916a3be3a359f5eaa554e580de1da99649f69de70c52 0x3713622f2779e644347fdb41de44d60884912a6fdde735970dfc8ec7e8e74f02 0x1bc435c0a7be3304a832780be8b015a5de2c187ffad6ceac3a863316299caf7 0x0 0x0 0x0 0x0 0x0 0x0;
  Step 0x1 0x8523176406f0d2244e7c8ef8812b578dba7244e323458476d178ad23a11d3ea 0xb2d6aa2fc5cbaa1abe821a559b421b33e9a6911bea20f388ebd7a95e8948d478 0xbc7bd9a224378b226855cb90d64775ecc299e6b78785b71813b5560a2f7f0e51 (-0x12745efda8d49bb964a8ff82898c5e36cbd6ce38fc7106ca96229dafe5b18238) 0x453d7b1d9bf0bba57d827d1ee2edc77708a9a36cd5ebe41368c3e3f76b29c6 (-0x4671a25e91416879f784d8eae26905c7337b33f0e0d8f86c4dd18d8f20980ff) 0x1ac8e6b122a9ac1983d399b7193d2043d45a931231d69f59a9fa66d4e215129f 0x82e2a9384dab61d2dc0470337f544a942846a638e28a17170a6c1870df0d91a7 0xe331ba8363dcc5a19e125c0b137925e21c161de3d08c3cc9d239c4b96a2324fe (-0xd66550e1560742347afb0cb416182f1c35a4dc67488d274968d82d6cc463cc2) 0x2cd6c854280d1712db51d9e8423161e61f9a60e1c0f052a15ab4563d0321c25 0x50469f04f9ebbf95d8973ce7d2eaac8322e6b9d4f6677bfd15b7e41b6fc0180;
  Step 0x0 0xe64dd6523cb66e63b0930317319acc92c945fd441116fbef854605a6108b6c0 0x4743de6167d3cbbacc4e4280d65fa6890af629d13f18cfc96e0a700ea7ae97f0 0x531f3c9a65aa19f202a93e0d61e6b515d3f46a5d169088623c973ac4b0808afa (-0xaf347d6e6b496b600a39460303087505f6e9f4af94ebccfe6c3a4c10c9b2d430) 0xcf2ff4c7352de0ccb241ab9d02ce392a10576a2302ebbaacea8726f7542b3e 0x35a2caea2f55eeb7ce8ca513bbe6e0c42edd356bdada37690bbc08ae9284cb8 0x0 0x0 0x0 0x0 0x0 0x0;
  Step 0x1 0x66031db0661f07cbc92df77e886433f86c8914bc590d390d0d290536b297a5a1 0xa32228b72549a09698bb072aa85cba2d9c7ae9833b9bec0cb9d91a1e4730433b 0x9d05b7c8fe10d7502c8d4ab75b130d345c252480bf564e14f355e777e35a538 0x6bac4458d19522acb63e35cf23b0123dcbc2dbd9df0842094aec95ebd85f089 0x28a67bb26f9b0b529dde056190b42b9af26f3839f3fdc1106d529426e37683da (-0x249bafe0a8fe60cfb4828f379d735fc5f530d0d608728d5bfbc989b9be18bea3) 0x5d567709c78054efb500cd962625cfe30bd259778bb7fb23b05ed86969189f27 0xdeb5b86d27b3be7cf9274bb922957c621958234dc58353cec0e7dc6627ef604d 0x21dc091deee1d46de8c3d4a088608f2a98e68015bbf565fc169927e27a26d308 (-0x28f7e92b93bc65d176233b7ee03b1e1462662c28dc739d7a7a9f56e4e92d34ec) 0x2207efb16ee74f799aed18e60400af0780eaa16ee03ed7c57d8da9236a2aa05e (-0x15b8ba7b5a2951c60b22497073392bc83c113e4765b33a662ed5aae2fbc7ec02);
  Step 0x0 0x7ba1baa33e2fb2a22c0ca4f4bd31ca69aed188bf13883d4d93fd8be0f008a9d1 0xbe89d6562ab2eab4c79b973c99b1016c9efcc6b37a1c00aa2b9b04c3fab65066 0xf2a17ed42643aa366aae52d93216f01f2fa9e6e16e36bace44f91429285c6e9d (-0x2248acdafdda9f447f1a54d505f6fdf7b429b2421f028b6f6c676e395a8859d98) 0x3bb4cf8562dc7ba178984ffc3b920c3c2481aa4f4d1bec78a7ae5b1d5cdf745f 0xf8968aeb19433adbbb09f469767ea7afc3a2fba19cb26650c29e0f8fc35c70e 0x0 0x0 0x0 0x0 0x0 0x0;
  Step 0x1 0xa0c200f91850d0d2dec7b456fa830a4ecd272c35f3cf56e93ccb0adaa38158f6 0xcf14a032eeff3e0fcba77aa55ab277dde0d68794767cda3e7f5487039e05455c 0x7c83d57fa3891cfb873cfd666dc2697e5b6988f1d986cf9bef7487256fe7ea30 (-0x78b90ff7ec48a83c7c43100f4f336b9bd20178ae889d0c80d6934d7b9f12cbd3) 0x64f3143d3ce1e621a27aa91bc7d6fc2506864240d469bd3374b9dcef889bd9c4 (-0xa63476716f050dc3e549c602ca682010c040ef29b2cc92d5d9c952943b1b2cf) 0x3c40c2d549947d26a7f7c37e5ddc55a5543083f87001fef0709cd36767b746a6 0xfc763837eaae0fb6f1a8f6d38b23e001f34f1a045496a450d2334e4827ebcb7f 0xdccd861d5a08983be6712369415577e5a2883f80e065b09fbee1ddf2d8b009f9 (-0x24ca47ad10131943a32ddb26e9dd016a28fce0e1f98d0f1fcfe204b4844afaf2) 0xe2e6bb60798c5d74d95c3c44d071a751deddaed49679942aa9c9f31506a51fe (-0xaae5a90fb5ca93d45878e0f2505b57abbd71b2275930cbc1b9a81ea4b3a7f25);
  Step 0x0 0xbf8b9b1a956a751527bab05d3623ffdaeab95422990cf2c5b73dca7a78a9e905 0xe8384143c8a827553e56ae0a81debe79a825629a9217dc0516ea39c4a5cf59ad 0xf6f5b349c1f9d3b67e76be1fd014dd45c8586d886e3e5010e91939bf41f4b3c5 (-0x1a07f5ef55623ba0cd2d9cd4aa07fe70e4354b9d8273ad7f99467ab27b703aaba) 0x8f519d94071ded9657fc2474e2cbe9caba21b59a08abf8652a611e56c8f2d692 0xf254528e9b787ca5ad59b2210fb47b0a91f25d3d140ab739babd37f18dc62a4 0x0 0x0 0x0 0x0 0x0 0x0;
  Step 0x1 0x92be443d87a5124f42ae27e2b902db993ea7f6285ccb589460a6cf109b704e4 0x4123148eb92cf2deed43478b4cd72bbc50d2e4755a97ae6543ba2900d6b80d55 0xc6ff8014dbe122e4ead8371014774ba35a5cc84b07185dd7055a26bd87bf505f (-0x26640126adc27ac4b7b7290aaa07fb59751c129ae53eb115f755122ca89952230) 0x541d933fe05bf4031455ecf763e6248116b70f325f7be7a8a8a6121c46d59f 0x5fc641c0996fa98af1d76e1cf360d1d9f11ca59f77a9d7f648c88ad50daa5c4 0xbba8de4e796902ca65eaa20f975e27a9aee95db2b7c7298d54338b46b27e2bf5 0x91fdf89ab9bbcd32b0c6b7f7d842d4833b3cbe5900f1f4150764646515174f63 0x1e81a0a8f489251b2b27a4e4d11dbc3682e6d599429939cf75e500ae573d498b (-0xa886f378626f701ff23a475240b51c84fccbaf32abeef7055731a0a1c0885d9) 0x8990242bb6fb1ab367eed33a8dfe0a1063ab28a297489d0653ab07a31e639906 (-0x3b453a71425a76429ddf31348ed0a1f8f9370758675a613d3473928630dcd4b0);
  Step 0x0 0xad42fc23b8f519c20c20cbda4ff7876612b81f80d70ab88c1cb87f7b3abd3e49 0xfaf9940cba9e67feb9e61fd419c5dba18a21f2bca42f3ae7325154e4c9b2008 0xaa5ac05c8057f28d91a1560aa2976594dc838122c914aa996f6fc8ddbc1c441e (-0xd079e4abb3f9240d9d99bfaeb3d1a070dcb124ebb0a0a70d0b138d483498846e) 0x75439a4fb800969fe7cf7daf3834a6b6fb4cb73aee4cc4babddd49d45bd84dfd 0x58310efc07fb2ecbcde6e730d0cee970bed7a04aa32eddb2d050ab5c404902b6 0x0 0x0 0x0 0x0 0x0 0x0;
  Step 0x0 0xf0b42effaebde30afbb7300502dc96f6b16af4d1440394d332328ecd408c3384 0xa589c32da5a96879169406f0b01539fcbc1ac8a8e7ffc911369e7c215bd12656 0xdf5e2d5435e8498c1f6fcdc99b0e2c31d8fa943f431a4f8d21c913aa18be2cef 0x13d77d1a0a81522bcc9e330c8265e1461d463f3d2fc425498069e2b0ae7fbcdcd 0xe25256f26a24fdd81cb761504b15a63954a08c87f1fd5c1c73614ecb92498a56 (-0x8ce60036f1f09347cd59b6415ba3d91eaf49f4d07ce79d17d879ef079d60c4bb) 0x0 0x0 0x0 0x0 0x0 0x0;
  Step 0x0 0x838adde20c23c9d61d0243b2424966b2bf6af5f337d592446ef34f80fb22b840 0x5575031ff32739fcb0ef03ea8ba89973bb47d5b92bc8a4ea3359d084619f0eea 0x426d0eb1b4765446ffdba16f4fe85dcbbcd92a21b4ff3f60cec96c3e5fd87f9f (-0x5b93e81235861fe867b42eba5e684a2ae91932d20f186cc179b39d5812ad18d7) 0x43976a699409321f8ad035e6fa1e2aedb1fb933b20f32a665049eec423a54b96 0x29260edf52ca71022e5ef7c10174e5e7f00079024180d500de1c6337eae3318e 0x0 0x0 0x0 0x0 0x0 0x0;
  Step 0x0 0xf11b8f18b05a16661fc6f221006bafeb8b431e3d899078422e2dc62ae4a831aa 0xa67bc9e88aef2a4038c4acd8a41b4635806d9a11c5961fad6dc9a9f11ce6c9e2 0xab442226e72bea02e43f3e42c62b2ded246019ddec0d3d560d13fabf825d4ce8 0x278ae641450d892fa043ecb0098aee9dccce17a79bb6471e66afc123ad8aec7d 0xe314e664de504ef80f15dff7aa1a9793cc993da5dd599acd467a0039d76262d2 (-0x4c501a24b3d931243a82f44db6ea706e1bf72129448b335dc51f20ad729e92c9) 0x0 0x0 0x0 0x0 0x0 0x0;
  Step 0x0 0x685c8d6097ae4580f8f9025d2f7d2f36bb9ac019974de2df5bee923c4f10ef08 0x5f6949d62d0625ff8eefa18cc4fe1ebf9d74cd5f5f4e0dab86e060985a5eb9ce 0x25874b7b522c19b2493f5f236be9659d6a8d8ceb81365768f0ba46890c200649 (-0xb92b1f3df05d41e0b8900e26c41c44f0f5605df6179f8ebd48f86c0cb487fbf7) 0x2a8b545491497d97656a021a8a3d411dc105c393d23a3497c6931414e3fc5d52 0x1cf935ed9b500f6ba3092a76b794c3b57f5f335464e44714c1cec6be45fa2691 0x0 0x0 0x0 0x0 0x0 0x0;
  Step 0x1 0xe8c41eca212fdd1246641fd0630207c06009b63c8a3622064400b21722655000 0xd7e55f037df1521968c735624594b08cfaf94bb2c373c6094304f509eb499c5d 0x6418bf28442d65f3b6cdc6cb160610f237efabe1d3fefc950a794e8637891bdf (-0x266f374de8f08db1e7e165a10d561a4789a56104d09937551536b8ace71d7ab7) 0xd3a40e0e59019f6998396bac31fff8b3b8120187dced30ed3ab244e267070ff9 (-0x6d8cc0af61965f806e6b2f97291582663d15d2f7ad937a699db9c60bf51f2dd8) 0xd2d181a49e522cd0dfb984336e63d39b22381ae60f8219932d88237b98c16d09 0xc9fcda08a26d16195636916dd71a1ff119a01a2eecee331761999bb62cb207ce 0x6abe2626ce2e776494faf0138598c12cc15df393638e811abb70dd9c211bd5a2 (-0x87fbf4613bca6b4e51b6224df9d6ce0727d6bc7c98ea292ad5db9555ec77e8f9) 0xad9c6427b1cd09459a4429de0618308a5c56c0f77b8924030993560305456ea1 0xb741ef580e561718ae6606a56fc4badc1c234486165f3a9b7b2c1d93340d57a;
  Step 0x0 0x6fe470058196ca02ed3dd2df5f07cd8c7228409a12d5807a95844c18e78ece44 0x909f46d26b493f29e6450c65a5ba5e580dcbbddd32a1a17dcf0f031d561498d7 0xc2f9cfee75d777a082e32efa3bd441dce0a11e037785d8e10859592202474e93 (-0x180cdb32b8946aa5d80abb1087ccd2fd114426d090a3d5807a4d182d4be3378c7) 0x30e7e4fcb21c4e45534e455e5074f0cb24ecab05acf2c1f6ad7025e17dd72663 0x1912c345e389f2d8f5aa1a5c3b672f5442c08da639654ec7ebafdbd60444e899 0x0 0x0 0x0 0x0 0x0 0x0;
  Step 0x0 0x83094ced00add977d1e8920f7394d38d95fb6e7092ddf0a96ea90eb388089d1e 0x5ef15c6b1354918e3f518d1453f13fd5fdf894ae047b8cef4d93e9cafe7820ae 0xadfa66caa63040fcb456a6ad08ad43db9f5d1c99d586449d0ab2eda853767d56 (-0x2d80e2c57c1af1d1286b23d182177544117b14493e7ca2d4320bef1b05beaac4) 0x43128511518c11acb7d11c0f3137388bdaaca1b20f857df93c91c8d7985382d8 0x196dccfdd8cc85f2bedf0b9746a774d93cb267adc15e65d51ceeb004926e921b 0x0 0x0 0x0 0x0 0x0 0x0;
  Step 0x1 0x1587be06f9d90d1a0d8820a9039da2c55b162642f31b60a6cb61b050cb8951dd 0xf8d6155ada36ec616d331b9d168764ad09e189ef6059ff34d1c1d5e893307bee 0x85925448ead229c900f90c80a0b85aa80b3c0837e222294bb48ea40b36cbb74b (-0x4c5ed50ac6f2cb6b6edcbf56cf6cf6ea69aecb1c13cb420a25e5f759d20cefb3) 0x1cf8d271f3707481060df08d5405d9fc6985600c32b1bb73d398de159692481 (-0xcf15d0531840db354cec589e5f66d46160529dbba45b65e4108f1b02877c51f) 0xb57822549baa19e59f7c4bb8162a84133ff313b7611c55da102d0490fe9bb791 0x716589f32e57350aca3b61fd33b409a99f1484daadc6dd87db2ccf5803ef253b 0x43fbac416c1c90684ba40dabc0c5eca73547aac97750dc5c5e2644601054085c (-0x8c6740acba74f891701cf96a3cd74335ea461dd3055155a5d1b38d7bbdafd894) 0x80a318ec58ae265308a2d75c78f5508fd444c26d74079db42b2a80ae413575cf 0x6002217bbaec84a9da16cc585c004f15aa53615c261f5a0e715eb8dd55c2af44;
  Step 0x0 0x8904e093cec0874bf904a7baca32b58652cec67048a4d065c253820cad7360ea 0x6ad9d5ea9e201d2da4bc261371a5052ea07eeeb96581184d916144a4b761f1a3 0xf5a62518ccc70be4a71f3eb0843a82c4105ce08b024a71a6bfd7e67da0abd2b2 (-0x4dea6eaa71441503df4cbea96c02e648008f94b960e718c03ec00cc6f7cff568) 0x495638764641be71d60341ae9f5d9805fd8d475511dfc870e13b00684453e635 0x380e3456dd9d61db29879a0ccdd5dd8b470f332bcffeee2a78dbbd8df4db21e 0x0 0x0 0x0 0x0 0x0 0x0;
  Step 0x0 0xebc703409cad9c0a066a4f6227949620cf235ef7252a6a8e4e4a402c2f30110d 0xea3218ffac6aabfa188a337ad610e3e43e3a9125b13814a5043c419100c597f6 0xd0a194383f1991f87bcccdbd1f29918394ee3e3e58af875331786e3bc4597813 0x13eb19b20677d6e915afe18d3aace4512048b58ab59e578c5aa473c42a09fdf44 0xd926faaf874be10d4f0355251dc61c6d03007c9927a8a60115bbbf194386c093 (-0x754904cf1b8fbb6d2c907dea48af53d11138f4eb4582abfefc4abdead64fc004) 0x0 0x0 0x0 0x0 0x0 0x0;
  Step 0x0 0x362ecb518ebd0f934a68d465ad0f3a6c8d079b642b379d5d6a3eec7f06a285d4 0x753a83ed2b678df5ce41302c0dbed1c0d53d89c6fbd226f8d606cc2b72797cf1 0x211fb2033f3315d441780fe5cebe3dcc05033ba5d59cf5654cac2e7fb9d70c6d (-0x22a6e6e87842a72e975fe3b84dcc7c96a32f8cd259ba0edf8a7408f2b568e3c4f) 0xb77c654267947335cb9fa99547103670645121dbf2d80b83fa3a181ddbeb54d 0x18c19ad4600eff781768c566e77a255403f766a3c3c78ae86a67c96de5f68b5c 0x0 0x0 0x0 0x0 0x0 0x0;
  Step 0x1 0x6d521b384a3141fc766c80cfdb237ef04af606973780d6230d153f61f6bf6d9 0xc3dfb74d39e291816d0e87cb418ae4f45122b1fcdd7cb9d97b2659cf0a98df38 0xaed8647bcb01c3c5a4f5ca2a7f89b4c616dc40884e362a896e57cf851a9e8728 (-0x9f46fa161dc17a903ae53c673297544bc66779da592cb9aa4d1ad2492d2d7c2a) 0x2eaf058390d16b49c25e518c42e55ea9810ae308e4c4f54f777fc91a201529 (-0x2195902733ddd559081a677835b825aac781ecf74c51b1d1158e6e263d2e43c) 0x40911248baa96740c1fede473829659c7e6827a1d74ee9bc5484211f5ccf3fcc 0xa3721db9207e1c46e24f06ec2d2d4d785617828a72b72f62370952e0572e033 0x8ce19c69102762056b4ea4ed593676fd3f4cd5f2ea2aa138227401acfd5708b4 (-0x2498fcf5b717fc255ace2233f5ccb53e3cc7e165df9a59e103c54342eceef57c) 0x1048db5a254f51cad7944d7ece0155253302cec3023885565b478b7b678a29a2 0x2ed35b1bd775776e3e0cafcb4e35d8ece5d25caa0316b5236c7528a3a2e11ce0;
  Step 0x0 0xeab2d6d6fae35418207acb4327ab71c7362f42d7ca18527f54142ac6e43cc7e5 0x32c4ae2c1f1981195f9904466a39c9948fe30bbff2660be1715a4589334c74c7 0x43c8c95c0b098863a642311c9496deac2f56788239d5b8c0fd20cd1adec60f5f 0x1011838963adb905dceda8879f5ae5107c511b9cd9af939d08ee8a1d00db27470 0xd72b6db15114078ad88b66a53d6d5e02ed7ab630c832e0d4695ac32b06c46254 (-0x252db6b5b77ec7b926d3fead011360e25e55dcbc83fd0e74a7dbd5395b11f389) 0x0 0x0 0x0 0x0 0x0 0x0
].
