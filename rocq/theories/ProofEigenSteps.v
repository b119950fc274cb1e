(** Certificate: [6t + 2]P2 on the SM9 twist by a chain of doublings and additions, and its sums with the
    images of P2 under the Frobenius map, with slopes and quotients (format of ProofZops2). Generated. *)
From Verif Require Import Base ProofZops2.
Definition sm9_steps_m : list step2 := [
  Step2 0x0 (0x9733b0de9ce4808121584b0dd2a3a1f915efec3167cba64d2636c8be00395651, 0x9be3522f87a2848c619890eb1164c4213c32dcf80c58f83c4bf15b2efab7e794) (0x2a74f8561b91993205eb512576ad56221ea5963f3da078240d55594fb051ea86, 0x513f149ab53e94bb3a0367c61ff87670e025db30c57f84594e4ba4d7b3c656cf) (0x8e3d9ec4e63d5b9f83081fb97b715430c8bfc6f1a1321a89627b9a4e8961c7bd, 0x776de41db0511b8976d69c982dd4757d641487c68d13cbee7069396c20cd3459) (0x2e0fd14108b2cc7e7ec4b88b926517458d6b66d9a09514654c68bfe2c8bf1357d, 0x531ae38e340a476b1804b275d2c084d192546cb6cf130e4fb8740e3730e0238a) ((-0x8d3c30b1574ef6b0ef4248e31594ac688f407a113129564d5b0962668476b097), 0x102a96e856cad36b945a615346c510431b1dadd9079bee4986a82e2ed5c9a7f63) ((-0x4f2fb1c87bccb23916cc2cd7b8a742dd2f5ac58235269b2ea9398d7d2fe9f5db), 0x365904ec66a7a4c1e809bb0462fd3969e3eb0b87f5e35333c248f8410a230c13) (0x0, 0x0) (0x0, 0x0) (0x0, 0x0) (0x0, 0x0) (0x0, 0x0) (0x0, 0x0);
  Step2 0x0 (0x38ede1d5e273df7f07ffe0d11762ad562bad27985796458e0075f8dcad618dbc, 0x8b7b5888aa93e320a11557409897d8529c87c41cf84bd81d86c4a364d93d42a3) (0x644a96db82860a3a0b6787a841cbd32cf570087edc5ee85c424af8f9507e0843, 0x7b36e32056e5637c42dcdeb4ab6be8a61dd111cb2f4c59df41d98bd2a335f92a) (0x870f06507f45325978e1cefcb205754aeaf4137c901c669f6d35734d74ec23f1, 0xe4daf0d325b2389d33998697fa3573a4b699fa627fa9d7907333bcfe8b202d7) ((-0x591af1c9069d075d68463e94195ac692f7bf638179c06426eb7bc24eb4f28342), 0xb2c59d6e4d1a25224ac2272b44cd771e6a05f505f34d338290687bd4ce3c4492) ((-0xc3b78bd409df6b86ec14c17edb5f03c954a87d511e154765ea1923bb420002e5), 0x5723ba0f98a5f9d4c0d561af6afd5fcd395ea4429e4c6ea7800e23f9b82c2320) (0x2e2c59d90044982833bf451ea4c91e470e1383f4d2d5c5eb1d02a09a1c375e88, (-0x395f40047b59430373e204a1a3f15dc89282681e70f85571f40dc08b613f26b7)) (0x0, 0x0) (0x0, 0x0) (0x0, 0x0) (0x0, 0x0) (0x0, 0x0) (0x0, 0x0);
  Step2 0x1 (0x38219341dd57a3b358221563c9201fc950e803634f74e60a6823e3e246e97c1d, 0x8e46cb336b0070c12e5debe043e856c8065122738b46cc3a26f8296b3c27f222) (0x7c7752b1d1962d90ba18d63c5e41b24ef2c31c70991efcfafb072dbb6e13aac0, 0x6d9556555d71f5e85ff908883ab0ab182113b03be5e8b3a91ef647f60a37e83) (0x6686a96a8eb5c32ed235ca0a4a7a24a3fb5af416b0294a43ca16548820120dad, 0x81f6bbe2f2ec2b609aeeb0f83a8e3a2fdd0e70fda95c504e2f44458c044661c2) (0x174c5535e4a4f51fe488143809ece3188ed9d3e7a9a95c2f626c98152f74649cb, (-0xbb24c989ae1c90282c1b90e61a560beaaceb50725d23cfce0de644f092522142)) ((-0xccda7422610e43c95f440c7bad4978b87038665460380285185ea15696a9f829), 0x57a3b3ea13ada092c6bf50d37d6064cc7f145675b996611baa29f0ad2b27e8e1) ((-0xbd2180b81d4bdd4ee89a9eac9062eb4f379613a1d88c2639689b53013c37fc1f), 0x10f78a8d8cce2aedef4add9afc042587e46e15fa4256760a44457d9185664a18) (0x8b48d8201947cf8cef47628870f3eed618d5a41ea2a2c2f6be26d44950f458a8, 0x132f72e5a7d39721a0fa34e7c8aaee017943be6acdad34804364a9811a982bd8) (0x476f91453ef417d0f42aec14906ca7b1829b9a2eb0e9d320e918544d548f4baf, 0x24bb28314e07367d6cae58f2f9145759878e717816e87834c64d5822a1391d7) (0x39db628f0802521876b4c661f67d5aaaaec44309bfbd7b37f4d37b9d8b503e37, 0x57b33f4d8f79ac1f81e78bfbbf9fc30392233b3e5b3717fbfcd7777109838a8) ((-0x4fb0aebe8f971bf0e1bdc6571aac97b716cc749936b5da9b3df2f059624b54aa), 0x59a27dc8c0098f3d0a92d10b1bc2f1133e6b6ef5db8bdb6d5bb40e07248cb274) (0x6668b09ac2f86b52ee69806f32638c9a13cd1db5ef970d04b8eb125bd344e2ae, 0x1d532612d2ef9b3cb9d01e68fe3da3b8b9196623ed963c843828d79b498e3289) (0x2791dbc35e760809cd60a8310c7c5ebd4deaa4b38de4612cb4277a59c11b5854, 0x90ff2eff63e542e054d2e1909950d47692bfee198a05565744e2a602fac9866);
  Step2 0x0 (0xa0751cb6c305d9462cbf650aed9a063039b628aced1ab8badec7442f5123d49, 0x2a31b00e09a8aa957282eb1eb0345fdd629e6e2b97a42515fd2032b62c9f810) (0x6da8f6ccd4dbaf8cecd03fa2b670e28231c4d0c58731e04f23fbbff9fe6fb055, 0x32671aa1a7ff92d0c60cb679fa3f997a532f30e1cb22960fe9536582de061b87) (0x9398da3b9f68f90c566064d561a298ae7946d4ee54be96be611240bcc3c0aa3, 0x7105e4d07acd1ec30bb48c910427e3c55cddd4dce49f454f97972c7285ce660e) ((-0x4dc7137bfe1334cfcc77fe60ccca6c327b360f0f6e94e5c976d0fcd6787364cb), (-0x31f148e8272a111d73cb40b56251e8be4c14a453718559e3e2f98d4bf06809e)) (0x79bbc1b1b2d4ec9c76bd088cb183a24fd1a6b839c4a6a3623256072d133bf6, 0x4a4c274330efa07b794e1a79f9d0d588752fa2a7dfb7df9691f6254b391987) ((-0xb60d72075b5a044519bdb05d1bec49ff39c7c7fe51c910dd18ba48b7191bf0), (-0x333448f09345f35ec15bab97ec4b4ad831089ab36f6cb0387efa45c6dccf83e)) (0x0, 0x0) (0x0, 0x0) (0x0, 0x0) (0x0, 0x0) (0x0, 0x0) (0x0, 0x0);
  Step2 0x0 (0x4deaa9d92006920e3434ed287b8e30282420141ab11337dedb76a08a12076107, 0x962b8c742d8e233cf5c4eda825bfb9e4984fe203331e7b531a9d56f98d70b88) (0x17f948a22b5903048943f029039c6cd81264610c5e3ba386bb7f07fd01488a57, 0x3d738b5f1143554b7513d2f47d407e2696c546e6c6ff5896a78da21aca2c56b7) (0xa32c41d400f1c11526997a7372de17eac88721968574d51f28f2a063545fbb05, 0x478e49b5f1839dabc850e11a406780b9eba98a368c0929a2d1b880e0c6a7664b) ((-0x81b4cef79ba4652a02710aecfbb350faf7ed3bb1f1734e81ea57235ea9765cb7), (-0x545fa30a3097b414c253a104d5bbb6c77aa2dc577df8529d95fbaa5b92aa8b56)) (0x20583f6d4919bf0507dca575253b5edc5a9a08ab53fec2f944d605bd0175fc70, 0x80674014e6cdc6a8e46e94a5883a6746d3d037acc3b04a6bdc57b3e48beb647) (0x25c5667fae3f4c47aef68089dc50c2c93a9a121bdc491e8de0a1fa52d131b492, (-0x4f92fb63b5462f77afc6560186a1e90353b4b16c10e1e0df66108d30f971ed)) (0x0, 0x0) (0x0, 0x0) (0x0, 0x0) (0x0, 0x0) (0x0, 0x0) (0x0, 0x0);
  Step2 0x0 (0x7f1c5209c64578db461b3553e700ea065d2722da17e7d9c4fdaab1bc3951e670, 0xa79c5a96f517b2b4eefc5512bb65efd1e8873bd31a80274aa25a382ff89e55d2) (0x6abc21fecabf530dffe14ab33da34e665385ab685fd8805eb70bd5088fc182c9, 0x5444362f95aa680b4f9849ae1b166c6a3865a67b06a56e7bb39daae148d8ce1d) (0xaee5394ec994015d07eb71b77aa066b0ecf1b104ca6bcbc66d693a71c7bd7f18, 0x34a1347cd52e90a1605fd531b467208c8efc9cf7a07c0e59017499a7836fca9e) (0x4f3d2cd22b134c4b0866a81207aacc198f06b3f7ad253cdf01effd52573c9157, 0x15f71c63c5d9745c70180ff6b36f23a16eed67c90976d014904ed0e0d3e9758c6) ((-0xdba429ea866b6b5ccb340938040b05c3736530df33227bb224c73bd23d8c972b), 0xe9cd08cb0acf25ddb3837ca6805ca019cb00b54d3a3d7b6326dcd0e498abc719) ((-0xfc1c798abf5ea09ba0037b2e564be17afddefb50498163cacbf856415640849), (-0x5c06996097033ba10bd42c1af5644a27993089790924e1be6b0024942e5756d1)) (0x0, 0x0) (0x0, 0x0) (0x0, 0x0) (0x0, 0x0) (0x0, 0x0) (0x0, 0x0);
  Step2 0x0 (0x2c2771825cb6f834eb62d6028ef14366c908503aef32142fb555596160374d58, 0x7b903c5ab6ce9dedcccc3108f7da0d726e0b6dc759cdd2c19418670d9d79a7e4) (0x4c5454315f8e8c97ddb297ebe453ac148c251d2a3dc9e83412e69b40cced359b, 0xa64faed3a5c4f6250dbcf028dada81cae489a679a7a24259d81f9b2c0073c41b) (0x1155058d5db2e309819a6c095b7a33df17fe598ef9abc8461fd4646167ff3161, 0x8f44a9f582ece91e94f7ae948e2f9610602dd714baa8e9081499521f679b1a3) ((-0xbbd9d89968f5a231592ae73b87e5de07e4779b2108cdadcdde4c7be904eab21), (-0x2172e45c121f28c67d6a5b5f98d376aa77d5e555748eb6052cf0c091463ace96)) ((-0x9cda14f82237d24d74ec3f9d5d2952428c1c43e5af18fdfefcdcd0bf8a3c58d1), 0x3bdf361b08f7c286e3d7abdc6a6962632175f336148041ffcfc6823dcd66e607) (0x769e069564a451633c087efbb86ad8f3eaeecf555784520ad8b46ab714606393, 0xbcc6ded7849cb0babd5d25c2e289310bb76b0b9acef0f867d5ddbb920743b3) (0x0, 0x0) (0x0, 0x0) (0x0, 0x0) (0x0, 0x0) (0x0, 0x0) (0x0, 0x0);
  Step2 0x0 (0x7f5959b3bcf191c433b27f6bbe4b5f378b77b8dd25bc35cb8f2ccffcd0237fab, 0x8f00ab71f86981dc8b2ad0cefd63614548a0be07420855c9704222b477de329b) (0x43689ff25bfe27afc48fd46de3c259b235d7c866d20e8a177f85cd9de15886a2, 0xa1510ae925364f803fa306830aa94e8d541c228c2e53aed1142fcc6252264deb) (0x3540ded1b730ad4f795e820e385ec4260ce20af598d342d242bcbb601570b014, 0x3091236406f435beb06cdb7c03dcb8ffea92d3832fb781ed260c53d320c487c8) (0x32ad00854264d0035ab8354e6e5c6b3d33fd2a3c91ac7e77047c2990b2ff51061, (-0x17a35fc4ed99d609944a3aad5f1b846efff38cbb1d8eef06c6de39400796964b6)) ((-0x876d865764a98ad9584982aab73009d2fdd613804ab784db3230c127c2e46b65), 0xc7d95aa739c9aabeb0b5e243258ba29d4e5d07cff460115bfb1360e1ca005985) ((-0x19acfa55fa7e5c95e274b94f85e9dae23ca95df32b579d7f31cd3fe8f5064ea), 0xa7d5f85c017d1674ced62d03f7505f14057ab0fd61eb3adec3e186a5b9cc588) (0x0, 0x0) (0x0, 0x0) (0x0, 0x0) (0x0, 0x0) (0x0, 0x0) (0x0, 0x0);
  Step2 0x0 (0x5f4a0aa514e67a01b955b76b13018fd5217847d97288387b182abb5c28e221ca, 0x9936a2e6ae045549d05ce0fe0a3193e30fc72674a90b9cdae4e4ef86c2293790) (0x66c7dc730f28943830aa8958a88dd5e6bea72246ab7aabc22e66747317ac51ca, 0x2f5cb7e7104f46f64e2065b73ed031e4868189b840e95b2ff9f37a72aeabc8de) (0x9540a295713e3370793866b68d71bdefbb2b068dcc19b169bea5f4f9d05c5c2f, 0x586b7c107b56318513439a8b88f64a42afadfd6f41c355edda9d9d775defc9aa) (0x2a24c7970298855fbb97ef05eb38ff1ad0f448b23c52e89212ba62663423624e2, (-0xd9ac11dd08ae085682a8456b89feff09b8807d7da80102d76cb9ad021be31ff4)) ((-0xcfc8c10f2848db2f48f7c33652caec66507ae3c6ce110ec098a63f7e37bc4c72), 0xa03707b316e098e56492554f4652b17b365048a82697fde5e21b9575e3ff6a7c) ((-0xd21789b07335e02bdc31f5488929d8f07679099c438706cd8075ca08ff443eaf), 0x1dd83055a553ebec0ab0fb46a2a882ce886780dfb757c9c486d009208cdd5f90) (0x0, 0x0) (0x0, 0x0) (0x0, 0x0) (0x0, 0x0) (0x0, 0x0) (0x0, 0x0);
  Step2 0x0 (0x16a8f0ed9c0c63b0c7bf83a9a5557ee588c4b12ec8cf69aca11fef85437abe99, 0x1b9d9744bcc5e0398fd166fafd57172fdd5e56d77deac4f4bd8acda8903467fa) (0x60f7a66f4b65a413e1520a7764d8c7f37f3c03a88c355968bb63566fb0e4268c, 0x35dacd04a62bdfeee7ef5b8ed2fbe9f8a36bb1e28b7eb9b328f703e1e6b5427a) (0xac109920472339812e8befb7288b12b4c91694d1ee51e0161623c25a75b3337b, 0x48ba9a6dd769c769c9c58b943d55eb13ea0a74f2a14cf964eeff0d57027308be) ((-0x7484c886851093e529ba14970aad023fa2ba194d10978faa0aecba04a351c0ae), (-0x5d0acf34a89173f5e0e75f29189bd51423475a522861fe3426e19b4aeb847aa8)) ((-0x58d32222e69ecd9df03f3e70e0b14b173ed957267aebb6a7077020545c45483), 0x6ddfc3b2303a7f5122192d9ad1c38cf96552908279f739de66271365235a976) (0x2b0bb8f3ef5d1b8cc3bfd56074399cf552cc142b36cbe577cad2bfdec3239a4, 0x12d93dd4a543bfbcfaf2df8ad007cdc44090d8ae398a31e9083db66c141808) (0x0, 0x0) (0x0, 0x0) (0x0, 0x0) (0x0, 0x0) (0x0, 0x0) (0x0, 0x0);
  Step2 0x0 (0x2f5bba553224c6802f1aa9ccd786e63b28cdc2e6b9b55c1ab2511583738ba509, 0x51067830a2fa5ca29e0dbbc3427fd5a0e2f5e9c66d887ec073a3aac75bb481cd) (0x5166f2524897a8aa1f2cd722926fce1448d0851157bb3d60f199e80b33e02c07, 0xb1f5adb155fa3b912e30d8bc22edf0920a187e4b3910e6fd520820816c9e82ac) (0x50d8760a029ad817924dcbf3ad7e0649f42b26f06cd62c8024db924c1802a913, 0x78b92948d3f0a0acbc45918ff937e7b3005ae398079562dc8d187a93e4e4a3da) ((-0x633491d96cc5d833040f35116b95709389bb6ff86589c36021082ad7c0a81a12), 0x12de90a1c1ff394b35b5d26b291004a9e9d7f513452811674191d8a2765b0852) ((-0x3bbd1bf62310c1c33463f1468a41e9d2156da49307f81a426550adab8ace31a0), 0x2a1c025ce5e8c22e307a009161a6828734b1408e4c4160af3a3c007e2140d812) (0x726507cd305e2063447bdde8a157abd0e7833a555ab08938c4b2fc41c482166f, (-0x19543e6e8fbfc4386f9f4f3e7e917eeceae429fd856605ae7724cf79b272158d)) (0x0, 0x0) (0x0, 0x0) (0x0, 0x0) (0x0, 0x0) (0x0, 0x0) (0x0, 0x0);
  Step2 0x0 (0x2599df3168d0d402f94fa6ff6fa6c28efb26f906e51ce700fb004516dc8a4a68, 0xa8b0e9632a882aa3b4a9a70af4fdfb51020f4f1266c7b268df373f3bcb1304) (0x42a911700f84197e8a588e68b253aa6fbe27b345b70170e3747cae701e429d07, 0x8f5bc0db127ff381b5206c2135c0f1132efa0afd79611703b3b899f310bd4b26) (0x4f35209f8f30b79e209c823154ac4bc5dae5841b0931a29e25cfe05e8b6d64d2, 0x431302f710a1caf6d7a1b3ca1b377b60b20ab18ca70d2a06a24e6cbebfc08587) (0x3c5291df9d7f6c44e59c99cb3e7d3da1737c95472a1a124b9984653aecac2bba1, (-0x1aa842bc7c8ec82fd052ac61e5a7947c9364dc0022ae258898cbc316adc4d6680)) (0x7c0bfff44c6c960b9ce8a911e3d86e6533b6d095e8aaf89e8cdca945443fb27, 0x459b76726dabcb219cbb72c5a4f6b410c10816ec1bb8e67345a2193ceaf16a) (0x2ca8e8e3cdc879c338e68eb6d8645d1abebad559a83abfc3f0778799daae987, 0x7312cdc4da199e373e1d7688c9e4743b235f2185ea22af9701f75c83276027b) (0x0, 0x0) (0x0, 0x0) (0x0, 0x0) (0x0, 0x0) (0x0, 0x0) (0x0, 0x0);
  Step2 0x0 (0x7b496db4f2ddaee4d2a5f7746cc4a4cfd93eeef6695f13e6826daaaa0f99d43e, 0x62da59dc11f43fccecc1f2d308988d63961c47059105570e85d38ec657c9daed) (0x3862eee193e1b53ffef94fe7db98b3f00d3eda08ed96861e8a3de7e10218f74e, 0x2f7aa78083c8168013cdb14fdbfd1d0c74e2142dc335d2b47267b0ab1afa7c2e) (0x4a82a91996398f5ccf2f6102f03213acb9facec0f1f0ef8f5a740c9b1f828236, 0x28004a7449183fa912d805093d6fc0a375f688e313110e66f6690cd68ac091ac) (0x23516d672172d13d2efd941bf5bce2791c27221d93f1afa9ba139e66f9aeeea25, (-0x89f07bbf36edc3f9c2ef46d684c01d488cf71820d3b6d915819190d4f2af9554)) ((-0x17d6169ac472ae8b5ebea262302f1f380b7a26379c0f567ad1486bc2292795f2), 0x85be05c375ac152bf6411491c54dd478b70c20bf8e1a98085e6d72ba21546a3a) ((-0x610f750fb512c96e973cc9ee125b5d2147d2997859525a885e40255701c3f932), 0x466ea3ab11b85879c82a852f206f79212174fcda80372a0e0e86ebe04286bd4a) (0x0, 0x0) (0x0, 0x0) (0x0, 0x0) (0x0, 0x0) (0x0, 0x0) (0x0, 0x0);
  Step2 0x0 (0xb146da5639e07c77879aae23e11903938fd10f3662a2a0d9c465f4b5a328d8a, 0xa0426bc476fa7af3e809104b0c5b1eaa29184e07b82a5d12efcff53d8496c72e) (0x900dd3e11901c9d982b6bff53c86da1f2031cd829532e50e398bb465f3f5e8b7, 0x5de654313001d6782be3823d48d86e0798377514ec98b9577c9dd0ebd3fec21a) (0x9e5fbea212d7d3930ea204b3e0dbc1c631a19c5ca7a5c20a2a4478670cf0a91b, 0x856dd5e5f0d9b334167d11302447a10a2faa52765b90eddbdec277fb7d80c909) ((-0x6dc2a485f57b77ef655e87cd3f963411e2aac6d045c14212bdaba52028de3e4c), 0x2fc40dc27ea797506f18f2c7b38540132fc08a8ea164e09388e03d3a4b74e3c0) ((-0x1192bca632f6f647e68efbe2fbc310f21e25bc37a919546349b835f846c9fe503), 0x137c5c9833be2d4a1935483080c3cf5f854bf07d232132285b6b5f15c0a34d4a) (0x4c4f247cd4d8edfdc8c20e9c937b3a913980da2a3c1ac96d391eb9af9a866e89, (-0x4fe95d7bc4a7035e5faf6738f44403f54d36a0aded2096d20f9007b0178fe4e7)) (0x0, 0x0) (0x0, 0x0) (0x0, 0x0) (0x0, 0x0) (0x0, 0x0) (0x0, 0x0);
  Step2 0x0 (0x96eb63d9b68375f427c08dda2e895a23b49a5a97ee04eaafd5e139ec8e53d822, 0xcbf75036b67ba4d64c4579c4d3a03d7df271e76489cca02caffd1e5057f8bde) (0xb4ebedea8dc31e9a526a865b5fef0d57d9e3fc560b3ce232a22c1bf5050c71e6, 0xafd7cbba7a8f4190e06292e381cf9b406b3e0144c61ced00da5d352fd12697d) (0xb082551dca2780ac97fb3e4774665f73084738cbcd124defcd073b23a73e3319, 0x2417051a10e32d55567565c218278b9e2e65ed0af41231dea38eafe62316d55c) (0xada6c27ce2f94f3fde1c4a1d4b91872369a88c331a4eae4310640ae7fb1a580d, (-0xca2ed4649b6b203d98023093a5f92fd172b81f0d9774d772cab3d806131eb33c)) (0x7b310f4b424dc8e3e571df3000681e30892ec707342e55223603c980b3d33148, 0x151ce0255c9dd4de5e26a4bbaf0d4f8d7e9c0fb88c71f6d7b768b0ad3a7d4513) ((-0x2a20d6d96125798a8e04d8c393f0672d38ab68de0e46498b27b1475f04725a16), 0x4213ebb1ceb3c33b683ef89b0811d18243b8f84901f08041d4ca315af1b3bfef) (0x0, 0x0) (0x0, 0x0) (0x0, 0x0) (0x0, 0x0) (0x0, 0x0) (0x0, 0x0);
  Step2 0x0 (0x3397ebc9028913049904cf5ede4d4b24c86724aa5faa63a121cd26223a2cdb92, 0xa6345d58e434984e72ecc4c99e27e3c9405ca94db0e164927338ca0e8938a309) (0xa854e77eecb5c10321142297409ba71bede82211f6363cd29325e0ee9b9d9465, 0x33056f2ad787f872664abfcf80b820d8a2717c62de0f8c36948d890142753951) (0x3fa0445663e89d994f83d991e9c32fcb831852455a98a36a68f23f6d01eb6ae, 0xcc570adcf3f4bba8b239b31efa2c9064f0bf03e3f4163ce3d0aa6bcc81b97a3) ((-0x2368bbd030edde55cf75a6e8824b25e1b4220f31bbc066fa4e1f0a1295917fa4a), 0x114e945f93bc0ddbf2ec5ec67f584a5ef0c15ea710ac4894cc5de2263aeeef8b6) ((-0x12089afd9785921912a7298be1328aced25036fa6f5cfdf6157e88ca31bbaf4fb), 0x5e1a2b0584b2f27a548c61793dd6ae4ae9f74dd686163dfdeebf4c7b8377cd2d) (0x4c93d42756e2eb73e773351a95dce58282501d4098ad7c8202c9eb958e1882ef, 0x2628d78d76c72fd17e87b19698147dbb935b4d2ed7970b3d230eae645468ca) (0x0, 0x0) (0x0, 0x0) (0x0, 0x0) (0x0, 0x0) (0x0, 0x0) (0x0, 0x0);
  Step2 0x0 (0x1e591502d87043d5a6fb37b7113481472fc6698c25f53c872410a0f3d66dc483, 0x66a19b13c9aa82385095ff5f5d9555915b160317444986ca1f794a227532f14c) (0x9d7d9db21d4c2f762ec7a4d8898cc0dd427b7a1688e5811ca5f135d3814d1d33, 0x4aa1d1777ac84168168b28286d9bfead6af8976294b65f0b33afce88c2309921) (0x543aebbd9b7b357166ee49f7d35c6ccd4aacf500489f6543ee678103967d1c07, 0xb3cef9de4441da87049735ae1f817df31803c4ac62e176fb81e8bb18b91131b3) ((-0x1982bd36a8c83c97f21aa7ef47860e73073d47ac41d01a14491a7830638132615), (-0x112043aa92b87f5bda8137cb03d2cc6c7ebd6af166490882ecdb04bc96aca32cc)) ((-0x6e89749c0ebe52126ec429de6dc5dea515877567e85fc8d59b1a8d3339c994a4), 0x222e13bfbfa3cf164768134eed806c0e81708077f27a8066241ac99a2cd57329) (0x1c65bd4ff4d5ed20e61a5754aa28133f172c8f0b820915cb0467bd97e7950eb5, 0x22c5c10cc86a772120a474fbfe2ab1624688b96d42fd3c806a7b847257228fa) (0x0, 0x0) (0x0, 0x0) (0x0, 0x0) (0x0, 0x0) (0x0, 0x0) (0x0, 0x0);
  Step2 0x0 (0x4c6ec9ae5fe30d709df0a91f4ecdef39ba1827d32f2a1aca1b6e38573281933f, 0x2efd6c5123d6a5848b34de8d58ba00dafbbb282c5dfe667da9365f22fd5115b2) (0x25ba6dbb7f79e3c2637a95cfe85412bcb9b47fe810c88959c0df023e042ecb69, 0xaa7a91d2ac030910f700e8f0ad747a0d9fdbb114e2ea5b2a75b3ed4e22c4691e) (0x43b7c19f67024baf03ebd0260c2ea720ecff3167875cdcd6236b91d5cef598fd, 0xc6a648dde6e0655f2d679077335abcb38a997a023243e3fa9c19416f8bb90d1) ((-0x153b44f9ba60a7d34438186a0051de01267333643df15e7f73251b9ac207303b7), (-0xc0b4c9d5c3b234b855ae8273f781de5db24df730a7ec543369ab8fb70f96b0cc)) (0x7d2da8f6d189eb44c399ae3a02dc1154e6c62276cb8200b7dbf5adf15c2e4f2, 0x2769e634fecb6cb58372756309679d1384316e053e05b13be39a87f05cda5bec) (0x63a6b611eebea3c0a31b9746bdbab2e3c5ed7a301d1630b953e56d8fb359047e, (-0x9516591fb3dc2ba920df5ebacd9233eb3c6c1fbf1c77d3ed6b4fb0da4e96e0f)) (0x0, 0x0) (0x0, 0x0) (0x0, 0x0) (0x0, 0x0) (0x0, 0x0) (0x0, 0x0);
  Step2 0x0 (0x749beb7eaf360fbe62df7b6983816ad0682a5eaaee6d9bfd606168e2f22042fd, 0x163661e43242a10c7d6671a3a1deefc7a0a5c87ef3845410ef7aaf9b6b78bbcd) (0x49d2e474230b62bac75571f1ba8bfa0cc95eb072aa7837526e7f6fb350a86a08, 0x793ad11333e687d899028422beddf89c5a14067b0844342417c9fed5b7ac3602) (0x101dc18b76c1ddc9f2357262d586554f35ae442e84edc0fe747fa2b366fb81b0, 0x79d33c80f538193f01c7f5cd53d86facde9d0242831ae747da6e6fce3a01b2b) (0x3f5fab7378ab598d553afbbf02b9a30a40121ed275d11aa2f812715b3c58995ff, (-0xb35aa7a0021954182ceb3812b272ddf5d45630b66be5f5827d8ff510be035c28)) (0x45320fa12bcb79b6e8ddb51faea56007ec0bec80f867c7743a09c6c887c14ee1, 0x1c6ca38d0e0aeb5ee35bfd05f807ffa211478393e59bd33c3ade0b555e703d04) ((-0x231991085c3b30933a08d99afe4aa95114e9d146172f8add982e72e1078bb9c8), 0x1b1c9a9f6e3e41a049d2dbfbe18983c7f118b481ee5cbc4d085c80987cc5d061) (0x0, 0x0) (0x0, 0x0) (0x0, 0x0) (0x0, 0x0) (0x0, 0x0) (0x0, 0x0);
  Step2 0x0 (0x487ba61aa87ffd159f0f99be1b21ac4060e609f36bc6cc0b7661e4843e4d6539, 0xac939ae09745e22dbf4e802f40d292fc3b404c2a645822ec348a98b03b097b73) (0x719ea2ecb0b09118441b017b3b20443cd6369a0b8f77c2ccfb183f5630461e98, 0x98d82e77d723acc410845acf2f3e33b206afd644cadfc0d8079b2835d3dac981) (0xb0841e1c9e7f5b4e60a02b9e933c9fb949eccaa47418d9e1fa7e475cd5ba1ef1, 0xa142e365fa3aeb5271d903fb18d0e1912a2f5013ee5098dcf7aa328710b644c7) (0x17a1bd811b5aaa6b9e82234cf5629a6a8470468dd7439116862e00a1c405f7e84, (-0x1020f716b55954412d1a060a60505c2f88ab0126a60806476caf133a66ca984a2)) ((-0x12a017fe11c85bf62cb94da2e79038c7026f8d2c0247590994fdd074abe4052bd), 0x8945838ef46e1ea80f36abe11aec6c08d68af376ca61ca80a125e87f62669345) (0x2c0bc97c1cb40920740b1b4b0fd5922a57ee7bcc6b739af654001831d063475d, (-0x3241d45bcd3c888da238aa988e47c052fcb3349f1aec965f2bd0881b60e9cadd)) (0x0, 0x0) (0x0, 0x0) (0x0, 0x0) (0x0, 0x0) (0x0, 0x0) (0x0, 0x0);
  Step2 0x0 (0xb233ad9c924b6a97cf106af1219077dabed86f5bb9661a8ead9aad12e292927, 0x13e52541fd00770d132d873fe363b9f5896cbe5dc308f72a8197541f4fd8e94e) (0x59443db1141d331946e1babe7da34b39448a4130bb05c9cb662c073dc35cfe9f, 0x94eab228be345c73ebb07598359444fe009492aca2ccf529e380380f04f301fd) (0x741f412c5749b726be3214f8871e952c549cffe9e2cbbbbdfd0ab06253ce44c4, 0x58633c9e1cb925a2bc1afa423e1ac9f484a61d208b79045cd5ff91f53333a45e) (0x1fbc22b14377d4dbca4404d83e44b0892fa27fc017f4a14743a2658a7c42dac9c, (-0x20179f85e69b637943dd219818e83b6f9c7b4ba5759250319538046dbdfba84fa)) ((-0x3a9bafda924d199c132339025748710fdd6757a304b35849b690d4840f6a1de), 0x26e808902fe1bc3e29cc90da01af16164567e484d344092f0eb72a8892e96e9) (0xa17837e3fda24f86e92f23b2adacff033add8d93cfb446bd34f3c35a09a112, 0x2e6046659351c0ed1b32351e5ceea9b8f2910f7281b28fa7ef4373243077e39) (0x0, 0x0) (0x0, 0x0) (0x0, 0x0) (0x0, 0x0) (0x0, 0x0) (0x0, 0x0);
  Step2 0x0 (0x1a453180dd7a46e61ef29bcd4c97e14ab9e6a82528d7ab02334f0df5f18c0818, 0x5c1ea4908cc589f782b18ecd75423a21e4c7566ba4eabe15fbf6d5ff49b66f96) (0x82020d569b22cab7cbec570e22d1ddab254fc82b6610c944789c702b8bb3248, 0x99469474392c9e6069256ccb168bea68fe108972949a8b05bc03dec2f90152aa) (0x23fc2f3abedcfef1b04f1994a586b2a3afbdae3da7fae3841a3a9d48858569b3, 0x3a4212c2e40025c625d0811e4ab1326ff6b775b413edbf58a93831f215cee6e7) (0x1c5af000a2b2e4d42e6e8dcdd3f11084634ab868c6748d8edb5edfb14c3e7775f, (-0x126c4b48e72d0216e5d3bb27f30d0ac3143ff19990060ec73072030e8b383332a)) ((-0x5956aadd07b7832ff57152c3b1574ac0c2e0bb2c2619bc05a776450304f72ea6), 0x1a8e9a9d625d06a74d51c1c10905d36e3c9a118f242be1bf3fb61629647a542c) (0x101a3eb5993015c80a0841cb8cb23076569f3e40eccd516aa8748a603a9e43b1, 0x2862946ebbb3e03d0bd584247b326eaad092e5dea0a0356d7f4d8a70211b4701) (0x0, 0x0) (0x0, 0x0) (0x0, 0x0) (0x0, 0x0) (0x0, 0x0) (0x0, 0x0);
  Step2 0x0 (0x87ebd3308ff002bcbc393420c4db65330609a75354733f2f235f9e677addae4f, 0x8e47a8cec511466eb31f96ed5e1706d7d23f4e5b34e7fa79b2bec43d4e13a8a8) (0xaaf74ac3f8844849562a8537857b7eb6d98e5fce4fb86d89e55c208d993ef984, 0x4a719f0c0d74bad1eecf3b4b268ef950e412d96ee67e4c86c706950602ced608) (0x80616165572c3f403d60a2595c0c1a4154fcc691868cceb9d266ff5c1ab142d5, 0xa76ae696da757dc37cdc0efb49af52977163c0d7f222597a81d76ef1e3b316ff) (0x2841c1e99f3441e9334443348b2ad80e2e12b444beac8fce1f4c83e24bdd52c1a, 0x6614c3921c6ce76c616c1bf02903122f14feb9920b0e222a2c41486804361eca) ((-0x78c847307f921b3e0510d5afef17c8815f4e48c7766fc413b15295eb683da16f), 0xd4392fe6d9989f0328aaaab681894b601f13fdeb06e01ff7881ad0866e76cde4) ((-0xf4880d1095e916afe8d874e893f80ac91f7d1b58e089696115f8e0b0e014a71c), (-0x4455b2915e72392127d1f57d4bd0c7bd7283ac33dc1f73f06e24f20535137ae8)) (0x0, 0x0) (0x0, 0x0) (0x0, 0x0) (0x0, 0x0) (0x0, 0x0) (0x0, 0x0);
  Step2 0x0 (0xa45887461c00803d14bab1904944ed65b794b46c0c430e0381b12ecf1eb59e0c, 0x962d96db6428d756463921992b215da3cda2c094ae0945062b56b74f9da5f461) (0x96ba938dffb3e46f7bd5508e0de254d4e414d0ac0cc5ce86aad520c44998394c, 0x995e12422c5db7b4476916bcd381d996dd1bd349d0fd399e906fb938a401979) (0x13c05b38a817b5b946e36f9cdc74008f05a0c34202ce72dee07a624ddd65072a, 0xeb8da137e5dfb437dc1af3eaa54bec279015d597c625a1f1b0430f781071e32) ((-0x26afacb191ac796e53e456e78fc26a9befd4d7a71f80358df62d28b6e739ee844), 0x5e8285a0b91dc8e9af387afef03a8759857b64eb9f267416016fb8b3ff4f9f7a) ((-0x634cb7d5a71d99d7b8911830aa7e563b8487cf062e4671fab94f421174aaf53e), 0x10ed9697a0c4e5f0e0274087ea2a77027c6c0d275431e5efad67f24e0243716fb) ((-0x58a3f261c3a0e13633bb7a226544f467709f2f42a4e48dbd870348897798fb41), 0x4b299ef572f92002bccf8a5a47e0eea54f48353019feeb9d5a5f059ec1614c97) (0x0, 0x0) (0x0, 0x0) (0x0, 0x0) (0x0, 0x0) (0x0, 0x0) (0x0, 0x0);
  Step2 0x0 (0x95ad02acb289df969105e34ec3acb08d7011f0ab27a572993296af3f8bcab25b, 0x9981331e2fe746567a39e22621579166672013a03c67e5fbf1d998f5dc5fa429) (0x775b446991a4f2b217b49f070655c7d5832de31068159efc88d2f11e5ec0d7c5, 0x908972378e631c22667a672bfec77f2d83460598a415eb90e109de671aa97aa) (0x14aff69f2e199ee325e8062cdd6d791c3e59559a404c70333b9802adc763f29f, 0x5067c811efacaafb96af52428225574745029df742f987789d929b76c0776d9c) ((-0x1841c750783419ad9bf9789b95fc869b9ceb93ff5ebf866b50a4b3e5966dbe96e), 0x9e359e3b0603758786ab02ef28ef2addb2ea10aebae9702692eb331b32b84d8) ((-0x87a9a6358f14c1b8ef0bdb33455e70ccbf1c0e91ad6b8c96389d1cbaa561b89e), 0xfc22f2c5d73f1d7026be630d14b177c0cd9309002da97b20bd29b2f701a906d2) (0x18d5d62ec48ca17d0a23d9db43906318e48270280e74ad5ab194882afa5f6b5e, 0x1ae09c209a567ab14e51f1b7af6eae507f38a9b9c8dcc5ecd588d73e0e620bde) (0x0, 0x0) (0x0, 0x0) (0x0, 0x0) (0x0, 0x0) (0x0, 0x0) (0x0, 0x0);
  Step2 0x0 (0x87ae5299677de4513fdcaf871ed605862adf16c4d401c58193ce4c65d03b6672, 0x1f61550fab1d3200fdb57a53a35d7a9b95ac7192f5343abd6eddc3fe78cde801) (0x8137f9d58ac85b58b0e41ba5aa99e2d37b88a4d9a6cc614f6dee148dad229c65, 0xa3813ef8c230c6eecf23534c1dc923a586baaeba4c59aaed03c9a5f7c69db06b) (0x6c1c5eae9c6fb458d50829ad0461ef865dd9c7d665da9576406ba19f6684f743, 0x456b07975f45439f1b64ec667b53d0391d79e9c00c0a4e6c9c37f1eff0f9a81f) ((-0x10063dbf434265863a5a4074c7de15ff4fad7004fc3ecc932e5f34124fb481013), 0x5b58e163b4fa34419883c6ea4acf2eab3bdb1de23c86091532145c616c994dea) (0x5a34837c96a60da905cc29306f5034c9f0c71859519c266df23dfeebb4b7e68f, 0x2eb9437519a128ca6558d1f10695fb3f89d811d404005edaf4127c1e5b4b56c9) (0x2dda2edea99409a81fed01fd1be6a1d0e86827b8b08a2a84e8273d368c97d7e0, (-0x74b2ccb30995f2f679bffdd25b0f23241d8f66052537ea628dc99725e4d81d11)) (0x0, 0x0) (0x0, 0x0) (0x0, 0x0) (0x0, 0x0) (0x0, 0x0) (0x0, 0x0);
  Step2 0x0 (0x1d5deae62ce3f7fe2d83c7376ddaaf6b6e8894cd2584843c8fb4429fadb525fb, 0xaa43a97e1eaa9b95c661f91ce01177dfa32d1bd465ab89b8e40ae6f0402b4f5f) (0x8d749821e693e5a01da56352e21b78ab33e8127c75e1898e63b63baa61618ad3, 0xa92264969a016014cd87d02c775657a3415c4ce9718741c7a887c0a2e9ae1ada) (0x2b131ce8290cc76c8be600e30bf8c5a8a9ed4cea910336d2f8ce8eb33477fabf, 0xfc9a97292638a6fbba9f1f1ef26b2c6f0940a0240dc948c7a41148027df579) (0x17cb36b176fdb38e96b1f6411eefd8c961909e3cf75dda0c2e9708e7b1cb7a31d, (-0x1d731e2e031b030e2069feb442bbb31390028e15aa958a2c599247f1ae4706abe)) ((-0x13966d3d55d68b37c24d519fb9fd7fe1b9428b04252b54df2bb8f779a6351b8fe), 0x36df0061c0511948e236c6177618dc0889cca755ee64e5c123882d7b7d5f3422) (0x88bf6fc3b822ae5d6ce712b1a5515bb8603f2f59f0c2b050633b3d567f29b7e, (-0xc56d2131634b331f0021d88e6b20c03f92351638f04d1ecdf1e02c1c1dc096b)) (0x0, 0x0) (0x0, 0x0) (0x0, 0x0) (0x0, 0x0) (0x0, 0x0) (0x0, 0x0);
  Step2 0x0 (0x541f3f932f93c6212c903cc064afa1b8516ae5d002b1161a5c30db653c4ae6db, 0x20effc344bdd93adf64d66bf23ca00a65ef9a587001636173ae1355bce7a1ce9) (0x6e83895f12854ff2168871e2c353f29b9cb2391487dfd465d22f30f1a9417c99, 0x335c2ee08a95a4057fa4c9eb71b89e8a5a7ff4af627c44bc50d3fe570d4582da) (0x8bbca32f1a94b191ca941963c16bb48441a3b9bf0ec5f3a4e230716c3aa704b7, 0x574d50369ef45f0f68bddd70f210ea268afb21073fc082b0bb34e92390635bfa) (0x28b7319a4c0cd30eec0311ba8d729855b43abb501c3d84342acea90cee17a615f, (-0x3032c502deed9e272442f173ec1b319cece7453a65f395bd699b2e4c566f184e0)) (0x1aec5d64f8f05c4578cdda2fcb3bd63f30eddc5d9e472ec93ca977048d0d9a58, 0x1e67fd2d25bec42b8f50ab272904492afaa33d70f84536f1605074538e7acdf8) ((-0x1c49bbad92933fd58a965069d1f51218f94f6413ec24e6f703b06b2919892eb8), 0x3bf42210d35d0aed47a2739d9105c6a6720d327ee6059e9bf652526b42544a63) (0x0, 0x0) (0x0, 0x0) (0x0, 0x0) (0x0, 0x0) (0x0, 0x0) (0x0, 0x0);
  Step2 0x0 (0x55ff6d7ed20de91b9c5b4619ca3b127830798ff09fe15fd36728eb772fe05c25, 0xa145334fbc428de7813ec35175ab4667114de3781d2dd999bf2f9975b7309dc8) (0x692fde59a6987aaa518ac87b315ef2b2223c0d0b3442df082178129db44d40e6, 0x8777c906c8df6e39fb9873632c5c9679dfae0ce1ba19c5081eacf8f8f44324a6) (0xe72a69a52061add252c8eeff4775147596d0fa642169374cdd59572d05f47e0, 0x6739d873409ed071a2db4b95a0920a2adbdeb69d868b075c3a5127718276c935) ((-0x123555f552b584e7bdb997d8bcd811ce5b17a74c33421100b6a6283a9f4bfe839), 0x8ed3ed4ae24b9c46ab2f9a4030a8c102a1bbada4bae2de40e155bf9e4cde9bd8) ((-0xf4d4f71d0ffbcaa64ff56477c46670fc4cdea882fe5e1d5d670e3a0f8b8d326b), 0x98323fc205fc868e347f899b36a0724003b9b901a75326587a683338a2a9992e) (0x975d757caa31ff52e380263119a53917218d88b3582b762b7133ad9c768679a8, (-0x22f95d066ef92afdd70d55095b1f557bccbdc1173c0e174ae5ab9f4c00b3cc8f)) (0x0, 0x0) (0x0, 0x0) (0x0, 0x0) (0x0, 0x0) (0x0, 0x0) (0x0, 0x0);
  Step2 0x0 (0x42b819ea3e2b50fd5bbd7ff35bcaab14eb25b9e48baf22c3c5267cdac7642ac7, 0x8df1cc77ebef706d4bf7f6a8a05b9bf7a4021c7694fcde37f0ec6a4aa3aaf30e) (0x9ecbb55044022e358686ac9c3ea60d305f01d72b7017f9c0530f8db4c58934e3, 0x5c484dd4108fab2e88bccb7267e3f08fac0039290ae9c03d730c0d578d42ade0) (0xa2e1e07d78fb596bca2c8fa69933a93c0dd500947a998db069bad9e9e136972a, 0x93f4476886916427eeae795afc4e0966f20b9449660ae762ea9151a0cdd81f75) (0x6f0735124805f51688ade814d8d74a3b92ea44c5282c9c8350775ccebaafaf24, (-0x173089e082a11d9012bd9f505e60444533fa039beade45163876f7bbc1077105a)) ((-0xc4ae4096d431889c8514b9f21a032d9a7c52f3bd8f74849b8732ec731372be7e), 0x67ed81ef7bcd01d11e4a1831b2bcb4822cd76e7feba6a118d664ddaec5040678) ((-0x56e51e7b5a4672b6bda138e1adbfe71b943dd473a61fd3845852643bb51b7861), (-0x19f17d985c801078d61d8551d0708e4beb8e32364ec58e068c82cc8d40f0f1ce)) (0x0, 0x0) (0x0, 0x0) (0x0, 0x0) (0x0, 0x0) (0x0, 0x0) (0x0, 0x0);
  Step2 0x0 (0x2180b2f1293c979d8d28530ad0fea51fc1c223d151c484879034c90073d401db, 0x3b3acd7418fad39b846c6b3b7d40e81f0423fcd921f5865d5720d40fe3ec685b) (0x772f3b5b00d2132c8634d310a80f9e55999ef19378371cd04f64e73bedb2aa2f, 0x28ee000b0a5c8edba96ad4f3f41ceb4b2fdd0c4a23648d673d1c6b413dabfe48) (0x96c4a05e538e1c8bc0c30c4f4bb201d6f4d7ff19e21c197548d3bfc9ad44cd8d, 0x7fd0c6c2c551e15f0dd02ebdd10c373312f7b7cc81b0e690682abe331052fcd) ((-0x10b2a9fce71d331b833d43053e141f6dbd93f2409af6edf80ad60c5a313d8f4b7), (-0x1422bc5d103e9e93f82e1fa7f5211d96e74f5b305fd2b96e10b71ee22a95d0a6e)) ((-0x2056ec19254f484acff4b8bab984d2a8d92b11fa82a94417bb6354cc32dab9e6), 0x15c6b54df5357b66a94ebda23170456a8cf81dae5949c1e2febc88fc8edeae72) ((-0x1a18c4062e1f7ed60e10836cd408a42a685672e4183981cebfdad60c033d47e7), 0x16503b97343ad03d36e7076e2618f55c0fb1669bd1a4d99da6b73e898dd9486a) (0x0, 0x0) (0x0, 0x0) (0x0, 0x0) (0x0, 0x0) (0x0, 0x0) (0x0, 0x0);
  Step2 0x0 (0x35584ffbe3b1416fad4f5d4f3a22fd2514af99d80982d55b2e7185f6d991231c, 0x5c5872590cefdf1d266dc0c8e3cbfbc6029fd25aeb4e6befd95a63e530a79439) (0x929d6f56c394d7a52d5246cba1380e6956db57223cdfb02c308560a278ed245d, 0x170f4068660a241aba1d518f5ab3faee2855bd62c88dda8e0290319e003488ed) (0x7f0cccf8aeb869f0be87bc0717beda5f09f8a7da5cb509ee34cc166342455ce5, 0x9580d887ff2ae61038d2e7c8022e304056ade35d0d5546d8877b62a4d6d1ed4) ((-0x6a9ae07388a8291d9f89384c4a49c23165aca1c3eb6296d94b84820bac13c8cb), (-0x3228083fa5b32096408dc30b0a291ee1f7d1a05165b6407d15f6ceec1fb1dc6)) ((-0x4df7d88a02082e2bdb2f5564854cf5764b10b500163466b38eba5eb174a0acd1), 0x360f3856ce3553ad026d47b27873e43d04c6f2ebe27978a36f9006b1479a75d7) ((-0x1a236f66201f6038858b649a817032aeafb8d002c256c97e8b62f6a9f8fe3c00), (-0x8ab16cf51bb4f3e8775192950016947a899018497a4232e15590b9429691b87)) (0x0, 0x0) (0x0, 0x0) (0x0, 0x0) (0x0, 0x0) (0x0, 0x0) (0x0, 0x0);
  Step2 0x0 (0x609d1e29f70637dcb5d0d16f7128c96ef1eb9a28dac1dd4536ae87af69f94ac6, 0x6794064792e3d5dbe016b5f220945e9495b0d2834fd504838f099403a12a6310) (0x7506719546458d79c32b5c32cff4393d37fd102a8ca74863bed13b354f7f399f, 0xb59c6a3eef69f97f37c7cfeae9c096b6860c512d8da6d2fae9adfac4a2813d47) (0x95a700d6cb152d6e944bcf14a263e8731d8db4ada1f4deb3480493e50b81246, 0x12a699f4fbf848bdadbb357b397917283dc62608715fe3c87c2a0909da59c88e) ((-0xdee0458958bc1dbde82df3841b88708b2f7cbdecdc597c30eb56d534130c129d), 0x2b03ce5309b77f0e21664854bf579e78241c0233ddb345aefbb3575daccf7f02) ((-0x42844ac712f3eb6b26db6c3894333363ae60ca1ca3a5c60d7a80c5dc772b3219), 0x6dd12abe5fa9d9d6d9bd37ac8fede50d5fcca1853a6ae722d32e1ce196c0ba4b) (0xc3e7bddac80da14d3d71d2cd95616066e391785e7d2d82964fa06a9f284c697d, (-0x433be3aab43db3acd097622d2b3a89640c0bbac459745bd1c8f7ab6207ce01f6)) (0x0, 0x0) (0x0, 0x0) (0x0, 0x0) (0x0, 0x0) (0x0, 0x0) (0x0, 0x0);
  Step2 0x0 (0x600911f85623bcee8c771de13ac58511d2a537b2b50588f9a95127d0027487e3, 0x5b2a11c716f7431686339ced4bd1ccc6de6f7b282508378012d34f9ad2ed1026) (0xe2c23853d5375bf0366ab7f2b91229d151a072de059777d515c5e822ac0dcde, 0x175c925322ee683a3dc4a617170621a85b0e60500c9e8cc53479f92f600435d) (0x9ffe78bab696c5beeabe0dfaf08cd3c8caed13c21e3ff3c44849344176a993d, 0x2a4c05abbc0306ecfa2cb6524a0c82a2a252dfb1027f6373cfdcd0ba738c5b47) (0x340f4683332a4fb60a28d52310d2e284509ada6ff2fd3937a4554974564b0e043, (-0x29ead0f9fa0f914afee6199c7319721075266f1ee5466c9230dc915aa1f82d102)) ((-0x2899340cf8ab18d74a87d15217aeb460f39c698fde2d02daf39131d04e44b777), 0x6013aea7e323996247e67a340e549e7cdd9851af479ae29a7a8f8503a37354ad) ((-0x7e07f4d8f795f2a772020d1131c21c7a2942c401bb76b25e810348a002e7c9b8), 0x9260bdcd9b964c94b9bdb9d8aeac804664cec09243b320f1a61d74963119dbbb) (0x0, 0x0) (0x0, 0x0) (0x0, 0x0) (0x0, 0x0) (0x0, 0x0) (0x0, 0x0);
  Step2 0x0 (0x3d27906f5323a126c426d1957f24002e0357d205bb472a3615503f1a4e72f58d, 0x869642a42e0d94e3951bac305315584d18cf32e48f0ba76d95c1c36ef064be66) (0x30610fedb9733b2a96faf4da6593f776123adfb2a0624b793717186d94975f9c, 0x77e525e4e472bd8d8f60845e78f828effe33a2dc331357b8bfafb231cb9a8259) (0x88dcebad1cff2959a9b6a65544ed55392acffe6b6950c86690ef44a612225549, 0x31441dfdfe97705c966125bef04838dd6077059bf992d1aa5521ab4b4159a6b9) ((-0x797757fcff00bef18893823e45c4523bbc353c8b8835ee54cdee6f6964fd41bc), 0x2a7932c8b9a698fcd2d2ee5609701ff76e1a61488da0391dd5639c9443b9da06) ((-0xb241e7623e93345ec0f7e638107ec843d08b185d2f2167a0164f8d642ed12c83), 0x5a527744ac65da53ddaaab476669e0c11448bb2ad6095f02d4498785d2e5cabd) (0xa371bb43f936a05d52ce381d98a29550c146fb96847f5987cd960c2787aa8174, (-0x410084ce1fc9e0694712c01aa9cf8d989efc7fc117f70a9b4d98898d72b5ec80)) (0x0, 0x0) (0x0, 0x0) (0x0, 0x0) (0x0, 0x0) (0x0, 0x0) (0x0, 0x0);
  Step2 0x0 (0xb0fbe952d2f3f245c3f36376cb06b9eb5b40af0f34dcbd86d2eb5d8756c0480e, 0x1d707cf03321d3be53e4df5544be1dfe83a86e985c9237586f3d011043ddc469) (0x33ece18ebf329086ec6355622ebcb5c5304a3d0793022edc7145b52dd2a7f9f8, 0x5308085ad397a9fe375305c3bbd8434320703fafc65c8d4645574e2c4da5d3f0) (0x45c3aa8328f7988f7ee1e367c5ebbddf4a7656ca07feaa8a4493f686f4e5a56f, 0x9613394e6d0bf6a544ca6d8dcdc39ebe771d23c74e9c2a4367bb1cf14aa86ff8) (0x29cb3e1cebb195de5b666a8d5abd33692e569b1be47729bc77f1336496f65e806, (-0x330f3a8e9776de1cc132e4806429656139dac79e547c3f11b3c093f1beb5a492)) (0xa25bfd86e43d18c7c6e3ec41c0c66ca5e7a87a046b2c6bce87d2a18e898679da, 0x392d7449280558e95bce1326e2233c308d7ff7d28dc2a9748ee62dc91e20cd62) ((-0xf5a66aae1130724bbe15c621e5afa7d68d468188b887c3117049bbedc7c5b0a), 0x2339cb66f6e120d2a7e5d9b93cc9c236ecf7df2624215a35a28d6129e2d2e565) (0x0, 0x0) (0x0, 0x0) (0x0, 0x0) (0x0, 0x0) (0x0, 0x0) (0x0, 0x0);
  Step2 0x0 (0x223d8ca784739a0b2d540612f8f75ffe9b9f5b06fbcfd5e5f7d59bb006c1b94e, 0x67bd5185b1b54f5b53e73eb6ff01dcad496b341dc269bd5722ea9e9aebe20629) (0x58ded627dee514de7b374c9ae2c8de7946daab8508a40ad3f416264c465ea2b1, 0x7bee0bda0f8f197d8805bc527e60c624bb9595f6192ae512b31c001cfdf04d77) (0x55f7451683ec6211f990bd6e6cd4bb7759bbdd25f6d1859b3d3ce3a4ec914092, 0x46b86f182f8fe0e1d5a1004839826e28c30c7d85b2290d54af8ad7fd29c4d0e5) ((-0x84e61a2955440346b9cff7e298d2a2b51e678283415c259cfd37f82afed448ac), (-0x6208e977ecb5c24691912af9459e3827fcbaae7dc241e8c9a837400aa10083a)) ((-0x6faad648bb3a2521373a758b719af17bd49fd288f9224dca209e053177c6ac2b), 0x26faf925d969ae004401cb6f8b326f69525dca295d4f3796363cc5003a9dc149) (0x279e76c4f09c3d48f674843b04b0b5d81a26a1a35858a9a81c1599bc766c538b, (-0x1cb6ae405d9f170e0b5430c27578e8f73c767f26f478f58bf18751cdbf8bff20)) (0x0, 0x0) (0x0, 0x0) (0x0, 0x0) (0x0, 0x0) (0x0, 0x0) (0x0, 0x0);
  Step2 0x0 (0xa59f265a94f6a7520d0002f620642ae812073b9ff5f992f5adf5440e97b81850, 0x76d54ab0207442e850c91a2c56f1d2921723dff99d15967866dc97cfeb2b4dcd) (0x40c495d0d159098f708512dad21f945fa6637355cfbeadb3a8b0f62816443232, 0x76f11422673fcfe42b4d442ca804d04592a58dba4266ce81effa28b018e7d56c) (0x6e9447429a0c94636b56e3ce43b4eb437db622d0bd08c918c2aa4131c8549800, 0xb6163720b695c499f3a9aacd7d08a84ef5ce24b345a1736fe36a267b4fdb1916) (0x15b6c148d857c820c22440be14e6c2aee8cfd4bbe2e02924dc9c44a62c3e454ab, (-0x79f323cf28bc456b3aebff2c4bedd2be52e1ed6c9308564b2cc8ed6c59a0a36e)) ((-0x474bbdcf1f5bc0934f9b0dde058f126d02103b198aa5e5af13bdf8ee502935e), 0xd7fb5cd302ec110bfb6a80b524080fa62a30ad5d517c5c7ff8b812e5172ad1be) (0xf6607f1c0980c0dd7063768aee0a01b2b021b4b34328817fe3ad2b96e1b4d80, 0x143fabcc8cec0d42053f7c435f30c745cb8dfedb93c81c9777009a9c05c60b48) (0x0, 0x0) (0x0, 0x0) (0x0, 0x0) (0x0, 0x0) (0x0, 0x0) (0x0, 0x0);
  Step2 0x0 (0x76f888fecb9a676342c92863ac900f11dad3d20a4360ee0401ce3a782b64b3cc, 0x9447548d5381c7997732554c0a5a7ff27b387b9e3a6c907e5bfeb9e8dbd22b73) (0x236fd7f8a846efe12f03ac0aaaa5430a275aa3093d8f8e79bd5dc73afb7701f4, 0x9e16d4de4a65ce8a7e573bf4725764e9617eba73404dce498505c39118a561cb) (0x3a986e5d3343b6f773f34854a08fe145170d6a1ac034c43d975299156f439474, 0x4091585a8b262a9c1f2dc4a16f9dcb288870037c3a3573691bf876aa7b5fe26b) ((-0x33841175162881891e8d4c4423f79180af70adad6c92e5345e832994ce367784), 0xa40be41912a659120ec2b5c113e66bd79bec2867f2d5882a0ee6240ec02e5e80) ((-0xa39dbcda09abb73943de589772376f3f267287d7ceab63eaeb0876bba3aa46a2), 0xc196e2a3b59efc716aed3d8beec2c5eff4abde41c925237389ba90d6c7ad4449) (0x52d906984687ecdee556659b9ee8d6f19201e069046780a87c530df5ba3398e6, (-0x1b0fa9da06ac1a5ff55d4e6105b1e66c231f6195d058fb152dda47ecb332ab7)) (0x0, 0x0) (0x0, 0x0) (0x0, 0x0) (0x0, 0x0) (0x0, 0x0) (0x0, 0x0);
  Step2 0x1 (0x2dbae0ccdf2021366c54e7f87154e0acab05e8a2d154a52510b9720bc6f28b61, 0x9103925a604979029d883048daee579dd9b17c3d4912da575f16aa8145cd2439) (0x19bf9a5fde9db504df24e0375079515a2359825d1c84f8a04c6c880537db7480, 0x1c347da12a92b9955a9aba6b8136ed4f0fcc1d19f20a5667c3711a6c3372d807) (0x88f6ce732893a4c0057e093c8669987eeb7ce2e1754aede5d03d5049e547975b, 0x9cf7296a4b2aecdc76e43be2ea2ed8f2a79e7e80454319133944fa4c6a814d02) (0x272050079baf4ea7465f9d94dfbe5697a0566678b1e9ebf4f8000624ef24c6f6a, (-0x3ac8ce758ec55bd87ea51cd4171105ed917b4a7d23b44f726bf5832f417610f2)) ((-0xdb4c01ba31be9299ac4fcc6415eeee08c4d7a49de5dc5fb2db94eefc5ffa6d7d), 0x48c6055ee0134207def04e185cc5ff3c1809eec47cd59b70ec29d8c5d52673f9) ((-0xcc4363083073aba061dec6f1075b3019d33000662a37e0dfaa849788b1651e1f), 0x284ca368bc8f92f378e612f0311db1eb5ea643fb4c8c98b8c90ed216fc542d47) (0x26ee74e2235c5167e0e7f854250fea4f19095aa5149b71d3c137282dde624adc, 0x67d93afd6fdaae70fc92dc3535ea074c508f5dc8fa0646d466af387215cfc696) (0x5a2ed13fd523e0c60c96c52b18c743c7a41e588d031e6fec50017b9df3d34292, 0x28d5f9534c902e0950ec09e67f0ce6f093a17a8e89dc33b217b7509da4018465) (0x56be3f4e4977dea9905bdb89bc1a71314ea39732948903ff9e46c701a821ffc, 0xb0e44da8d9a66fc24e00eb08432a6a1278ef9e625b3486a97f5f4e4e54d12424) ((-0x71edbf634606feb48eb607310a0473ff2bc4092ef6b6d1d99afc18f29061d1f0), 0x2746c70ece62fc589b8dc07d602a1ef44b714c92978dc2abe68863330ec935ce) ((-0x6e0844874ad9cd00aa7f372a416cd7a5aebb8a4f798a78523b98ac14519ee5c9), 0x2c5e0c4c3654e30c8df35d78046546b373689d038f6fb29cf765740618150a1f) (0xa154283eff50668ec998c72d509ddf7d1ad6197f83ca5f3e1e642b7b150c0d, (-0x2769ec455c8991014c75b12762e0c868737bda1a0bcf7ae7e92a965ec755cb82));
  Step2 0x0 (0xa0ab0c82d332180fee212b0a3784cb47d81961dbdb50d548c1abe4cfbd9f0029, 0x8598279bc41f336a820d7009462e1a89677183402a1473aed2a89b153da583a) (0x2d5b88ef42cc98a646c0c4767d46c45c540ddd649c252f68e4cd8350d81e19ba, 0x2e62a65c1ed5d8ba727a9f037a5d53213425bb000c93dbb2832ac731152dcefc) (0x949054989801dd497e29607a18653f6073f5df8f1d91f016cd52c98649f6f194, 0x7eeed6b76570e6bba3ac6cf0e359aaa7450ffdd6981eed078395e11580e2a277) ((-0x65d59153f23fc7eae0f18e99736bad8d6d93c6d42fac8bc3e7f661f89bbe3176), 0xbf2510e3456d57f0a7cd862578a7be4a6269008a9f6a9d6b5e0d9605f1b7074c) (0x8ce07fdb912effb9f3ad84b308c329ed1be30f8a46df8395a116f6f4f7f7f307, 0xeb8c6bee5443cb5a803c810cd38b211b0efdef7bfe2561decfa5f3971b19766) (0x2806911b0588ce6aabaecb889d6d0ca1ec769a19fb5aac951a6db15caca11584, (-0x2d6b5a89278adfa0d2a427ab887a2ced998d99d6f34edbf2971c4a1fe077662)) (0x0, 0x0) (0x0, 0x0) (0x0, 0x0) (0x0, 0x0) (0x0, 0x0) (0x0, 0x0);
  Step2 0x0 (0x9596b0fa5d7039d02f4c08a916c04d0fef9055b3c236a08448b43f930b6f753d, 0x732086a27a9fce8fb5272af2146cff814e0d95020b30aa889d0bf5c61bd2dcf3) (0xaf2add82bb9f8ce043bd32ba8841f78e55f738785d32dae088e289b710f78f0a, 0x1a2c8bb8a3955c661528da0b5883e1280f6050dc65a1730cd39a8d20984a1b71) (0x14cd3176b620f77cd625ef9637b2f9107e706ebdadbe93d7a176f65f81bc20e9, 0x5b11005dca55334b1e1e033f4fd506791df2892d2bb9b775a85cf977deed82ae) ((-0x27e29e179354483a990dfbab28b18397c7b9d1b2b06473cb08b0b2e5765a4538), 0x146ccd5730f842a0fb8dd0944ac5be8fdb0487f106e88ab6feb80f75fd78705f6) ((-0x16abac61a33787ddd146939e25735ea3a68737c3ae7645edd9b0ecd0e8823313), 0xbcfd66373862249d0e8df36725b132b7ba1e37b74db56e88044b0f0a94f56b09) ((-0x8414d456ae74b8b6b5843917125423d36e4d619274d9f0c667d1031df6d3495b), (-0x416956bcefaeae566142a8b6a81ee2941c06eab01351675a528522a8bc816eae)) (0x0, 0x0) (0x0, 0x0) (0x0, 0x0) (0x0, 0x0) (0x0, 0x0) (0x0, 0x0);
  Step2 0x0 (0x221497a4a52cdebcdba7abb1f28c9805558621f516a6ed0286a7180f270041c9, 0x605224dca422131d54d7c36ba02ad7da37e23c7d32a2d492579b2dc5ec57305f) (0x5b0951f4986d50cddb0f4b9d77051a8aca33ad60eb8e89b40ae2a45159c993a, 0xcd6426ab3be38ac373f93bf921ed04a621f975bc014d5b768de6aa5187e5082) (0x18cf69e5168490b33c1e7886ee3841bd901b12616b56a107a692ca6da9d4ae90, 0x82246fde23197092feb26de7a6c3008b57a99cc0aa7984375cec6177e844102c) ((-0x29b43b8ab79cf97e818cee9e56fb93955b4db27764aae62541c07a32495b1533c), (-0x5ee5170234fcc21e2a056b35fedd1bace43d1b902bf84bd4d95927837dd3fc3a)) ((-0x5f70a5da00d7f47d55c990b5b14ae9d2e58182774e404883118db976ca1a0a2b), 0x24060fc973db2f9189dac0c6f669ab1a5fb0fa35bf6c94a4ea569a8ff54a3d12) (0x119831cffc32fa875865125932a2b0ac39413e1551b4db795a5f27a71ec7f759, 0x5c108862bc7a5e4ac0bbc9053a22310cf4c77f7af468f3b22a25b11c61931e81) (0x0, 0x0) (0x0, 0x0) (0x0, 0x0) (0x0, 0x0) (0x0, 0x0) (0x0, 0x0);
  Step2 0x0 (0xa86dea90e66311da995728d7e548190026bc4a4557a33249064a680dbcbeaa7, 0xaea2df2590ed5793a504b30a4339200c62bf14bcea0daffc6e94198373389c46) (0x682995ea082f041eab78dd56b62cdafd19f95a1b905871c3b2ecdb46abb881f3, 0x8e9f3118da607a99529cd039131508a8a8f08d20ac7d34c43fefe9736a88a681) (0x1290268f6f98c379deecb82ef92fc3e7398ad5070ddd23a1ffa8a8bb2840fad4, 0x8b67fd29546cf76c28d248e8cff339320a0ff38b0f064bbd464788583a5620e4) ((-0x1eb103c998e8fd6433f2aa41b28afaafe0c2204b62b7f63bdc0a28916abb2ea24), 0x3c2d506fab21c0111b9da4affdb106d89a46f4a4f35d88b619875e0a62560c30) ((-0x14e12af8bffe2028d15c8f5fb20f79570d32b2c040bd14329940e1812f82a3d16), 0x142c931a946696b343a14da0d4f7bd2e5fd6790de0be2add96d60b62e762d03b) (0xf309bbe09f91b71fdbefd9d6243917aacfa2a1a062e4ab68827733d95c60a2b5, (-0x65daf15c239de92731e97afa417a98ecec8c03d5db7ba93e3a1fb1e77ceccf2b)) (0x0, 0x0) (0x0, 0x0) (0x0, 0x0) (0x0, 0x0) (0x0, 0x0) (0x0, 0x0);
  Step2 0x1 (0x13e20f3e8e88aa60284e6c5d7f1b5e466eaf22e3bb27eded1bf99ade8bcab84e, 0x4d559653ef980f8470285c89a4dd4c7b4f2b4dc2b52d1012a2dbca94ba04f792) (0xa7cfc26db51961088ec5e630f8b1c499e032e2ff15d8020ea985fa67806cb78f, 0x77834fe04f6dae38dfd0f0690bf3a8e82972e9f34b8f52e81e2b4b3596591533) (0x22b94008d2aaebf238f7a744df37653f13ce8b222bb243749f4e2f99d8c27789, 0x69fb7204e8cd3204bcb1a992f0f76bb07bfb1aa03c06863b1eddff55a37824c0) (0x1027f50f434f38d08d93d457bf6f09942ec840499e61cd83248d8c0062efdec77, (-0x1bae8da151e70f158be82583ce9afa67caf905d2556c8238ee9e43ea038a55e5a)) ((-0x3f762583dba512ef53af308c280229fd801b40ec8a7b1f32e1b2bd41e052fc6d), 0x10dfbd79711d7b90ec71ce4ecd6f63983eb4a3e9cef1c56c9578e0fdf96f153f) ((-0x1a8e3d021ee54f92e5c9afcfbd8c5ad586f3dba357fe877707b6d232dfa84ee1), (-0x187cb6eff07f1205bd1c937f7a3d65811f5da8bbf061d63c89a489c205aa79b8)) (0xae9fb9656cea840ebbc21db03e070835da26095536df42e00f4d9b492588a61a, 0x1ecf5302824b4af0303c8c6f5875f1d5bfca113432664dc364c5862a9b835539) (0xab929b8bac9c74aa975b6d739a0835cbdacc1277aa59a2f82067852f9477aa93, 0x1de1174e644efe4fa79625e9e5fe248f27191fdb851f79b8c494eb1328987e1b) (0x63abca02aa102f7d3a53522bbb44b77a53d5906accb342c1c23ed37c123e86bb, 0x1b0b5bb58f7f7561ff13e0eb7ff117b84bee70d096d42100cf89d9b7cfeb053f) ((-0x70c0d276f669bb831f60f31e9f47dfb6d70be7c331e6a0fea5a7f3aec0ce9c6a), (-0x578881fc38f22aa12d8fb858cabc034653eab13dab22c38fe80c90199f75256)) (0x9ce66460aae825dd1a7f90fb2ee1e0b6f7166a20e7e94f2c5fce23c854a02ee9, 0x3b0a92ca639ab1e71789ae107c937f997435dd7662945fe41942733a19329e29) ((-0x21e8cd2460177322f39d9febaf4b17e08efda627dc36938751ba86711f14018c), 0x553f494158db7bb446347cb7182fb17dc9a125cdd9bcfe3099bae16906943a51);
  Step2 0x0 (0x3cda8e8677827af40da2204a18a8cd3f8dc7a70b2cf9b4d5ea326a3e93106177, 0x5e5a5d26f0655c3e1c93f0f5d3ea1db0bf673b1ad72f3539c5f9ffd68febb0d6) (0x945509f45712217310a966f49a738878adcc9faa3a098afead99b8155f5b6697, 0x920ff7437423d92c5be0f3f57640f050d86a391ea4cc5720585a4a678e3f5b4) (0x6165b778e9c42593249765ac4cc21516cb20e6e875352560875a760f0ca8332e, 0x7cd4739839cd1b86a3594e7c2848f16ac958ea0293eaba7b4de8962e63502c89) ((-0x1bc9d7416161598bf1e74bdb2596dc119da925b6daa44f7d16f82fcb9d5b76d2f), (-0x2f82a87ba13aab7b1b05d20b6f333263985e25d993058cd488bd504695eb6e10)) ((-0x4d6047efa98afa71fa19dd4e4ff3d575d18ee86066268662098c1418c0089344), 0x3f02681f47216d1142d412cdf9dcc36506d6bdbcbe9fb02ab36ac586bd930b52) ((-0xdb9b0e7dcc64234910562cdf2c116460f8a9f522dda1791d30d5f2e2866cd2d), 0x12f5e232a3c3ae8ce735e63750dc190c6d1d35a6240c4587fbbfac35eec96095) (0x0, 0x0) (0x0, 0x0) (0x0, 0x0) (0x0, 0x0) (0x0, 0x0) (0x0, 0x0);
  Step2 0x1 (0xadecbe9c880882ae70e990feb892f3f95669ce441e33458c545ace83fa73cb8c, 0x29a68222c5c8155939bb9d0476affd427b4bad61f665842dfca315f077f7b533) (0x5b23a70943978161d41451c2e979b4af228bdac90a604fb47eca6bfd0ead3102, 0x811341adf84f51bcb4f788e80bd01634ae741141b8086e6c446f9a2a0db91d87) (0x80f2ac09844a4347229113aba27055224135271a59e916e4318ea155332d87c3, 0x244777b9ca6928b14b9cdec7869da2bf050da548bd96e84da1547cedf9b0a7c) ((-0x11fa6dc546fab3009291de89ca947a91c20ef613b7b3c4b25ab4916c41943109b), 0xee315e8d374ee4e6634f95f9962fc18cf3217e82574dcbaa64c6f57f03113af4) (0x92f1579156460eaaaae21f3d7015af561b81584282c00e5b608989f98d9f83a6, 0x4f7ee2ba27fed856c0fac4ed4861b56ac429c59ba5a5313be5bfc1868f953f8d) (0x6d67728cb9e1f49ca539d0c208d6dc40f1ab834571ac18e372f590ddb29feaa1, (-0x65658722e0f27781f4e7a562f8ee0aaa9279cd300ba84df3da3beff54a5df5c2)) (0x73b218d3a25dfd4c6a0e4d6f8d4060376b48381026b989c366cfc0023ba2cb69, 0x874a1cbf764815454a2af23899fd2b348f93f00279d26af9d48865ec1623e054) (0x805e70e3f0f5c352314f693e35c319ef707faefd7f139af67665466439b69dda, 0x34cef28909f09a916b4cf9dd83ec13ddedf71aad0e7394c69e6a41da4532930) (0x6c5ef046dc3fc42c5865c870f7c7ea7de924369377548d1cbdd98b9a3edd94a9, 0x9bf43003738eb840e3d5f403ec354bb3bd213b4a20e6ecba562f9abae7bdde99) ((-0x1db2b118b323810569b208db08df5d410a78e3f90a06f0ea77b5fbcff736ec4f), (-0x17cd4cbc3bee64affa7286b921c83f845f07914e9275ff8709e001701df277cc)) ((-0x7f69b555f77a4dc308d9571d0e5de865c7e7d34b22ace61234db901a2e87633e), 0xabc4c2071f255723f21da5aa3c4fa1a9728ae147314a2db514d452db04cf3bb0) ((-0xd25dd54c9c8b6e2f494240a91831923469a857b56619f73cd39df9059315d54c), 0x34351c8122c0d354a186d0e8fdbef5b2e578f05ab9966f6ce65a7dee6a375cc2);
  Step2 0x1 (0x1d4e59f6b0fcea24a80219b3d909e9ba15e90e1ded49c6bec039d42e974639c0, 0x2d2b4cd5dafbb2d6d8fcb08f6329ec90e0ce6479069a787f89acf07561d9ae5a) (0x2a76823dc5327fbe146373fb8e3648d2033280865d61826c2d9a0001697b2b92, 0x2cf44ad2dacfd79de47559d3113313780a84d9d69abd23830fe984395a357dd5) (0xab8633d73799af3ff7e481f89656f3c33b96c931ea09bd35213360e4468350b2, 0x23f57e00a1e6fa97f75a575a4a16908eb01b2abb27248d7d23537e48a1b5b53f) ((-0x186a61391dcc39fb75bfdd2f5f03a7bb7d47150448e2a0997a3dc9c0ba437e124), 0x59eca2f2b0447349e0294c644cfde52e89328ca4061d56eaed42740f3bc599a4) ((-0x11ad5893f58afa3edddc4cd52af0808918fc9318f4fa5848f9b7be1e0017ae26), 0xe86ca542f970b50e0c555fc6686719e534c702f5d03b101082b55cf837023e7) (0x2275fb906ee0df8ef358b45ba6ff9524b36264fe8abd318ad4e665e167e3279d, 0xe97d5681d7a678c648cadfdad9b2b4544dcafc1d5289119e3b6a783e7039118) (0x56acc1b48c02d49593671c59f679ff3cf736c1f583d9ba3ab96749d7c457d9c1, 0xef4b89dbff103447fc710a0a35279bb5a4511e1bd7be08ddfc34735753b3a74) (0x5e6d51687c179cf22c92570e4d8de4441ae3db54dd468aee5ed36fee03ddb81c, 0x35ce8f0856a3bc8b72182296bea43ad149d10c8ae924fab7233c64d95221ba2d) (0x9aa0e80d2e357872f40f687dac78b9ca5467ae0e52839e5257b2403eea1629d0, 0x57bb52ed0a4238e7099d9c5e36cdf9b45131d0b4ab72a632949896320c573fe6) ((-0x8894acd536aa060955b140e044eb04b7e0f9d5d94e3f34a42b200b55ffb53dc), 0x2b3ce474f41445509f35d93fafc10bf34192aa4229eb02e9391b8c929425b81d) (0x26c42f016ed9f508c928af3fd8243e4324b1cf1d28fdb985196f919ecda91138, 0xe39be00eb7fdbfd4fe5c2fa70f5dd3c0ab6bd44af7f89e890ed3de779cdb549) ((-0x1742a00c3e82fa459d69a110a753fedb7a89354a3bdab37e42dcf97bc04ee5bc), (-0x8797611460c89aa00c8059aeab1d18a23027c2c91d41e8e9be10d94c207e129));
  Step2 0x0 (0x8aeeeb1914b8bc63b067cb54dbcb64dea577d2f0e3db9d18a3bca4d44cad0e2e, 0x46ed6d02ae9483db65b4689aa87b0bcde9980fc991b64e7acc65c22e7bc8ce4d) (0x795a34fa2cea3ca115421855ee6042c853bdc5b280cf2920f38bc4cac0ac8532, 0x9a4156b8e604ff5ff72101499a8b5ce40ebc2b4c2ec1d6df0ba200b32657ffb6) (0x2fe3bb0d5a31035b6cb68d63c5f49d8260df4f0c267c12a989550c308083852c, 0x78c271ce2f3701d2b1fbe2624d80ee71ddc73d6e99534dd6861371b614e8c105) (0x2fb8f954c921b6fcb91ae179c57b8a53831a1949e7042350cef94b7edad85ee6, 0x56d87307cbf2f007f84b6c2de7fe614a5e7836b0129204e8c2083bb16ef25d40) (0x32b491d26823b8d99efee486caa42e7dfea8e6f07b439de6b2355d4b0bf46d28, 0x6c23a0da4007056aa47ad691c0b3b3a3a049f1bf7222da04ce5eed2fe5216ccc) (0x39a89463a5877e66ed46c4b336b48cfdf70f54e83a769b9231e4b529c6609282, (-0x570d81b8a0dd910f7ca01340cf03efd90cc66930e43ae8a4f70002cb7accf273)) (0x0, 0x0) (0x0, 0x0) (0x0, 0x0) (0x0, 0x0) (0x0, 0x0) (0x0, 0x0);
  Step2 0x0 (0xbbd9de37ddebc56bce86a246ebf26f48969811f274e7c9ca4665b5f3e642cc6, 0x82e8c45701e6a7e04b3eb6cf5541ea608661455c763816f6c8bbda0fb7b70cc) (0x4d5f67eb814c1ec09de845394333015b260d0d683faa06f93fcc51f9ec9008ab, 0x54565abb060233ab3cec13ab153c29725d35652ccdfec56172435feb8e225b63) (0x2fbf20a580c47792674122d455eb3d342766568523b77d7381e16102ceca087f, 0x4ae4ed35f9ac1ca07e38c04a45d7a63901a6045b7020d0112de8085e50030704) (0x20d705ba20dc6ec201bc22e44b05a0ca8807c85240c5cf367cd504d1d16e6bb9c, (-0x25469995e495445924c48a87df39cb2f8ef312f38616dd29450ba5030a067ecdc)) (0x58fb41885e89720605bc4309c2d1a3bb3ab0a62ac19413a5a604e4b9b32d9, 0x10ddd6a033b5bfc62bfedc9eafd6980821af6afda15bc678b373dc3ced93b95) ((-0x371caeebb2db1c42df59777aaf3513656f177ecb0d0e7a584d97d1bc12e35fd), 0x67a835842677088d8bffc4e88099a06c9eda1ed763beb6e6cd04b116bde1741) (0x0, 0x0) (0x0, 0x0) (0x0, 0x0) (0x0, 0x0) (0x0, 0x0) (0x0, 0x0);
  Step2 0x0 (0x23e1d3316e780aa8d9265f9e0c98b3bf627afe340f40b3a25b1b492710e01943, 0x17f9cf8fdc80ed29b9111b286a483a982a394e74cee0bb5dca430b32bb1a845c) (0x697da7e11b514298f655a5d5a689f942c7f4c240bebcef26fc188812e2c6cc6e, 0x5f6e9588f0945ad76c2046f13394b79f6d9ca0fffb65001720d5519095face0d) (0x66c8423be2e9227eccfaca8429b773b5766dd4be41573a298d50da5af1a98d1e, 0xb4415c751d6cdfe811ba9f4ad6ac40d294e99feaed355718522b7c552e027fd5) (0x73032a0aa65396c5a27f63be5cc1626a9a89ce3c64674f9d6e74e9d21e5a03e9, (-0xacc64bd689cb34c5016cd5e7d4e2d1879425d64cdfb298d8591e49fd2b8f7dde)) (0xc1a0ee9db995b1bd6c396a2cbb78f8766daf638d7168e2d55159c178cc0349, 0x970dff3b4ecfb318010e77228ccabc4f8302ffe8e6016e206da8fa9f019d4b9) ((-0x29dee363b0a13a3b720483c52e52cf83b3757542e0b67018e4e7c92be861e2e), (-0x5e228ac0d430293ee4c335ac529a3551663673ec80ed64ab72d037d6e881f07)) (0x0, 0x0) (0x0, 0x0) (0x0, 0x0) (0x0, 0x0) (0x0, 0x0) (0x0, 0x0);
  Step2 (-0x1) (0x5b63e08309c4710ee55ad7cfb7b8dfda6039dd70b0414c3cf74f4309a304b403, 0x4eb379b42022454f54b44f67e134024ec6e5a0c0924796bfc0c7e383d3d4b2f1) (0x8f70281e16dfc7b33d2c518f28803db3e0eabe5d3bb21c8928bf24a83f8c8017, 0x6fc240771799674169a8a3573a0a6bb23407904e633d8b6e450756ec6870b3ed) (0x94e9d90e4d64a4cd748bd1d15f550032f441cfada52caa1cd9f7c5b33f60081c, 0x60fc81583b8e56f399db351467a9943443490cbc188c2d2908075248281a8f7f) ((-0x5ba1d7817f210c8f27f5f3b5af077d477e9404a1584793121947f2ff10294bee), (-0x3de1b1de84f4abd757a5335297d393556dfbe2b9f604661701069004c4054652)) ((-0x16249b125286131fd0209ec2e267a21429b9f15b53cc071693527abfd1e7b91c), 0x4eee191cea99eb9cb8a4a7f8dc32b498c7ebe0ee183b784111b21c2b977a864b) ((-0x4ed91abefe84e7442973f19b2d02e82dabe31d005233b3445257eb7aa7ffc59), (-0x1892ee3e5a71252a5a3a22b65e4e9abe8459207e32e9c9c43fa5c45ecc24f2d1)) (0x87b3e191dbd565fe818446c1e2fe0b895fe5c55fcd547a2580bc3ab69aa75167, 0x1359a306253826f13b7eb7c5a35b6ffe2293d4105bef76bd5fa5b726fb673286) (0x4a04868332713b6b72b5f1518211e6316738f7c8c94a11c8558e90f18666d2ff, 0x7ddfd1fcf8154c53ad4626bc2acbe375a3d20142b612d55b551a3e513cb19078) (0x29cd6cfb753c42ba2c71efa6bfc50280a39ff83f5dedcaf92929a5aecf785d73, 0x4771276c31233b903c4cc6cc0e7f496d08df637389b51a974f96b812148ee881) ((-0x4667f58871ba48d8b94f280b8769d17ad48db68bfa47041e9652c80db6b52045), 0x6f3110c9621872aaf5faf6f7bf31e8ec2cda2ffd21c3ef44d10ce0d1f0b3ead) (0x60ef4afbbbad88c91d7bad912287dc2a5d4976174ef49cefb563b4e425c38618, 0x1cd0eb20c318adf2c8eb76ad59f0652b2667f5ca1d268fc8234d11fdb13c6646) (0x36b005516bd86acf6345bf158e0379a1147f194e00557afb54560144e62165a1, (-0x323c554a384e17c42d9370b789aa44fb713b9fb112f402d031c68a44a93d061));
  Step2 0x0 (0x94d8b8ced7d7fed20a5e21cfec70e1b9a16928335f1115fc7877fd347c037456, 0x9e307396fc36a43a54181652c9584679ec9c66dadfb088c0373ab991d77cd989) (0x8588031b08b76026b2078934b72c94fdc82e829884b99cc8c11951ebe770bb9, 0x6538cc570cda34c1f67958e5bd7c99720ce7d689b4e7d3b9fb40a71e14a90369) (0x71a4dfee9939fd1a5e6bc85c233a783eb2e5e566cbd237c01ec404c5edd80617, 0x7214b604c4ec6438639109b54de927730d991f0e480c8f07f6e6e836bb9bb71) (0xfbae997fe1f25d37c06b61f805bad7e9a16d4a1fe52513a3c9d455ff24adada1, (-0x757788a51f6b69ee293bc21ac548f30357ba2dca996ebd645ae97a7485302486)) ((-0x990b6d47b245c0702815b082dd806d471f71981e572b81e9ec374ed9938f4f59), 0x102643c21929fbb9ab14a68fb34ae72c6762d7148852db4675defdb7e49d33cef) (0xad6fb35dc5e618b7aad693846fcf88c17bf40736ef99fb1dafe6390531f895c, 0x4d22cee5df4eaf2d16c26c0a621a355d5ce7cd355de42cd56da5983a882d1926) (0x0, 0x0) (0x0, 0x0) (0x0, 0x0) (0x0, 0x0) (0x0, 0x0) (0x0, 0x0);
  Step2 (-0x1) (0x6c715cca5e5ccb8478e7295a0538e3d3c771c37b614de6c81e9ea03932da5a5e, 0xabfe81013f83e59e93bd808aa557746f84ac9a880abe4c84b519daedf3d97d4d) (0x49978de598890954a808e12f04a37e34f7cda2e6036119d443919847eee7ba8a, 0x7c24d2d0f23a5a254111a59bf71f38537dd5cd33eff81a1e8124a9272f8e848) (0x9cb68f682f0bce324c1ccb39f0e5fdcbea355f9d625785bb003f5040842008e7, 0x3910e88dc8d064c36a904e0c63fab72dfed343eb7bdb2b61948cccc812d55420) (0x1bc7dfe271d1fb17f77083db92f7bc147d49215f1c4b68aed1b7844e15c06f8bf, 0xc32becf4df2506d1bbd38c9fad58edaf148ce00c183adda00531d1bee9dc437c) ((-0x1041ae05cbdc1449c00623b7fd838adf79ffd5823ecb4c91ca702f48310991312), 0xccae446bd9b52b2389fbaa19f96388344a97e11859440dafd16546f3d997d1da) ((-0xd73ad414fefa94ebbc40dc20bc7b3e92a1ad88407be089e8f08e1569174eb7ce), (-0x5f6506fbbe67d19e3fd58247477b5d721d1d86081e7d0669105ba0b5c362790)) (0x91c19513d956b72fb67012bd058a4d08b063c1b112a13b47e5be02310788ce6f, 0xcafaa0c08ad24084eacc031f556665615d760528804bf3b2ff9f805cd1332e1) (0x9d9573e711b086671b7fa2cf2b5df0a27868a14cde7da77956cb9c537b4c8631, 0x2c4a2d5e3eb08ff7b55b342f4a11027bd158add6d5ff45f43980fcea7a25c2ba) (0x600182907a049e895f1ddea3d620c9be8d80ecd044102ca8c9a55a71cca9f5d4, 0x2f10efc4db1f56b8a567e6579f4b507ad2d05930cf2a166486137fde6106111d) ((-0x204ad82f4c6ae312e2634f0eca3ec9b48ec19e66d32b899dec53b40499cdd209), 0x636ca97ffd329a873d28b408412c4b48f0529ec393751a40a66b45056455c636) (0x72cdc3511acad371b33342425ebaac01d7c46084f6923821a835f50124c441fd, 0x144ab37b3bcddf09219e44d1b0ac360dd67cea78870950f7f6cc4f8757101537) ((-0x3e1667a56836bc82ff02712acb908adda8bc9b74ce39a5c6e4d9b178699ffcc0), (-0x230ff8bd21f0018e06237751c9c12f32166b79cb20256eff0037599ff742e8da));
  Step2 0x0 (0x4683b1e16bd4ffa9ac4234d4ea24d26c32b702da61e08e5dc7006cb7010dc751, 0x38f40dcd05b53d3e4798f25fa5869e21525c4cc62af4cb8eddc282b80f24a1d7) (0x7325fbddfd6d7f4398dc905bb8bfe4cd98c06ba2f44a0035b74d00342994a0a6, 0x477ef7a4d14563186d1f8629ab1dc95b7d5a8148cd6cfb27a4fffe07eaa91952) (0x1d250138ccce1d964cb2fb575e3eaca6e9381f6f8233712ce9eafed9999f6e5f, 0x57336815be1d4153e8a542b25bde0b21cb045ae5c5c5258b010ce00171793732) ((-0x148bb0ccaebc16f7607fb424e4bfe22a2ccc4b9e4915885e32785fc937e9151fb), (-0x85591bd98e6a487083307c2e93487e6c10ad49549f3760fcfd5949a54a7fa1f2)) ((-0x8502d7b8c7e6b476fe547bb5a4101a08bc787cc73405e208fb88c8bbb3c96fd), 0x2c1259dacff93fc36d45c01e97a4f4d6383887e95249b70a2981b7f79f55a4e8) (0x216c332483892a92f5c297967e9e9d44434ddd5be949a49f57d9f23e7ed0ccf8, 0x2bc18ab0f099839df5057398ff84eb4ead7ef955a67f8b2549237971fd3e58e) (0x0, 0x0) (0x0, 0x0) (0x0, 0x0) (0x0, 0x0) (0x0, 0x0) (0x0, 0x0);
  Step2 0x0 (0x462a40e337a5ea985ea815ca385b5c37ac2b236396be3cc2835a4f03b6c78bfc, 0xbf212a155dfdbd022c58a58f305f561fd0c259cb5f2b0d9841cca4f71ac7590) (0xa96b622bbae755c7c0561501da169c5db2b6c79930b758a302c38b75e9f092d, 0x3654f2f6487ec217d487e7e73142a77ac9bc47788cc87a3f6664db52d813e0ee) (0x405f687fdd6741ae82fc11a5992245358f2f2300ed72edca0ab35b3ce5d389dd, 0x347d8340e239f3915e1a289a15b69854a1a9380b0c68108e26123de1b0ff9941) ((-0x3264ba9105697c85c284dfc6a11636df3a747e5ca4ec0922e757815018c81dbc), (-0xc811cbc98754e10234323951fc69935080943d5e449329d78f4e8f31d8782818)) (0x19727753d3f7642e477b41d6b88d639fee784728c2e48d4e59656bb90f7d19a3, 0x932ad04af0aee28c3f478a673f1affbd3fe722d2f8387f8145b50134472cb06) (0x2601360e9109566b1b11094023e86b7002fe35e1815669feea280ec08ffbf0e0, 0xd7621ce5d6155b5ece8bff1852a3a7434be39d660017a29bc4a04109e9d14d1) (0x0, 0x0) (0x0, 0x0) (0x0, 0x0) (0x0, 0x0) (0x0, 0x0) (0x0, 0x0);
  Step2 0x1 (0x78d042642c628931d8bb5aa9e96f1ddf135c6f696fd4785106052553b5826017, 0x4a422bbc503b50a44e4f6c1397e56203674b90cd6c51bad964356a07e871203b) (0x64f34f28e3ded3f04155fdd0db65ffbed0369e5e66735d0122df1752dfd773e0, 0x1baf0c3a4e2c08456d6de0377995f62841118d3ba842f640a0ac976b3c4eba80) (0x51f6d98302f7149e0e416dee4403ae4c0a95cac1a6463e31185a33d2882b9c0d, 0x2eb6b9826172713f179ff977d01060987575ca0d4f8c15223bb8e974923b9a23) (0x5f223850e62c73451daa52e28f70613fd813ec540ac211df1169fdee1ee68af3, 0x671bff08c4a9d6c6911d7aebb00f13c319120df5997ec164c4f6c391fa6de728) (0x1392cd9fbbdf4d128e57ef513eaf1774c3814964da3ee7c7fb782438a3e79049, 0x6273ae98300d184a59933321053a6edec9dfa50ebd45157a14a79a34bfede396) ((-0x519dd1905f424de86ad23d3f2d6718451d808e7bac3ca9dbdb70871388d06fef), (-0x13273ae6523ddf0dfa823e966e32d6aee1573a22e161cf1c2918771fae69613f)) (0x9d9f717e7493c530f664e23ddb6c08f6826f74e80d36bbf48fd97a3d1ead628d, 0xd78a8d0e00e002e1eff7ee481fde04056624b8a7f8043f5d5c205b9b84555b) (0x97cf685e946b452c3066c02173d3cf0d0fa1d2d2d15e0634f7ceb9a7fcb96701, 0x6c1c787bcc0b00c352e89c81b457be03611ddbe988c1b912a3fd5e50c5e2336b) (0x1057be605725276e9f38d901fd0a71185582e2633a3db1a306697bc61bc327d8, 0x22a5c663c31b08ef60b197c16ac29652a7a3c9f52304bff8ab5a199aa0b7258) ((-0x289aac5a416a9c68624745e222d85b31551b48eabe22276ab564a136b12aaec5), 0x5b76e28565c56d61d2b9f50d5e1e13fde0013ccff52c369441201f45f4d2104f) (0x8850d214b6d283aa5cdee5998c9d15213f8f172f60fc719cb06275cb83cf0397, 0x174d4b5876274875e5c61dd93fd293eb76887ca6d3237283009f1804d5353fa) ((-0x2b3e794d7f1b1b3569c7a6f07d4bb5126ac0424368e5eafa9c333ed50b749200), (-0x45cb5ac9f2ce191efaee8f5dfdbb7e27322a4565461392bc2269e4b590107149));
  Step2 0x0 (0x70f4a4c42c1b7a695bd3e4cdaf7722ebd295ef21f10b48f233786728fa375231, 0x2123d05d3891218a2685f6e9c74942b888abe36fbb0f1f7eca7e65d69f54f2ac) (0x734e186be838b50ad39e8f2a6ef7221f2afe2a3d48a7567dff63b84aa8152dab, 0x592827059dd7e6f750757fee2f9271b5d818a6bd9e7c3f8599c47940aca77c25) (0xaddf5caeafc6ac3c23773d4bddc2168c6563e6cfcde9845384ed7a0b5f9f702e, 0x1e825f3ac8a1a8eca3b0f9dfc8191d824984ca4dadd02fb3d383699bd2f28246) (0x181c538bb3cae3dcc043bb871714bfbfef303d8ea77cc00d5da0a247f1a3e7ff, (-0x213b29b19ce2b6be3345582980debf28d188f5f161653c8f97d2dcf4be99db97a)) (0x39f4b8b7bd8269e0c94dea1e76e181e5d6c09e46d726140b4c2dbd9acbc30924, 0x291443c59e60ac995216fc7867ce71aec52363fb40add1417ac505afbef7a0e1) (0xfbb6861ca9ccb7a2120987505f3e765164812b6494aa057443a7c1656522ae0, 0x1262b7dfa2a82ded68c12931d581f17e677093bab9c7a81c270f20bec8a708d0) (0x0, 0x0) (0x0, 0x0) (0x0, 0x0) (0x0, 0x0) (0x0, 0x0) (0x0, 0x0);
  Step2 0x1 (0x31c8a7b0bf13314359de77f9d3e555d7318e5615b8032acd755ee6cb40fdbc86, 0x19d4e03e518bc57e642ed02d79c60dbc2e06a28e8856c86c96854c8dbb7244e6) (0x53c12bed4ca6f2187ae2afb6dd82be056462ecc1c7450ff2fa9c12bc7fda8f36, 0x7661d1cfcfee534b09c2fe4c553a2c20354f9f59bdc0e14acc51a138b661b993) (0xafcbeda426ce3705c024c837332b1fcb4bf26c179ba625ff82decc9e4b0ece32, 0x28f5e14d72eff131e74fdf03fd93a5e31d73195d9b6c83987d98ef25b3cf0e79) (0x788907846054a858525544e43c373233719aed386162f485c547616bf33c577f, (-0x1107cdae2a57071b30920bf3c155cd7db6c238f2da496f4b96b721771cffafee2)) (0x646c7f1241b5569219c34db9fd52f555cd5f6a22026fb738f2d5f3a59b6f890, 0xe1cc67bcf39b7e05cb0e68f24d5a4345e5ff7dd949c016fc71f47fdfbf32287) (0x10e72aa12339b335ccfb542d9ecfe803732f7ff2f24be2f7c1eede9f89e1c17e, (-0x382e91b5bfcd7bb9f16085fe6823fdaa5b6ff43821bb42400197c4c76053e19)) (0x373539911598cef0090cb94f258c47b73d10a6e37e7174c223c23cd7acb4d979, 0x36f1c1fbef6c6e7932778fc0f6689d81b1ac3552159a4a463e1ed9db04e17ced) (0xa4cac2427b5cb4a14c181b98b1c7654bf81e2d7550312a97b85d9fda7799d777, 0x48709d70fd0387d227c18f2b03d526ccdce0b223a62d59f126e2573ccc3e17c6) (0x748a7f20ee5c640480369829d7ac65f5bad2fc00803fb8c42d848976115190c6, 0x5bfe7a99d622f39c049ef16e1cf72504c913c1ecf6c761ffbd10df7a8ba80bf4) ((-0x11e54be72afd0ce61280a812d2eb3adaa83f7baae9808f2a04f80d4ac0961894), (-0x3fe3fc6e1a7294249dda62ca5acdc825dcef249f4b63f582ed7de540b111176)) ((-0x1067bd4304e0a1bd10900d500109db9944b4bb5bbe9901afceb5c0aeb68ec79d), 0x2149b67d07319ba44c8f8db0ab158a58d5a4306166f55b4310b01dddf64fc830) ((-0x343fd39152e8cbc763bef8e705398b28ce6f9978d9fed8c4ae99bbd75e4e04bf), (-0xa83961eebc9b8c3a6da0a4a964b393108f7630a6744815e80d0bb5079e9c499));
  Step2 0x0 (0x54b7938c636e07df70e9618f82599637871043d58cc084a199a9a50d20a25be0, 0x71114ca0326e50e2c6690d6d708e5685b8ca49819f69ab8ddcf3f4a08f6c0ed6) (0xb18aaebde96aee8495f26efda6c9bdc84cbcac4b0de6740ec014ae9322aa808e, 0x2a0c365935f2e114c8d7252e152d7a295125534b067b656de68fc6d6a4b9b09a) (0x5980e469df9c3349735ae2c2f9b4460fccc7605eaa12d6164166ae93c97ccf5c, 0xaff0267841afdce823b6efaf62e2b50727d3e681effcbd1256cf3af73105a6a6) ((-0x18a34e28d6cd2d6213bf0c6a5c12d3855f20b34f49c014ad8670d5f1307198d57), (-0xa2e0429e4295788491790633d8a06914c85e7a28f3eadff37f0a248008b9ab44)) ((-0x64e9f87fc7004c0514c58829b4a3452623a1f90e87e8f5dfd39cd0cf60d81994), 0x691dde15254949b23fdbb193254b5fa80cda2f179eddcc139a84c4672aba0ae2) ((-0x2ba3192f84a533483a9b900c381e17b2be85f2f4c3d0942bb91077664ffe3aba), 0x637b5cade3d79c01c849d3fe912a7b681622959632eb26005e5ea52a3847f1c) (0x0, 0x0) (0x0, 0x0) (0x0, 0x0) (0x0, 0x0) (0x0, 0x0) (0x0, 0x0);
  Step2 0x0 (0x7a02a1b8ff448821168f97e3297029338dc029260015c2fbd6912bbd64219307, 0x70b0a561b98417bddcda19b68d5a3186ca8fc22095dae3868497e506d0863371) (0x90ab2c499fc640f55cd9fa920abab67b34dd48ff0d841700e129da83f6be69d3, 0x758e78867dc1c878f58775003941491768d9367ba61e0f87c9b92c8a896a52a7) (0x8ff1a7cc5065dc145c66498ea21b469de116c5cf86471abb8a398aac8ca0476, 0x5c60a636b41ab6e41d3897369c93ec396a13a671ee22befcd26da1ada83e913e) ((-0x307f804bac92b5bed8db09488b863c48a2cba3f403d490661e910d8cb34f617d4), 0x647c480583863615c2f9bec3a551c451aafde7c777d5ddc99f22687356179214) ((-0x39ad3aaf70e61dd6844566fb295d60b612997eb7352cfded2b71e8c29022fa80), 0x96e2685290a5044c0049fa4f74a37d2a8fe3cd71bf73f1dc0005404ccf24100f) (0x7362ba79675c21a27bb79a1702aed7c760a7e3d4b0016a0da4c4b71ec82ec7e9, (-0x1e396d9c24934aa41ca14a6da64dc8f2900cec498bb366b75fa24771796720c4)) (0x0, 0x0) (0x0, 0x0) (0x0, 0x0) (0x0, 0x0) (0x0, 0x0) (0x0, 0x0);
  Step2 0x0 (0x357230691651d174edc388cc7a5df307e79986cf199cd587671c9db99b61b625, 0xb51f34c90d3b91ae6cce32eb97c168b8a3673716b55f3f9217c80695144c3776) (0x42253440cdef3f27bbab3d9215a32852423ba6934fdaa4e7fe2ae7e371221b54, 0x93419abf7f624ac218b77135009764370534e575afebed2173c7c66c4d7cb4c3) (0x837fb5756d8e264c068e17c6c5a0cf158a397bda468849687f8392d5fec5ba96, 0x6601f8f6b0a3d8099bb613afd881658edde52c670f458d618c711cbb5d81228f) ((-0xfb7e24a94aab5b708761c30e34ea2f8d16a74e1cdb0f9623669642ffd387fdbd), (-0x1e7d49a853199747b5ad5a84b9b270ff741dd45bbcfa9992cc23ffc62327bcff2)) ((-0x15854014817ee3ede4413094136c3d71898633a472c98e5d52e34da528c6ab45d), 0x6a3aff289b1aeac4268a6bad39768cb3bedd06ad4436eb3105ceaa538c266027) (0x520f2e8a4a073d9f929eb4e9038e3d3de4370663117b315fd613a1d9c109bfcb, 0x4553deb92ccc605eb8d0f87ab099c81512a91d550adab051d696bf4580f02f45) (0x0, 0x0) (0x0, 0x0) (0x0, 0x0) (0x0, 0x0) (0x0, 0x0) (0x0, 0x0);
  Step2 0x0 (0x1f43abe051665fb2cefe85f00b22089b5ed4223866b9b8eee5b9a3cf5f5bd4e2, 0x621bb760588492016e3ea1943eaf8ee96eaecc54f25fe59a9214b605347cd505) (0x1710f7c372e8cb5232b36b6d709f0aa496da4ec87d9d27b4dc6e807cf7153123, 0x5b2b589fbc6fcded78d17b07a6a7cddd59a197ce257031f7b2359f9cb7cab9aa) (0x8bb02a27608f41b7fc9be813649b3a21c052ac818fb2d674a08b4c134338501d, 0x38badb1fc87a58752d8be4b1475564dd770b7370f550910daab06760103d64e0) (0x1d35629ac775a019989c1a6f08dc3828cc344ae7f9320b2f3e1aa8ec7b8d1e99a, (-0x901832a363bbe10c3f5dd59262d46f5a02a33e6d6f41f140ed7f51a583e9a6d0)) ((-0x64436e4f99ef5a142b0b71b9bf4acd8bb978d8c15667da7a1cce273ee8152bad), 0x21a90630da4741a0e00ccbd0ec233b802c3df9ba3b9f6526481166d2ffb0e974) ((-0x34febbb42f75822b6694873b5a38dca878c395d72e6526f410b1f27a7f4c4207), 0x20cfcb84af5fd02bd82771596833cd5dcba334f365bb0a43967a5e86465c7678) (0x0, 0x0) (0x0, 0x0) (0x0, 0x0) (0x0, 0x0) (0x0, 0x0) (0x0, 0x0);
  Step2 (-0x1) (0x53d23b63c347ea3fa2a1f27bfb448527c96708752fa4f797399744b5d29762c2, 0xb155a15ba8b4d0b4c1ba45a52ce0c6d54636ff3cfd484b4501a24afc44df9363) (0x88a4cf93c7992f4675672507903b4f0e639be51b6b9e3715ec1c79ad773f686c, 0x562e70997a1918517c46edaf54cee1736f652c29a55ea0d0fc800483a88545e9) (0x1ab5fd665032036f6adabee38a08c214ce49b6d798dcc71da664e1d5f602fa37, 0xa4fbbd389efe263c11f4cc7814ce6e91bfdedd51d0d65d3b154df5cb0c760c5) (0xac935792adf7e13300eebe9ccd11d9fe034864a7bd7d49e4591e5810afb76305, 0xfecaa64d62a080557fecc8ff81a77ddebff9265e235040c7c22f015db5c63982) ((-0x1328d3c96dc8245f4a968c6c8ac530854e131056aa7e136a159a2238ec2acd540), 0xa31ef4449adb5554026e7b9341f6a40b8f736fb30d177c83de322212ab3c053b) ((-0x3df19f53af0e4f46f10ecc1443031fc3eb64020a4dbc6f897169cf8c95a38e5c), (-0x6c3859f6835b36eb8bca328fc8c2ee0b7eb4f5d589dc9cb07d5afc4c07883076)) (0x98fb35582aca68f3277584cc818d644a45784f86600cb16e7a261a77aaaa58cf, 0x72d55260dcbd3d73334fead8a419789edda13505b9ece4fce8c3d9c05114b1d9) (0x7e61aa7a3d5cc07cc9261ca68307eaa4c5a290bf92bb0ecdd5fe5bd83a5e1774, 0x9c51047d9bbd8fc6adf05509ad78b1b4c14e8702d1a1b03d1c6e0eabf6bfeb0d) (0x4ad9cfc60091d60cd3f27011894190a6693e43b432898a1e59d66bc87bb46398, 0x655b1184faef6de45b0f93ded4937f1c23a5b98010db09f8b9fc1a9fb6641602) ((-0x8047a43aceffc46ce72a21bbcd4625b1c0f4eefb4774dfdad38ccacd19d0bf85), (-0xb7c088615932471a3d38466ce92f5330b8fb72ecbb72a00c7e3a4255a3c095e)) ((-0x104bfc59481dcc6edf3ea314326c333d5978640dfb6a8a236d103d30326fca6c), 0xc0c86d8d7e67623f873878426435d18daabb649c04d3fbada7edaaeae4902743) (0x60ff1cfee99be5ea83a262b0060b6797c579a15acf4e2cd2d1fa4552463bc895, (-0x3467ce53c477b0c4d4949af505e8374808ce15dd7c4e99331eceddb8e6c42b47));
  Step2 0x0 (0x4df7a4f9579c18ed60530d1f8b7776f4b72c18e9e588ce518ec1539537c907ec, 0x469c9199f8b696ccd4410e2cdc9bfb188f2d580b8113205060285826b92cc904) (0x83b1b0899893ef053acd61d198fec891bcf45dd0367fc0713de3874aacc8710b, 0x272323b88deae329f1ab2b2c4dce9f98990f2e238d4762b40ae99539e35b94b2) (0x89e14130f2f50257531882544c8d1bdeeb80ee898adc44d665aa41010a8f5acb, 0x1aac144faf8432dcf3dd282efb9ecd89d98b4a9b5d8dbe82083bb2b0030bcc6f) (0x1c07c441f460d47f92ae4028c542b41e37ab8af9883a368babc86907e9b2ef8de, (-0x1f9aa57a2af4f304a796dbbf0643740d30d5d8ed2268bc3d80ca1c5865aac0908)) ((-0x155c7a26e7ddf0b551e6ba8f6373ec3b39e8f9cec6ef74f548aa6481d342c3ff), 0x3c6a791e2fda97e534556400d64f8adcdd8b43f92d8b29cb72f1efae4e22f324) ((-0x5d12cbcb5e094e114c53e42cc27aadc07eca33c702f2171bf5b9c66049da8c5b), 0x30124b118d38701518b17145616c691f5844f4868d10dbf8d7e7c7a87b8c9523) (0x0, 0x0) (0x0, 0x0) (0x0, 0x0) (0x0, 0x0) (0x0, 0x0) (0x0, 0x0)].
Definition eig_Ux : zz := (0x83b1b0899893ef053acd61d198fec891bcf45dd0367fc0713de3874aacc8710b, 0x272323b88deae329f1ab2b2c4dce9f98990f2e238d4762b40ae99539e35b94b2).
Definition eig_Uy : zz := (0x89e14130f2f50257531882544c8d1bdeeb80ee898adc44d665aa41010a8f5acb, 0x1aac144faf8432dcf3dd282efb9ecd89d98b4a9b5d8dbe82083bb2b0030bcc6f).
Definition eig_c : zz := (0x88ff5c730c0b73a064e54bb6a38b7f78ca1b1aa1217ba25198dafea840a7def7, 0x0).
Definition eig_fx : zz := (0x89dec724a1b520549709672072887ea6748cc9cb9b60c4bad03587ee45164c32, 0x62abecb16b863092653dce2542646c86cd1bfaf10de8d49eabf16a15887729e6).
Definition eig_fy : zz := (0x232b3845d136bf9853c156b424cb68b7fc05c1d115c4ccf554bbcc0614b557b5, 0x5931695b4d58942a47f4f9401e0b98c54e23e850969d3145a45df3fc812c3352).
Definition eig_x2 : zz := (0x52bc51d20fa2154bc45eada09f39bd8586667082c9c4ad0ed67e66b2959375d7, 0x84251f7e215d10b8ed4e2852f47781e384ebff8c17ae7554ca6d602865aaffd3).
Definition eig_x3 : zz := (0x7f1d8aad70909be90358f1d02240062433cc3a0248ded72febb879ec33ce6f22, 0x85aef3d078640c98597b6027b441a01ff1dd2c190f5e93c454806c11d8806141).
Definition eig_wl : zz := (0xac684da8c107db86c05851d21cd18a4af39d8c024911d96cfec7948011c6b6ef, 0xc9bcfce079a9a59e055588671226efccd61903c074bdd9158cf8aa5a17f2ee6).
Definition eig_wx : zz := (0x5ec3754952e765a3187000de591abfe1839c73fef814c1ea5cca14120c28e9a, 0x34aa3b5df85915a0102a9801704ab2c51500e03c0708d0c41067f312f930f9b8).
Definition eig_wy : zz := (0xa4ecc7ed557e6f0449b2bc9d8821b45c2b5fa11364c237e52dcc14439f29e1c1, 0x5217660e5b1b14610de947f029ced56f1a89d32983714380234cb305864ddd87).
Definition eig_wq1 : zz := ((-0x2651cccba4e45252432ccc551a39396ae829004d9f83dc4b62ca9ef38a90d85), 0x38bf140eeaa7b4f1391cd54b25c94a2972b82c9455f291ef9a238402d00cb4ef).
Definition eig_wq2 : zz := (0xa15a10770139d461d78a0fa5c4c2ae5b251e9e011e81f6e42e9ad8857629b9aa, 0x17dafb69c427d535dfce75fcd73fed2aeb2401a69d1383d5ed7469f0733a1ef4).
Definition eig_wq3 : zz := (0x78d9cc23e1610719256c024f48dc4085aca5aff18b598505640fcad88a126f97, (-0x4188a67fb677f889b1774e68eeeb13bae4458cecab2cd1e2a6d999017f9c152)).
Definition eig_rl : zz := (0xb328d8ed1330fe78982f19da2e3f5785e8b58fc9c35b1489083546ba463088a2, 0xa7080d273cd1d38713132580933b0897fec89f63eb3b2d6289895ff84e81327).
Definition eig_rx : zz := (0x7f1d8aad70909be90358f1d02240062433cc3a0248ded72febb879ec33ce6f22, 0x85aef3d078640c98597b6027b441a01ff1dd2c190f5e93c454806c11d8806141).
Definition eig_ry : zz := (0x232b3845d136bf9853c156b424cb68b7fc05c1d115c4ccf554bbcc0614b557b5, 0x5931695b4d58942a47f4f9401e0b98c54e23e850969d3145a45df3fc812c3352).
Definition eig_rq1 : zz := (0x4267acd2906bf58d6157c51dc5e3357f353a74649e5a241d65968e7c7e48c0e2, 0x52883eeb6ff16a0e2c8919f5faeba82bd7d4c05034d00c61851a016d91cff23a).
Definition eig_rq2 : zz := (0xaeecf16949f52f9cd299ab4566fea9d1e8fbab601eb5a188ebf957c14653507b, 0x14865ed03c0e586356ac0527223d2572f1a20406a6fe3d46d175eb412742e1d0).
Definition eig_rq3 : zz := ((-0x6ddb2018e9efae6425c901826ad7ac17c715d88cf13dcf51c6f8f8466893af68), (-0x56962de7953f3421501df4ed411de7699ffcdbf5764a5d78f7c2f5706354babf)).
