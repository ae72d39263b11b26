(** The generator of the second group lies in the prime-order subgroup
    (psi(G) = [x]G), so every statement about that subgroup is inhabited.
    The table of slopes and points is generated; [chainOk] checks it. *)
From Coq Require Import ZArith List Bool Lia Uint63.
From Verif Require Import Params ZMod RingPow FastMod FastParams Emulated Tower FieldFacts TowerFacts FastTower Pairing CurveSpec G2 G2Spec EcGroup G2Jac G2Mul G2Cof G2Psi G2Clear G2Order G2Chain FixedQ.
Import ListNotations.
Open Scope Z_scope.

Definition gxZ : Z2 := (352701069587466618187139116011060144890029952792775240219908644239793785735715026873347600343865175952761926303160, 3059144344244213709971259814753781636986470325476647558659373206291635324768958432433509563104347017837885763365758).
Definition gyZ : Z2 := (1985150602287291935568054521177171638300868978215655730859378665066344726373823718423869104263333984641494340347905, 927553665492332455747201965776037880757740193453592970025027978793976877002675564980949289727957565575433344219582).
Definition gTab : list cstep := [
  cs false 0x15a76ee3d8d1c3451005d56067cd27cf7598a85f81c23cd926ad0ec05ad6440f1df034cf36701a5831c9fb39250e2ea9 0x16d96e785c797fb5d6afcb1400d7656829a6a71c42deb7ddce5cd2ccda4704dc0e4b92b69009367bbf6e6aa19488df66 0x1638533957d540a9d2370f17cc7ed5863bc0b995b8825e0ee1ea1e1e4d00dbae81f14b0bf3611b78c952aacab827a053 0xa4edef9c1ed7f729f520e47730a124fd70662a904ba1074728114d1031e1572c6c886f6b57ec72a6178288c47c33577 0x468fb440d82b0630aeb8dca2b5256789a66da69bf91009cbfe6bd221e47aa8ae88dece9764bf3bd999d95d71e4c9899 0xf6d4552fa65dd2638b361543f887136a43253d9c66c411697003f7a13c308f5422e1aa0a59c8967acdefd8b6e36ccf3;
  cs true 0x14b92565b748c30f253912c6cf3aaa45c2b370e810ea9361db7b84172cb1e68ddd09eb1296e0f84058018a4538d64e8b 0x3c50d0829bdc305ff694cc9bf914addbdcbe307142bf7cc7b8d9115b96656327dd7978009cdcddf4728a38086aebcd7 0x122915c824a0857e2ee414a3dccb23ae691ae54329781315a0c75df1c04d6d7a50a030fc866f09d516020ef82324afae 0x9380275bbc8e5dcea7dc4dd7e0550ff2ac480905396eda55062650f8d251c96eb480673937cc6d9d6a44aaa56ca66dc 0xb21da7955969e61010c7a1abc1a6f0136961d1e3b20b1a7326ac738fef5c721479dfd948b52fdf2455e44813ecfd892 0x8f239ba329b3967fe48d718a36cfe5f62a7e42e0bf1c1ed714150a166bfbd6bcf6b3b58b975b9edea56d53f23a0e849;
  cs false 0x56ceab5d5d994dee0ca07fc0d41aa908b1a833b94e768d2dec05cffe4a869aed2a64ee86a72f085ee4e78bd4c2aef8e 0x39b596a976f556e5ea4016a3111e14b674a67295a242cf3b343a6878db6ec20bcac1275d23aad6cd3e84e398a4e7bc8 0x19e384121b7d70927c49e6d044fd8517c36bc6ed2813a8956dd64f049869e8a77f7e46930240e6984abe26fa6a89658f 0x3f4b4e761936d90fd5f55f99087138a07a69755ad4a46e4dd1c2cfe6d11371e1cc033111a0595e3bba98d0f538db451 0x17a31a4fccfb5f768a2157517c77a4f8aaf0dee8f260d96e02e1175a8754d09600923beae02a019afc327b65a2fdbbfc 0x88bb5832f4a4a452edda646ebaa2853a54205d56329960b44b2450070734724a74daaa401879bad142132316e9b3401;
  cs false 0x6e3ef02d1a04e74ab468f6e04f007b067140de16796e93717f97204641356999f8abc87a7d6c3a51d2dc5c2080aa3d 0x1bd56d5682c8e27f4e58d1fe16609b948cecacbf47561314d3adbfd218516e28b5be780d59a6e961956b585b6151749 0x173ed58056bec9874464d3f23c3e7d3d429d6c8a167fc7f39368830eca839d0eb8260d64ca823f6c785c71f85893d84 0x123372d7d4c91a249df8f3e4f8e669087b252ab5d8cf2529a87e4ed3622e4158cf17dc44b473d5debd273261383e8a0f 0xc500eb55ab86381a1725f339f686c7e38ce9113493736f57e999badc661b5b8494d220ded0711e841228a389abdb82 0x10a4025d823c4262367c53f50e67cffa046e4a1e7c69ff30373772e49ecb310de3b313d83cc41f40a00205722f233e27;
  cs true 0x8ecc09a9c1f157a41ff8574dbd225e6d360104b08b70bcde984dbdeecb87e54d15afa1ad4d82ecc86926478060abf07 0x1459dcc20ccec09d6ac723641fbd91572a9f1c1cccb841f8f081b995baf77ded82e6c1ee979b5618adb99987cc3e887f 0x152110e866f1a6e8c5348f6e005dbd93de671b7d0fbfa04d6614bcdd27a3cb2a70f0deacb3608ba95226268481a0be7c 0xbf78a97086750eb166986ed8e428ca1d23ae3bbf8b2ee67451d7dd84445311e8bc8ab558b0bc008199f577195fc39b7 0x845be51ad0d708657bfb0da8eec64cd7779c50d90b59a3ac6a2045cad0561d654af9a84dd105cea5409d2adf286b561 0xa298f69fd652551e12219252baacab101768fc6651309450e49c7d3bb52b7547f218d12de64961aa7f059025b8e0cb5;
  cs false 0x75707a467e7543c28370330bea9b6e4adf41fa1060713eedb760c98b7aad959e5dfc28db5abe92a46d0ff04a4205803 0x14061839f139644bb20e864718cfc9c1ee8960c06ff2c240598a8a6da7ed2bcc091f594d8b0715d2f6a16be8d5828197 0x29ea93c2f1eb48b195815571ea0148198ff1b19462618cab08d037646b592ecab5a66b4bc660ffd02d1b996ca377da 0xbb319a4550c981ee89e3c7e6dcc434283454847792807940f72fd2dbf3625b092e0a0c03e581fd9bd9cf74f95ccef15 0xabb072b8d9011e81c9f5b23ba86fdb6399c878aa4eadee45fb2486afe594dffc53be643598a23e5428894a36f5ac3ce 0x5d04aa0b644faae17d4c76a14aa680c69fdfc6b59fee3ef45641f566165fced60cbbda4ca096e132bb6f58ab4516686;
  cs false 0x1deabfaeb3374b50119ecb98148910d6004895792caa88dad948685eedfe9d3ac7315ff9bd8fa7a943e0e3a924e7492 0x7c9b05e8adef4de506459f7be98bf07cbd25fe6f4ac154f7c01f5d8a4b9368fc9cbb8ebfedf28954ae85d6e9f58c709 0x76147fc1a30a666d36b43fa11419b6fa517b642c143cc2ad863426f2c7832c9c9fb62fd3c6f9dc94801523782f9b37b 0x12f4b28115b81c38e3bbf17cf69059247c386ecccbaed914cbf1417f24431096f49191365acd1aafeffe8c4489a89415 0x164aaf1243752293eb1376a3448bc1941c8b25df7cfd0bcb708514d7f477439817f367d8ffbf02b95629d336e7da1574 0xe46ddd6615bd3583b69fe7156087f35ed4b8896375ccd7f52459f56836fa38e0b596d289800df74c3a361e813b24550;
  cs false 0xee6eb50b6c77d09551c6a60826f728738a490c04918351790b28f2aca89efec977f5d8be5ab1530cd829c00c02bb5ad 0xfe2b8fdab71a2b128d2ad1b08e43b756d77e33ad8d6a444a32fb2ef9c6d1098adde218e3fb06d66bf9f7d4b7015a6b4 0x865fc18a86549facdc17a997f52a2eb0382ed3d4c1ee32458aa78b940604912e1f0bb8001530b76723da4c169709102 0xe8d41cb551925c23c5a7c2d0a3aba3353bea7b9d1d12dc5e549f2c1e7e929b596e72ea6b0983d4576189c2378bb9660 0xfeb260fc5e14dfeae3422c97ccd06fcc4e87f8fbd69b96ff50e54d232b653917d106bda6469019ebfd885d4a504bb90 0x50f49de6c87f8663fd03f5593c0b61f0cb688a3e7801f0d9096c2294f475088375f1f4f1a996d06a25490a7192976ff;
  cs true 0x14bf838fa391c4a090ebbbe743ae2a27fa167025d88ff625b3bef3953ab3e70c52b7f1fa0e81fa12d05c20409b6ab80d 0xf45e1251275798ebc25a384129e9223de8b300c58513dc4d4e26bb101a87dc37eb1f2ad58f5ce986c824b89b843b64e 0xaf0261122b00e0bcdf92abd017ebb88081e5f03a4ee341a7b8f83a477f4ea583120dc86581ac8840d62fe3656a40bb1 0x27de5d84ad260920c5f5fd76984bb130ab5e8888e4a160006963bf8f04b68f9f24beedeb0c639e03e0d750156cec39b 0x149b6995264f99ceb9de432858c42c3f94f29d6c9d5374eac96356c3ee2d285e6e3caffcfaac95248bca5dd6f06afb68 0xb1c3f52559bc63efb1115935d6221f82f5528c604d41630f7bcdd8d554f89331cdaa11fbc73c9e36829bc9ff2da5fb8;
  cs false 0x15f5f0afe4eeb7545fb13eb055c6ad903c2a3e4b9f14a8dae81217db1696daa3753ccd844396189ffbd89d01fe27fa5b 0x1040f087e9a0b6633fa13692b8f5f46e2bd5fc15d81b368ac9d2464eda778b0051c1027ed3da9931ffbf361f326b7282 0xfa9059e169bc3ce7e7dde448b6e61a1a1c793b2a6cbfed8e35adbe898cd2d7be4c718bbf13762b6ef7d8dfb50ee9482 0x184b55b82e1e23b5dd5e165fbf4b3df89f1daa4cbec363cae7f7c9cc1063b66cb6e8d12e137c3951951bd62b206fe50c 0x1765060a7f82f404870368ede020ffce1fea8f121a7e30ac7a3e1ec6fae5f1e1d716950d1fa4a89c2a066d2a0e1e0475 0xbf38fcf45501f56dd3afe424e91c941b81a8861b6dde98bb0e57befc9a81b02c8c64c221e41ceea561a68e6dc159ec6;
  cs false 0xf10733fed03fc5b7ae27fc457630dce3b4db45cbad696a6351c7771105a0a1096dd87f04527a34a70ec377ccd63a5b2 0x855b8b1eedbf578f7498f370324634590aee6093dd239d9306991a8af53fac94e1e9b5253a208df401e3d6bf657857c 0xe91625261818ae56dd16974d2fe280c97dd41a513c387f786b50132109e3b297835a538a3293a135c2933e8451480fe 0xb60e2b005d1a29934cc3e80960f09492572be9a2210235bbfc450f378a569c49c2b1401071cc2211fd92cca3b8cc00a 0x36aed549f05181ace45f5a2fbc64ddf604629c86510a9e49a63e7fe90d68ebbf801191d36d083270dbff906d3f6f711 0x7020c2e5a635cefbfb7aef6847c43ee8a6b137608d219147eedbf9f50f2dddcf47870907613770885e7010e9b8bd759;
  cs false 0x17900cb270764782b3eca3d2ec46a86181ef1ff2f83172010bc299acce5e8da96b6b932d6c92af226aa27e2cbe8fae21 0x1be7df7094ce56532653ce2da33c37fe337917d32826e1bd09104615d27b1dba405157c82358801a5440afa7826f03e 0x109255b49ca7d0d8b665db8c92eef67769336419460e7ef376aa7d3217d6789ff11d11ccce374c41f9fe8a3621221ce0 0xb09d8f782af987133698abc854851b02f8e9ea77a9b67d10998b6efc4a8764c5a3c36c7eea97e17742dea3dd900a700 0x16127d9ac9e57a5255596e16d517ecbb5ee1a79ae616d7ddc095db7a910e468ba9f9260afd080451621dec28ed123cd 0xfcecbac0b18a0649d7938866904085d89417b796db5957a751a575a4050b04adf5dc3caa35dbcaaba1350f69eb72ea5;
  cs false 0x15ed1256df8e5e5ca95b56c878630a1ca624fae6d5770503fc7cd3706f331af3de61fabf6cf96397e7b79f2fc8c8275d 0xf5886abb33616f07cfac605cd5194bd83d804f9da8e5cdaffa3eb442aaeb1342a8a3887ee76aa06cc2a711c9ed0f30e 0x17167f5caa4ce8e9ce5329fc20aee61487ac671589192d2335512fbb50cdc315ee307412fd2a75416c85533039612006 0x168d49f9b38eec6cc427802abf926e1f0f1fa198a141b5fcbf2cc4918fc6d9d38e9c058b4b47c4f66e60f970f3329a6c 0xe2493b8c2a3b497dced0aac2bbab32a3ae97548f0d5711078079e699031bc1b4fd81ec9d0c08f309d86a8be4e02e728 0xbe163d15c119d40821bf7f10a0fab8fc7390a92a0fd3662dcd3ed092ea49e286fc847b07f6215d0d9b4bc8ca4404030;
  cs false 0x249a870907df1494e56fc219e01fde22386755f816c125f4c2cdefe8611811647fac337765ce308dd13ea9ec917f81d 0xa59546d0d9d0d18614e98790bdde01f23d77cc2219a64e16678659f6f9ca9e64f594e30c3cd52b28123518842661348 0xd3d633b73d062956d9d9c397cfe6e7e536c91bf7f865db4ac7e8f06097a817ab8c9ac0e63762e5cfc80489969c521af 0x1725c9cc4d634fd8992ef537b46240c96bd0f579805a74ef1a87955d8bb34ed2d749ee89cae1f480e4ab82b465536129 0x89bf3cb854ba6aaf9fae282339707e91521756865595136279d52bc46475e5cc9220cf2487d16c8d2c027232c7d3efd 0x3595e4c952b1cd8aef9767247f6e91d49c90a0532cae4f7f96bc2c9aa53bbdd6bb06b491cad2025280428d649704cf6;
  cs false 0x3ca74026cf32fba56ec4ffaf56bfc4d589fd5479b90e9a3832640fbf5ff16fd5c8661358f86bbd730aa1df76e95257 0x16f491b5bd383da7e70c0012e06dce324741a7e96cd8fccf402fb94e1c54fc0073a49b0577775e0ba37cd47da598900 0xf364fb4cd13dadaac06acc95f649b4e831d9f4e5b633c891f7ab516593df35e6b8a56984d5166f731cbb50a826ed243 0x43e0e1cb385216f05832aa48c1d171cb80475eb65bbc5d36bf292449e71fe95860bd34f31b465ae8fa4859f90389d90 0x1962895679856f799781954b0cffc1a1bd1d2927101fa92e8719eb26b713d973866cebfcd80f12fe8c99f5ffecfa6b6c 0x18609da135918fc3d95a461268f901218a3e0489fc9bbf66464d2d8f7b84e3db4b28d12d419c4d5cd50d5c52c29ffe3c;
  cs false 0x9a76bae205af60fb63330d38d4d0d00c4d2739ae3a0b1763a9bcdec2fe60921bf629abd453bf5d35812bbf0123c972a 0x79042a88c84c694ffd3fa1257cfc1f1da9301aff5ef309c649bf53444907381a7d0f976a5e2fc320bd337a5e6bf6e59 0xdb330cd2791265565e96f7cf7a9e40b02bcab1ef2a99b024359280cce9a48c19a1a78f9f0166aaaee6d52c66a12beb9 0x46957563297e1e95141fbb5d861f5b35d2c658230fc1704f8d1615cee3c2717a965652b11378a8c5bb2abfa8c912438 0x1780ee02c563ba548ce678b53eaa3fd3dcfe245e684a636b4c8175c264ef2cab9c509bdfb95d48dd17848c8d61de4d9 0x4ffeb54b8fad7660a216a3c08de052cec3c806d3a6b66ad31d9c02b9ffbe2a4ea3a57dd5460e6d9e213409160fbcc1a;
  cs false 0x135ff64b4d73a3a2d0f886b2eb84e8fad6b7625c837aa2728eeaf2f380047dfe3a21b11ba36890bfc74afe64e9f3840c 0xcc7efdc19164223dbcb0b43e4ee3c4f4c650fbfe5a0a3700cd16a519987e4aabf6bd8d16fa3e40ac2853a97b01176dd 0x167fd1513292cb9b34abad277a7139421fbc045d6ccc8e4a1e4949b069df5fd6f649678204d5bd8b1f2d9c19d9bf9e31 0xf4c5aa925063b8bc2f594743e3cce764ffd981254b37f53d497be2e972b7b45f8a53dfbd9de00168703aede73a106bf 0x17ae4d554ef09e409ef09394257d870114c6a69cbfa45199b5faaf2dfb2dd6ef146f8c6431de0c63ad4b6978f82e21b0 0x102feaa67b0e96adc2c21a1f9dd6f5605a08a5385b3d512384ae6a22d4fa8c61eb9ef4de6e5a3ee7c3d89bc3cccb85e5;
  cs false 0x148a5374166cf336bdfb590ab3e98a0f2d52eb1fc8addbd73d021e6c59ff8b91a8fb6bd02a0d320eaaf52d68933508fe 0xfbfa5d5aa28b0148c5da91a16d59eff4dc469e9a00aa1e6c9128ca3eaf8fb765006eba3df1bbeb0847972fc9cc9f5ae 0x88d01b3dc5c292034437231c984970c208a36019c52beb9b47f8db3b8ef7142a7c846130fd3e5b23bf22ec7e26fc1f 0xb251c7a21cca030801c49f81c693323a84a26a54b64cc9f048593bfa41fde459577136a29891e59594a42b51db99c5b 0x140f5a8e22bb8b0f917ec66a07685e73ef98f5a4d74a9dce40378ced6f29688ca6afe3ea1e58da755ec2077d6968205a 0x1082feac44093ff95ee6a8d909dddeaca488e7c186d1c8e9b5f1f061e676cb9c225119e77751e6e8d9ee7df48206d850;
  cs true 0xd75df1478e683d022e71dda20b2ee156e2703ab722d3d6699c526b1363aa3d7edf86279a9db8b55b3ee3937fc331282 0xf657335d9eabb7551b40995f1aed0135a3006438f62b0aa29f3faebba16ed6dc4cf9025d255e0b22ef5ea34500caaa1 0x14f5d425a22cdd2abb1980973a1caa2d4479bbf0952933a9a23bb7b772c9f0cc5afb057be2b36ccc3c8ff6f1df84b175 0xadc77d1570f5459a698ecb690ffc5aaef0a605b476c71962c38298d14278bde3eda89b44b6547f908f8170fc766f49e 0x1931867de771cd33a0da452362647938e6057f154e8aaae07c44c3e0591bbeafd33b820e5cfb0b28754b1472b0d9e551 0x84e111f94761e1fe48b9eed80de9e458081efdb49d7b1ab0068eaf580e60fd16dd8be7830f06c4569a9aaa72b3c2aec;
  cs false 0x1137f470c8f7d00baa56e5c03e76ea8acb143c96671cbc65033e67ed9f2b5e180252357114e4f467f4709129c1d6d6d7 0xf23701cea5719c6d8b0d3f3bc8572953d8f42a55fe9970085a5304db0b3422f71d7ac93a2a95cfa92d0088ab1308e85 0xdb0c9b699294226c2ffa2b8f27a00c7a64bfd4e58d4877006d3b5a01861cad7d5f3fcff20807b8845ea6065440be4c3 0xf9f5052f63cc4b3c8fd1da54e8da7c3c8f49863cdc63b53f98a303e01c63ff1e91b91c8c7fdd29caed6c02a8102a8b5 0x174300c94644a9eb0dd519e7d5ba754de49efa44a4ca8314b7a687010320296fa976bf96522b65ab657d9c93b82f0f1c 0xa13e54e59dab06929e5f0fc1dc8bb545a8ac8058cf64eb3b339576199288af7c69670a9e8405e8d5c1c0fc320314025;
  cs false 0x373d7203575fda92e7b4b0239b7c7695d2524211d5341f332c9317a9c538a1808d10350e8ab375f9e79671f77c33b38 0x7b03ee28e327f04166f5075f657d148ed56fbf731787b28e9d5746328bce07da2a04f4154a74ef22bb2c45a0f0992be 0x293811ca74920fac3dc3f8512a6a50fd2d375089ef6e674bf86baa020746b5e8ce1ed1aac187e9d8257fbe22f883e4e 0x15f224f9151c202d06347b9db308f988e792860b7b65ef9b1f9073ae6b42e1ec3205adb6ffb2641f980190baa699edc 0xc9a7264bca4da2842172c123e39e2c3c19c6bc2f8beddbd9b1b05af2625d05d7473714cd1bd333ab5a923ef9b745267 0x1767f44ad8064fdca0fb0bc3e69b563e86e97c745f0858ddd495164b8a379fb0b2b653670bfa008121cd44171e49ccfb;
  cs false 0x18b70eb629a79ff3f983498518b16faf0521c1c5a11c352341629374ff0d1ac17362c7944d2b6e4cdcfd83a0692003b0 0x11fa0abe9f21dc673b14d9174289133e7279c670978cd5690526f609b923d7ba3b37b63cf6dd615a649c30b33d8b88ac 0x5edc5a8af40b59098f58c0f02fef2b7f82b4626e4c1870c26e498f323ae330d9c1573c24488b511a22428dc6059f4ee 0x46e3c92bbcf5141e903ab25679cd5c3ba25eae5753a1647f6556afc37638c57affb61f5632958b2591bfcfe92e3bcb4 0x1907b4c7d0e8a6af75945be51917dd28840b0a63464798f7b08e3f26c95fbab1f5bbfae52252803ce82869912d270f16 0x16cb06643b7091c21783de33d8ae41ceba9894e2fb2c2e2ea128c5c742a0e2b7ce859a1ca9c00bc21e7de452c2c14a10;
  cs false 0x2fc21e36ad4d0da0a00add9bd428c9c44f9a83980265ddd5cac54906e73bae3b43599982d6310ed50636162786d1b75 0x2b70c4ecc512e5b7a263f208e2d6c8495568d22744ab3f376045a0b6f715c18ef69c37a80e8a4f63bb295c1f909c9f8 0xc8e87bde455295352c139ce1a1ed2cc224939dacfa893ac2536c18f92db0d7e6165a434a93ad219262181f3801d683 0x5b28af0e53bf5de2dc971ebc6c7c1d173cb570405611cc1a2eb260f9cff9a837eae58cd4216bdc8b5dcf27607485b38 0xd33979a0cc4135d085eb20e67820b54638c1e9e4497f7b81edb771d0ea387dad015dc9c3d14ce62ce1a4a3fd6e54746 0x1e433e57ccfae56caa7ec256ec2f6087440425dd143dc375d5841b2845c57c9481cd3cb04668c261dcc3225cc1f6efa;
  cs false 0x10b916005fc2476498beed417afa88358fa085d4db1d9e6f864b49b4b96dc11dcb31a6b2f313b674fee5c83040549617 0x185827ff9e3c833ac46e1e1674a0ba0ae49290dd243bdc6145d1d4d76b0b03b8d7da125b0a5f1bacd2bc2f38d4e1a34d 0x94dabbd9b9e826d7aea54835d3464c8ae82c318cfb19a5048273487af65402b888703a65547a63f16b45139e4c7c598 0xf2141ac7e2f7e0c8e670e66d54bcbdf0b77780d84089982edfe59823a0d108cf5fb06a38fb8c6b64ecfc009b3a6dd3d 0x1132e4cf2c69416c77ad766ecfff48506973bd565a8a592312141923f097794aa1c13e6e39ff895b0afea21216666047 0x3c75726d41e6997806dfe79050487684d8f5370ab77a95f9d2b9045f54047184ad18e71ad8c6613fb320a850221d8ec;
  cs false 0x1274aa625858db0bb675b3bfaf508b2248a1fe6ffc5d18d0da3e0d01e0bbb52a301585cf3ce32e18da41a2016fbf41b1 0xcd9b76612194b440cbd9c67af3784151a3a1a7585c177cf0df8603dfa938bc22d0aa98e4cbc0be362614fff6f6d4898 0x15c66c7902935de8c9cdc737e79868cc4bad7e120e4cb1b78b7de4f7c77e91d13a752505a19b2386d05701a8512022e1 0x1636b7c76e828f28f97475ecfe596dd4b50be90e6c2af76ffb11b9719a38a0f78442fa6553e12af58606f8ea9ac065c3 0xac8bdffeac5c49dd5c87bbf66b463d56ca78595ddb14d85997c33d6fde74757e78b8efb3d2aec03f0aa4e54c55ddb93 0x136736a99079e25218cd3c4ee86cacac9fecf6bc9c1905ca745c9d28d895c5fc3568f14e546ac2ad7def1aa2a9cf1f10;
  cs false 0x232f7c41bf2d0ca9a4a656040864a9ec51fc3fceddf7498e96b0c22d39fbbbe7f55d6bc35a50965750c7716c237772d 0x126b7366a9ba4cdc1648b905eb2d53ffa24eaa0527809305911e6efcf7cc8f0983f3a122ebd5d6880bc93e525c5283bd 0xe93cdde311aa77dea025f11f0b4e468c3f842d0250c46e34e13e7c7b2ab14e92c7cfae008613de0284fe7967ab385de 0x180bd71d0bb91936481df765dd5b3fe82053f392876ae0b5d0ae76f88385735c9020d165318d807c3c4e0be81a53ad73 0x60be112f606624dad4e33a1e6687e48e5d2090504c530b4fc32eba2d1ca7036ea40d7cb831d3b1dbd3101223b91282 0x55355df303de0cc2ebcda267892ade7841da3140caaa7b1abecfc3c745815ddd88643a9a49d5ff47cff4ba7315eb139;
  cs false 0x3c52126f27d2dd758ab077088f758a89df448c1dd45282d9c2237332a12d63f617991e090b1d3aaedd7ae3ae5ef62ec 0x19ee364564c01cbdf0bd4257877b0d7e053d12f91fa49c91b79fc38b4398e2af5a4ac3f48bf85f2a28b11ffbcc48f29d 0x170788f3ca420877e215a0955c78ad1af4d8c98a25bd1c502a230e0e291e816c0db7a5d28d0a1eabaa86889c53c12950 0x330bd3b43fc41c4fc7a33aa64158d43d03a3d9403bf6230f0476340a69297400b522b9eb9082dcc27ab76088c724c4 0xa520c84827eea60ecee36c55ce365c7e4d5cdb64f2dacbb45a115a7394fc2c8274fedae3b69bf8b7e46b6f8e3e3c22b 0x1915337a7c5b970bed41146bea63f4efe840cf56fcded11bb7d991aa1d3f3c51b8fbe5dfc33904a857392c8ef1742663;
  cs false 0x287b1e39767a3c2d102a8257d4c97a8e9d64c41cf2dffa1ce9896e5addb637375420be149369971c3fc33245bb7b9cb 0xdccc3a8b263abdc2c1112a2ba4e1537236425a49e10a76b09b6128f5e000427659557e16f6e6c10c2da68b535025ac5 0x8531a149f0da685ae9cc5132325762e65247f43f4096ce25d89c04163310e6231593d0d7deb2422dafd08085ee9028a 0x194d3940b0848bd8aa004105d99f73e8bafa2de6753ef80bc0b46d455ef748eebb715014c15559a6a2cc8826c96856ad 0x36897655af8cdf39cce47b0629f3f446e556d531fc36ebf369aa3d0c701c149ea814428f2d5faea33cd025f68c55998 0x17856d2e1b654f3fb3d8a09341a6a589bb67ae280c50f5075910e62b7a0c566bf82a14c734cd611889123f9c0c1a3364;
  cs false 0xeba32ca0fdf04b16e700d02d09be055097f3f4285b74b299e633711f24267eeff96b84c9658e94dff575b044fd12535 0x1853f7c388088cef95618ee7fc016b0e19f5a9dafe6150af099ff3b68fe53867aeee330edac31a776bf2f2a7eb8d07b1 0x1053e872db1c057035a40767ee586f884c107dc88d258b50218f26cd403e69879d7f1dd1a2f3b6d5993407eb22b4a12a 0x8ff738239c5825cb9b862bf75817ec68d702039c78327cf3960cc98adc554027cf365d311c8c1fa6a1358cef8641d22 0x7a3c79e7e75b224b305718632d5d678832dbfb3b841288991c83b96bcb345cf206cc9e0fe55683a448d00dd20e9e4fc 0x95e770ee35ecebfe60db421e394f0785eab9be52791b0b64d93041a8f35d0c733a3dfb4a13896713b00203b5eec8a7b;
  cs false 0x10e5f821e745ef290f77339938e8c939bcfc597914fa0bc4ea7d0b2339e762ea1d7417bc1393c1940f25665663934fc8 0x14df29fafe098da44c7fd336e97eb8687dab2a2a640c57f41257c93b17f3e38108e6f373fb68057499c7406aa1ace48 0xe9674170eb5468ca77b6d9fe253935febd2cff6eba81ccb90f6b82b8f5b93d0263e58aa581e29c5665faf9381713903 0x17ed3d69702f01d32330f4b5b6b35b03083cbd0bb191cffa4d06610b75697e38e108bcb56476e5f21b95e36f2c0a241a 0x7f81ab1b421fc24789c64f10f442edad6639168152f20586ff9a15b54ed85119839fa93a0117e68297fe5e3db6ab4c5 0x5d83e93abb1bbd106aeff847868f89a5f7038b39f2275142b1940089705246cb2a3e0da5d786b70de099af0d53e7450;
  cs false 0x10ff70c91cbb8869a0659bf2337805ebca15d19f40277942937c0d4560eae2eee4b7ce1e54863ab6d50bc9ff4874b6e6 0x1951ff3142b9a208e5e69e5942f145b0f85554ee195ae299cddbe3decddda92adfd9039a7b3cfe640c29faece9a85e53 0xd9c5ea295de9a3f5ea0595df0ebd7887de889db875b4a034edcf164dec2178134db4d9654eb92f9d815fdc91743f908 0x956a31e49f95459cc773cd006e766355b218aff0b6bdf8ffc7e928e30b3ad58bc412264f511b89803e8da0b579f65ce 0xcbe6d57a346b10667f189dd98b10a4e0a624bc3e6a84fb932fc232bcea1100798e47c8877206587ee33b6bdece80fdf 0x6a06971d844eb83f12e9e3794b801a8ace49f5641bbdef466a8d0d6518cf36b8aadafd3f33a5942591d80aa879ffeea;
  cs false 0x15d2f6b35415870ddc7054f2e32a1465866e01898f1f3b142c02b4ccd505fbbb8d8bd06421805f763874894483dc214c 0x183abed5b2d1d128fa596426b89ca852d2ba8b3590cd530181c4e72fdd8802ef73ab15eff6749d4bc9865ee9e261110a 0x87516fbb1af065f27ac50de4585faeaafd27f1f16c9a4c59c76370e5df9caf98a46855d2e873038db314a2476bd4358 0x1bf3592620da2234185b7d2babe80a7968495dc1c74567ce380bc497660a5ce86718be11cd96bb52fb3f6000b6c110e 0xfff368c33e6d5cb983e92b1c853124ecaacbdd02a9147a84b74541d1d8e5a0ff868d767c6cabcdc7004df9258cda57b 0x17c4824b7500bf9e3094f29b2b9c0eec1fc3da37b4aa08af9734348bc5c0e6cdddc5fd1061fc28ad4ddc783d3af35a2c;
  cs false 0xab36c91eeeaabb24820b390406d92af351a91a43b294110a69e73a9a0f2894ad32c28d81f078a90be515d55a39025dd 0x1029fa62305109a4d20176b9533e34319846e866ad7ddd36f64973cbec18695bfc945495873b5a72e8ea0e7d255b970a 0xf92a1c58d202c57526e6d719a33ecabcb8d9cc83cbef351ff6f3e96d0840a0a29580ca0190b8c643950e852544695db 0xe9e7d71d40acdeda49f7cd1d87a405a7e70f6ebfec6b543de474ed193b693fa1ce30c15b2904e768cd211c8d9adfc74 0x117aa09054e7eb803125d4cbd6a432501c28ffd1df7ff03d4cc83646afd684e90b14e87ab9c995a2e2d5c66498e97beb 0x15a14d95df9dd2c8c03e7e4229ee5062ce4dba9a15907e4d47a00672a2f5f7a56823480e2b96c623ebd257241cf028a1;
  cs false 0x8bda1d762c986632aeaca1e09c08bb4fe0abcaefc921a404b66f01a40c86e83fded68478deb02d48f2ee3be7ae899ed 0x6d4fe75b0153bdec12dba827c67f5884f061f219cb8ff55faddee2a55b5154b35e2696672be08cacb4795f5ddd8497f 0x27fa51406fb44dd5bfd5034ef3cae831267e470f42dcba7329c6f93df420fabc0ecf85953fa5418eecac593edb7d55d 0x1134cc87b74ebbfe0aadaa68eaaccbeeba46a205c978cb43ef942c4c9f3f4aa429608a1c1be6637f60e7c83810d69c4 0x91fde46ec27934e4ccaab0329566a9f8b11241238e8a98d8b2e037da11a02ea7488c63ab85c9640ca6ebd28d59c46c6 0xd56a80415b5e3f7114b2b05af85858583cf89e677aaefdec99db01608a669c720772492bed03019615bfaf53280dc55;
  cs false 0x5a79df85b0a96adf6e2dab8a322ce58631513aed92ce0df838145c7842da8419fcaba0e89eec90cedffb5559d9f7cd6 0x11b7c924610a8268c34b8259fb3d98acbbe375c161f9d2a8712f911d31ea73387b467687f36133a552f9211634fe2feb 0x158a4645517617f5d2a20aa9a57f276c33e1bbdd04c93791697fce98e13f565984372d22ea054106580d8caecd8ac688 0xc098f66c1558c26e74700f1c2afa37183347cde41ab90ccee542aea809f9c6a6e756c135d3ce76c3738e3052a79e1ca 0x8d3c2793df6ebc9d0ce1ade71f9c847c416acf9cd57ef3e6cf5312bb462fee2369558bc65af222c0133e3aade12ad1a 0x20f3a5ed9bce236c7cc5270b4b83afc619f15b738a0461c0d1fb5110bc432b5c8340545854e03046da2554af232bf95;
  cs false 0x1971f0b4a71e609b35922e78337b308d7d37a5e715e2c6a7544aef13d7757e76ac4a6a2ca05df784a5a683833d2e1464 0x503aa962b29d72a5d9f6cf2771a45a92c45f43bb070b7fd3fe5162dcc95efeedb645acb9afd8643829c2749745e919d 0x185de9b993ab19c2b4561d61e9647770138b4839a8ac0f0f860bfa9ad2ed8480d08560481381f87f2e22332b4dd332ac 0x14a0f738c1a19040116fc927c23a180aafc5d404d172065afa31bb647d85e906e57c919e2f7f33416b5e00cc34f5a9fb 0xe2c55e96b89000aef70d32cc3c2db8496adebfd97f2e4d87611e604148c69adaaab92ec6bd91164e1a0a74f0f31de16 0xec26cfb52f34a0cbb3973c43d0aa47d28c70eae5fe25df393874b96dd36f2cd507e8867085b7d1f0a3c67de4e18e5d6;
  cs false 0x1657a4b33e1400ef6e296282ea313e60d4b8240679b0175efcbc9d2df3136cbd1a372ac4bb42fc51b2f0d50a3d7a6796 0x10992497f5f8bf44511213229f6a20404576105e15a4930cab44b72c1fc2f89b5eaa0345af91b402ecc6cf1a742796cf 0x1556ee82a9a1e6c50fa3381519022c32e458747da7dd9afe53b56e8ef18e6f8bde755859d3ca3aecbfe36cac247c44f 0x8a9468f18b5858f52b21ff26c97d6ed69ab563e3bdef566c433f769ed5a5df526c765029c030e773ef2b796c669db7f 0x31be86fecd7a2f2382af667df4a388726896349bbda2bea5a5fe0342dae82cc6b842c8646b9a28d619697c847af159d 0x7bc7b6b60b570b15027596d3fb4aeb5802a772d372d7e59ea520a8a1eee54cf7f6dba40b136bf6e382aa7ac91cf47f3;
  cs false 0x16691c1bdf57ba041abb3d97c8d34c6b4580edfc55e023b1234a9695204bd44f55ea4de60e51e461db9c85f42519fea6 0xcfbf5ccb325675b1a3becefdee4fe1d3c64b3fedec5632647f7df16fff0877b21676607a81022cb0b3b0c523ae71819 0xe3d16f15a8680dc2a565ed7dbd32299fa5544cce40dc839f600b61a45d1df111411152950afca9e6b6cbd5c87371ff8 0x663fdee9650955745f6d7a1683fd47f10985874a054dffc9537a583d98b2b7b1901ceb3f6c1aeae17a78cedebb8e21a 0x61d089c02657322ee49c00c1ab25355bd745170fa125335278e823ae9a87c82cc8076f9504796fd6d30401272841202 0x12169585fc2b4e62240a84acafc13f0d5deb8af64134d693ace0b4d79996df2a823c7a031bba6039f034cecd2ffe3757;
  cs false 0xe743528ce0c94e1a76f2f6006448cecfde912a7d2029dbcc74774ca1af660eaed4d832930d36077b6d0262e218111c1 0x133d21c52017365921207d63c8fb346621601764fa91b40acd681358d077b827cc148be2e1f8a574cee0dad622d6fead 0xa8be7bc77154f26d9bf95af52c92fc4865755edf8d9e5319ce292e055f9c1f0a49a4c37b80123cdd589d5665c0c11 0x127c0657edabe82919c403c345fff77739ca174bea6aacb1da79d4b1bf5ddace0d339a70b0fabe106ad642e178ac6a8c 0x5686a38d8baed947e365b5d131110ec339b1403218227d449ca8d17dc23a9517541b9b41346cb51c8bf31aafe01f21a 0x762f3e7b78634104f534897f1d68f74c849c57253b3b08f2adcd8eab52ba2a7eaa3c5e475730071bee0cce6d59f6dd8;
  cs false 0x1902b1e10713c8d95829b014d6b5d3a93563b2103c29cec1e7983befc104f7bd4886ad3a08f8bf2310745715d8e60675 0x142c2105c569b0e7aee457f14605027ef09f9b7d03fcc1c2c81c0dc22eff61dca36ea27f392c934ad398e9471a2a3e6f 0x419fb0937bbd636c25e2e59f10f12a38811e847d1a169ecef0b231b2a9064cd2152a20a644ab031921df27f4bccc35a 0x6bf23d9bd71e3237ac47e53efae0b77165c9122387dd77c22ad2d912fb72bf9886e7f9c667a79c002ed47263a809ec4 0x51c8c231c61476517bc208ce0273be4e4cb4184e44362e9501c41b421b8cf78f0dc2c54b1a00b0d006f8534ac1a6f81 0xc5f9e83d4e6d943c6678f66e742e418f0827b1546329e493a410593ee2a0f6d96ee804ab60e1d538fab5f7c08beb65f;
  cs false 0x27b1b3c904791e3fa942dcd803b24ff12a9cd7524a26b87c8dd9dfb56ea54ca5c9d26e68acd42eff277e12a1c665cd8 0x162f5c264c2d2728aaa1f652ee6cbf6da2000115b0cca0d89754d630e027f9217dd0fba67a880435688221e820d4164e 0x74fb149a1e9e3128a2237c95374190d9fe89ccaafaaf2dcd78bd852c6e34cf684efd504c3e70d90c8fb49a748a774ba 0xd6d0e044ed0a8efed41055f34881ba096a6b47ac3a199afa5ebadeca8dff1422198af551082a34a962abcf26aaba50f 0x3846aadf2ea94ebb45868617a7dc1cf8bcf20e32c7b26fd081dcf585a20b7d986b39835392b3c4d217412683d3b1543 0x113a2dc85512506e8df13898bb7a2ef96c65e4a1ee7b9c00b18512867e8bba3e31f20e9bf42430209c73c38dc9f8479f;
  cs false 0x13a3cf500109646aac4d69e33e86b7943ceda2cc678e671964192efc9a09299ad173b34e4a074239eac7dc93b8113ddd 0x12f734fc3463dc7adb90dccbbaeda04445ec73fe1fd859d6076071bd0d45623a4cfe964789c20af4b5a694d4d6d9d45d 0x3320e9002deb089991754c3a41b7f6d058ab7c0a2c40983f0377d9acdb063db49ffb43663cabfb47f946a00851e5918 0x165a15eb901742ee9deae4c9639b68161556eee7edfe959e2c791df78becb1a744ccbcc115444bfd45e90b164301bebc 0x143d4cd6fa17151e20b386b5ddfabd3f0f1e9e3cc4195232805563bbc3c4eeb922ac92a0f6527003faad18d3e810f174 0x88e28815a7ce2e8eac4b1a05a284a1284af58c832fcfe6a963b28e00c615947be9a0b7f24e1a7fa829e86a424d9aca5;
  cs false 0x65c82633f9d4d20c07f6ad4f79c2172e21b91ba79a5ea2dd1453a4587d6c2ca2341043e1ed40e3c2cfcc055cd4958d6 0x18a18bd0be954bbff600c7c1403276e7635ed1cd34473d3d086bc2e62775af5eae61d9aac8398341fc07277f183c17d5 0x8aa114bd51c6e9202395bdb1c8f7c36d87c3292e8ca034eb9d65508854a85b6a671e1080c6718bab2bdebfc4104c20f 0x12e02eff69590e2de76cc72c55b210526abfd84665ed44fb7d984d083d291588acbb70dcbb6caea2d62857fee94a0ec4 0xeef033cbf40fc0ced9776695de0286826e8ac042a75e25ed63009382f5ef328e96ad8fb11d77786f8a10776922b1f48 0xa7684143935315e1b960b0763d60dc567f3ecdb861983deda974d58763a84df3f28ebe77d91fde155b474a5a43a0768;
  cs false 0x31ae02e34d7d21957899dbef96a7955cf8a3345e89477c101ffc8c27a2046327376e250e6882416d7bc0be138e4eeb2 0x1900bee131450e7d7a914ea489fb49e1a36591a6b189f964d0a0095db108dfd24e92848f148232d34a8da37b7adc99a7 0x11b33ce1ee68743fc4cf142cb4b8732a61f654f398e1f18d921babd209c11d436621b51d93fde2b8cfc3baec2529b5e8 0x9a51ac2b4dc7a8f9dde2cb5a11754b7aa294bfc81d2976ed2bf3c50db2a54184fdeef7f5a7fa8ef630a61b4fa7b0369 0x151e7d2e50567453d4ce4e50010f99c0f4f36d2963a56760dbc55ba6fce67245c073850c843797f78056d40737e50721 0xaf348973c4f4d70b4f1124006ac6d55970c490d9c589c0231889ac7bd2de8d658066bd3cd676fc58dd006c17d61006f;
  cs false 0x141accc8970ace156fe95a366883383b5a445ca79fc407ee3f3bd12ca9ef48ef6199a7f46231a3597b09b6d5fda5c712 0x18b35a8fd65ba4cbd734a0eea368fc9a21efabd91ace37d98ff3e0c3028ea8f24ee6fb30e0c805067330b20430c585c8 0x160f34cc50ff69afc0209b22f451441cb2b634fc17e30a112c290e1d10583cfb23d41ae3e030e85e678e249121bdb0ab 0x33e4ffde045cf9a648d650b49111d79c6e68b5bb1cd1a8008cef569e23cf1e429819ef584189dceb6b63ca1e3a5838e 0x1380205308066fc2fcacceb5ff29c3b4cf5830c248c0478ed03e7c56ee46a14def264cd75157368eb1031c7c9125c702 0x16a91948def9ae3b2d0e9f49e3c582d18d63f1729832cedb636160a514afc0c75b4aadf6366bc1620dda6f5e948c7545;
  cs false 0xaaafef3c4298542248b3a58135c684f9ac0e0a34315e044a7d66db543d3c6a626f79dea7ee6a5f3ce669de80b52ba42 0x13d96385b510deff2f4d1d32ee0060a937926e9b6d6adb90abac56946f0699334fa765e60e0b267ea1f8e8dc2b83d62e 0xaebbcddade83930c914f62740e8c8f8217af03cfeca20fe9e6106e4e78309ae6882d668a74f556c2d52a7a6519fc2d0 0x5cc1b286467f1e3bb77842d8794e93969054e1ddb3ca9a4afca6f1570a3cb3d89017c1ff1a925d50db14378dc7a80ab 0xe951ee431e6d9bd3079d65144c72f2c9604e06032d65ac759279a623e08158061b98f174bd6a923e86e9d7557bd045c 0xae30fd625fb8ea1877bcca797a135f462384667d23d21675610d964f172ed58067ffffbf424ae848166ce7b410d103d;
  cs false 0xfc955cb99bde258d876019716b9fdec9340c8f3aefa561ca412df73ae5febbec296a5fb95db0469c00d953ee476c048 0x8fd02881a5331dfb0922a3b31368cfad1bcb8ef19b9d382fb88180286d20648b40806c083c7d7a804031b10c844d0cb 0x18c6792daa5db1832b615c80ca7cb6602946ddd0e832a9b9c2dbf5edb806b2d248fafb7c154757f2c59c96fe2d11aa5a 0x132f39bcbd8574c13e2d8dfcc6704e3f3151b18ab2a00e1c472bb166245a189ced52b8ac2e2027d08cb1a2473c56e0f3 0x76629746a2e182aa97a6a6580dcb949c6d324ad0e850b8623618f85e94048dc5120c9f962600c5d35615d52e8a1c0c1 0xd3ae2be83b3f6f4e349a1635a511c1b68d2efb77931320b9dcd8fd35d85c1d12168a0715bcd596b71eb41aa314bc1cc;
  cs false 0x5b8f08ef767ca4cf5f36622b89e509fc5decaef9cb221f15b64b681867d0f5505b9f13931f476324f857ca9daa71d3f 0xa3b4aea7c32a8fc4d9a662b03710c6daa7cac50a8ca6de8554f99004f5b1f2a21b026098f44b24a23750c8f0fa6270d 0xbccbf91993c2c2aef0cb7376af8dd9a6bba4cf1dba188fef29de4834287855f6aca7c1bd6c033da218043dc8928e577 0x121de545d88ea623ea7d04eae99bf3f0d07c8ae9d72bfbd666e8a781d34bd2e312eab50e6428a3aef26092ca5095d9b0 0xd989e0473474897f5f5e932ccc71c25d3934e64df718bee1dbdbe1db9c4d5339e03421a18cbf07722d6387a88db823f 0x8f5e8cc95bb36a2e0a5fa0ce86c77436926a62212d7abcd1467825fe8ad0bfdb4c706a696a6b20c2bd5591705c6ef5c;
  cs false 0x9a64184b516425353d3342b7f1e2595a7bf3cb9644dc3a23ae401e3a2c43950dd3e14a5813cf8d46ec722731cb2e790 0xaf426e78303a8cf5a43520e362a12402d4cd3c50c5a5bc14b9c5ee3da9ae172d5612c391be4ad4c913b7f23ef8afc45 0xb9bb19f31d1c2952edeccc28988e00452404c43f07e81116afb07d5ad863f708a3c7706d57411d60ee13c825d8908ba 0x7c09b3362c4be2b785eabd131444dfa86284f59c58b3a2d866368da4cd74b3222950bd257c224f3bab823898b1d1570 0x119d9db332a2b72dc55f77710c7273b965d5796fda64ca14ce3e70a46f5c1316fb569b9d3bb0dc82c5d306bf0471fef 0x1805b045b829f1562414235b2a91080ca423a49445abddc233647df0c95974d49149f79973001910f2f7d013da92ea6c;
  cs false 0xdd9144f8c45e6091a6714d772bf4739ae7b1a8652c823a2aca6cfb5457ca1adc99138fe3c31209a4897e0f66a542078 0xda6ef8b0ede3a09d1a5c00b21acf101ca7ff6cd9129e67a30ff4bdf679bd4a2b87fa34cc8942e9d5abaeec4938f2308 0x5012490533403f64a7c18f0e0926324c229a426977e4f18b60dc8a849aab251cd54ffe9abc46d4a24d9c319fbc25c4d 0xf9ebed66d9ef246816812fac5f035b6d6f0326ea0fab67b6bba3386507a171d34a928897153839582c78262077c737a 0x15e27c81e3028cff8d09679e4ff164cf8b7e4622053cadd8be81da63abe09c831f67a212b5b970e6a8e67b63260db809 0xf710e553b637cb936dd2c40636e965865a66e64fb45821fe46882fd83a2af75b26ad13e7b71848832aca888da2568f2;
  cs false 0xea4a92fd6a7fada6c37e836f596f65d4b4a37bb57a0834973113079387e96d6d637efa84423b0a3a6bf47efd924c3dd 0x5b7be247f2850b9608773bab9b9db45ba9d0959b3bd8de5770a36eaa83f3dcc1d95b34760a0823f91354f28328297ee 0xbdceb5864401a731784a60d7affedba3b0c297efbd9658e83cc6315ad1a0a41ed8631e16af1b77ae06a66f8ef7cb44f 0x17080adb0c2c1b3a3824d698384b3f6d0aecae8ffe50b2b83a55f260bf6874d6b9f31397a7594804e0bc270c30a70d44 0x4bc84b52b3ad769531ebca22f45bef128566833d872d338f1c729ff90317e9e0a1858ac6cf7877c1e7841be5bca8ff8 0x11656bdbbf7d701d0c578c74597fbc033c8e815a017c417256979ea636bda31a31e94426ea12802e862b2d10680e61a7;
  cs true 0x1142615b871d4c4963ef8ed842f9a579c71af04bbc4b9297c161b22f8b6c5a58a8fb3af7ec52a6b7026c9e97f3d6b0f8 0x78e5e678d7c7e2754875c536346f6c41cfb8f5fdb95af2c9163b27340c90d31ae05f3aaa202c3156a09893b72234b5e 0x119649d711eb53cfc9be953ffb7829ab5315acf011bb3e6c03c1de0ee4e9969de206669c3a94b3d39682c30586e2b37e 0x12e2cf718ee272e43f7783297ca2d07d9452d4f3cf3777d24601ced80243ed8c596fbfae85869b227bc3d5ebe72485eb 0x11c5c35b9ed3e8c7f279bb6d4928889d1e69514e5fec0e3e0109c1c1a4c529214191149d8ed29f89f43e5c15311e8d59 0x1cabc0b251c593b8ea28143d6e177aa80b45c255c728466653689338891e796e8b6949feed1df8f6e77ec98c9abb11a;
  cs false 0xa0bad126c265d46d51689b72d7dd2e4d3d0945ac3d9cb888b9250b2bed82359a757e1269c4a4d3c7bb2576aeac0337b 0x133a4335f59c0259f1a3ff195a51b1c4671888accdca74afa50259b7484098611c2cb9fdf65a98dff64d2a0fc947454f 0x3bdbda22d368a0f92c136035c481d78e1a8938bcbf6dd0090d0d00c5459877fe6521ef5efe971358bf89064eed5e533 0x460e68eba44734a9cff07175bb9893e02b8d5a5e80b474f22d0d00f0bf09101d4b81a80ee2d93bc76336c9e584c9c9 0x272106f1762d5212a6e008dc77074b930f1c84067c419f0bf005083f14df8d15ddb8d350c49a0791fe5311e8c856889 0x19aa71c276d0865708cd8299328b157de70d49409b43908197797eb6d03824743d156ac11195599f926b40fef26ab651;
  cs false 0xfb69c6a2cbfc9dfb9b0142745ea7f0421cb2dd4e5b4ed7b1142cd575c788d8d19a24ba9dd3830612c58d544327ca0f0 0x10635d3a601f92ab21801ab8e85be88d689d67e6e9835268f7cee1313a095fe9e31b7072875ab3c75d3a4e43d10b2503 0x3fce42c5a9237a64a64247b6ee4197fd1698c720dc4bc87b93c6ea9d510eafd0f3aad21b367b59ae89f8faa54711c57 0x1002a92a243f1b5b8bd8ac463e366da4dcb8aac45c3f13cad233b553bf6a25a07a51637454416d9321e0bdf599fcc59c 0x427196d90d6eb0fab62e5e8c4e132fde880b807e3beddd4f288547e6592a89dc231cb64bb840073a58d4e90695c530b 0x14585a9c76330c2d8ad00b6a74ceda0edaa473bacfe2fd5d9ea41349f6482a430079a0077f06d76b12c5f7517ec7b5c3;
  cs false 0x28a36f542a28f6997a811fc2ce6cbed2508c5d828082677745110cbba12e028cd54150ccc1f58585e1d7b5bd45c4c1f 0xac2c40f46751f043fe2833bd583e9bfd967becef21bf75f65d407bf06f076619981fe2e541d567dcc7fbea97520cd94 0x6ae247a730eb65942d76b09ae42c078222e7bcee9bf7639dafb436181748acf17e7c978843feb684bc781dab1909f0e 0x133f8b70acc151291dd409613b4266f80c0d38633014274f5184eb47f2b0079aa06a40eda2c8c3603b799788e4e3cc3a 0x622c66b7a7c9aaa818bc4e375ae67067d22b3c34d9d9c68c95c39af9a6e737ba6081e3a21b60c785e2e2eb9668f409a 0x16167f50c4fa1c7e0826990fbc8530192498289f35fa792480e3067d71b87726f1c48ff594dda58b6f5877bc5c27a72d;
  cs false 0x125e8f976f7536a2e85ea3cfefd8d2d0063990aea5570748e35370c03766b0439ba9bc0cf8c9e8b4405badfa94226735 0xc0299d504b8b7bb5ff23b7fce15918bb8dbd901b96858640d5946aef2f36a4cb42aee9b8f2d3d1bd687824c71ce27fa 0x12b5321b07347891b57bb5f2171949ffa4b5ed6ad5c4f7a47555e59e7cb006d331cd9894f005f816d12fc7b04e99610d 0x7743da3880ef78376a560b38cd40cbbd0f78094f7b8bd83b15d5042ab1a26d78d9a949ddb5e30f44b87fd2078267422 0x533ef2cbf53c08fdc2a54517dd5b71b8409105bf8ef13aea65a9ab2878e0320ea8c21084a74a3e1e2f9d82f81f65ca9 0x119ba9b62035ea60c72e963c9060102265689046d979365956818e281b8b14c3c66bae7495e7b62dc1fca23455c28515;
  cs false 0x182115eb42220d34f08e487de33ed175b6d1a029dda7c9aa05a1ef8d1d2c315dd8bc62125863cf017f4f31c0054a3612 0xfc2db9cb25d08faf7c8327f5daebc21a409de8913242d73b8d9e10bc6022a0994e39a0b90bfad204b39a3cbcac7b4 0x96503c6988f51ac95d9dc6f731f0ab02f6be32974084b622c148d84d51bdeebba33b7e6f29cb172f03a7ec94a9e68d6 0x9a52cf21cb5fa11df46a6c3f40f0b002282581be7065dd3641f8bcec6d3701c4ecf0cb4dae9740e060ae1e41306c845 0xe76378c4ba4bea33ca5b588c60f06fc663ef976cbdb0b00976cee4016f3ef19cc08194a730af1f08df59e56dcbf7417 0x7bc599e009d63ce0bb2f579e838a928225a745b33545f52b39cfcdb65958df1c5eb3509d4d2be216e8a6c3d2123bd4a;
  cs false 0x159ff2806d40ff15099d52045de59d8956f5a84da299063ef6c216059e7a2a6b1a09d23cd53473f5ac7b5e99de412ea4 0x69a7d5ac5a38cce584e0b0f05b60b25f325eb68e4cbd45d0014e4ca22ebdbc559a20177fdccb0d7c9716c23df3ced8f 0x454f597e4b2859f6c8980f81b6e9e6ffae802cfba559eb56fc40d40107815cb3a6a551d05a4fdab38d028014f10184a 0x10d9834ff39ea4eaabe580feea7d539f9f767bfaaba0d8b12b3a0dba4d3c9abdd416738f91335650900d85a851c9ddf6 0x1611b10aaf2dd0ba326609261513f7bc981a01a34cfef02cc142406ae22cbddb1cc586dcd708375592c981e1f7f86b0c 0x661e4d3563a99eda2938ad26371141598b94515000a1bb33feb6820b16e1b0babe45b7c5df60092f4a090b107d10988;
  cs false 0x142182d337d4bdd0a9dc0152289c80bcf75761bc030bda9dcfd112580006deba5077fd8a5edf9450f71e9104f1c374e9 0x113f465ca312058e0cd541d6b90435a9e7260873c34a0cd455f40359611c687f96c91dbee3f1affdcbbd3809a6881f8e 0x1650ea07cc2d636b17211cb9c7b67b0be6de49cafae79cd93d470a00dc3e7bbb2b2911fb334ddbe4ec4492cac5bba757 0x31b7be1fd13b66c679e3a31afcac6250ebb3a672b2faf5dfe3ccc9a5ee39f17852a1a3b36a133ae3bd87798bf0236fd 0x60f2056dd64ee88498bdbfea23ec2c7d1747b009cd99dfa06207fac8fad20dd7d3247db53d7a5bf838a770336465606 0x3b4009df1ed809b6150d25d0270f42b677bd694511b74028f909252a691ca79780ef50d7b8f864287e7e93984969eb5;
  cs false 0x10933118bcf1940615957a6c1c7bca0054ff60c0db1566767322d2c5cd33e33d6fd2e0ca2639eca99f5b1f6e6d095faa 0x14ef91f0b47d2bf1313ba159c090bf9a071c2af83528b3613d49af8c8914a7628366761443e0d74cf14359d83cc60326 0xe00a2a0d242269ba52ec8c90458afb51443ce3e44b0fffd1d78f47fd8420c1c5758de5cc72068d048cd5b968fbb6f8d 0x118e5a1d9b9f4e3203f36f92eef96f79e55a2287645508d37213eb357ee6cb6caacc496e76f9589e41135d61d182748 0xb1593251c906b9ca93ef0b7d6df1a73c66bf67b7c46ad707f354fe2331340e8f9dee55732a76c0f1f93304ad3d01cc5 0x32e736dd4838d041aeabc6259357086b9378d87cf80c662508c4218f2a56f91e656a8efc1e8f86c8c1ba3426023dd5a;
  cs false 0x5cf357e8473bba00386d2380ef2bbb3e118498031e2471fae5017af4c09ed67c5c2e5257a3deb7872768f839060087e 0x82938f41814229b1224b32b425aed5972aa5f4b4d21ffc7a3913baa2c3f8f7499ac76a63b373a0d0a649113f5c7b2fe 0x7c73bdabd4b9efb5d6b48b117e4d051f618e35f211f920eac4d62ca5a447447a38384db8e7bcdf70e17836170de3daf 0x4ec78d2a618fc2c194047a9f9e1e22571312098284d5f8d804ba09b3676f5a727c60cf42bee6f3bb626780492c9ca0f 0x437003f097af51148c498ec1200064139bfde0e1b112a91425b9b180a8f101151bba964c102ab56ace64c2e6821cdc5 0x127d86b4918c2ec081a6d38b2cf5d4b009d154c2e610397a01470c2017a6e8fdd7c352735923c2779c89eeb759897857;
  cs false 0x13847679c97ef8978b3f64c9ba622ef466154b88c6206dc00a65c7c83d9e863106be2e6e6acbdd11b2e3bf3c4e9a8fc7 0x5c65be3c6a8b37e95aaa4725d46595304e94133e1524dc41b86d1ea5e2cb0e5656952930a29270a27fe8eff7ff52747 0x3b54715d357062aecf14e25db0e9195e76693d2a65e3e5eeb5a51a076b7d08a4ad6e70b5e3e16f0f801621479f86172 0xf7fcef9eda1864463765e50f77d15d133505d97eba502ac638426914d5aaee8784121aa094020c98af06a465a7c0631 0x114ba6683b900535167aea53471ce44db044ad1a49dadfb4dad81d7ce05467bdc56c240b7f3e13386cf1b72e0e1199a5 0xa96ffc56e03cc4de1ac5bed63dcdd750f5dd62f0fdba888721236ac4a57046ec3ecebe896ca9a2ed5e92c2f5513c4a0;
  cs false 0x78af2f8549231aa92bba1b374d54bf4748e38d3b2c782b3c9d8a7b7d87389e25b856b97ee48f089c7a4594a201092eb 0x157a7e87571314c4eeffcc641151b627d67176b268c6b18bf425406455688e07fe496eb261acc46ca422be84be4fee75 0xd46c2a4a6622e16420a7d6043a0a4ef3e8463d86c04bfb607437bf1e42afa15f78012129f751befe7b7c79030aa4cd7 0x785adf6f6274eb3f6a05a02c270f8d7e494f0e68cbba7e33379b5b387ef274d20585428f541792002e49eb69aee1cc8 0x65634dfe26d6e8d807881bd6015eeb974aed9be65e0f2c353beb94b95526db8fdd1bfc3878cc2189dd1b9e7992e6b99 0x13db32ccef98fc0ec578a65c68f56d397a3400a20e06b5d05c14ef80fc4ac2afe79457ef4f0af2324abd95638091a13a;
  cs false 0x8f022244af0b719146e8cfb7409e84a31ef57e217e3d45daa059fc26f53a4b15d861e5d1b9ff207335fcb7b28f48654 0x72c117c18b8dfa89321c27cec88b9f86c99799b380ebac98fde2d5c9ef41c16128658961fa9d79eb0320e586c2d096a 0x17f20ad850460c8ed4b2a849728644602b07181d834a913dc5ebdcd2115269d867ac9e3537b7b1a8c5de2ac6c40a4ac5 0x44c2797ee7d17813c3f920ab8b5f93d6879394d9c5d6226c422cad6f985211d753b9477768edfc713742d16aaa5b4bd 0xa0d112fef350f48ff791d1af4cdb20812bf58275748bafcbce32d01ec47ee88d5db1570acc9215175b0864b78a1da10 0x40fbfa3063a38c68a335f989562b6d3a8fc08397a81319fae10b996221a2e6cdd782a04454d89ef02e40f2dea9b3043;
  cs false 0x86675ec3781ecc255b9b8f657bd72dc32622552c01c3a14efa70797ab04d5777f18cae0d8934218abbe5eda42e0374 0x99b7b955ea60c02306dd0199067fb6cb2810aa19e5e838d4d7d18f24dc5139d8829c6be0db3cdd784259d6f00a05188 0xd33d99164889d2721f440890bb0ea1b3126308ac4d1c3f4be821250f421a13e34cd6f10a557e675358d52ba55d5cbd9 0xcaa05a93a8cc7cde0030bd9a1bdaa1a51b46fb445dbfda7da2a7c69df09e50984a0d031b24d2b0f06a604949dc5c912 0x15a260842cdba76429ddaaa7dc445e34703c25b347e3828c05bf6d235c31eacaddc52e400ec2b972e3aaa01086339871 0xb4885182773217842e4660eacade40c96a736f7279a1a3d655129ad43e891769ffe8dda64cf24b0fc754436f93a20d;
  cs false 0xf16056dd2e8b5f8240d4ac75aac0cfc9b43343826136afbd4f0931c31459109811008d17464425eeb75a1d3a3486fba 0x134957b7abe963c5d074abc911c5cbb3ae17332e06f5b415438805278ea9e18b001cf7daee0993ef125a22747400b5ea 0xf1702bbebac70eb9f200722f314b7903214ea9d732d0f3a9a2922c94794bba06f39362d24a4ecd4f86c9c06d67aee83 0x5a3b3ed18e3093ed4762bbec58ca2a87a76bf49aeb1067e5336fd122e9768cb7f82644bccb0544ff5a220d8faf984f6 0xe05c3fdbbac7fe288a98026a49a393a9dfa84f200f9b691c8c5385fb2b4afe86d9952545a0e609b9b8b21a9fa20d637 0xf910d4f4a56c4e2fc09977939078750d36943a5a346401802fd9730b0da8f3db7b01b95e7bfb74ec8828911f8cd8565;
  cs false 0x2d6c8112234d7f18ea478ea7df5eabb84672fab4d4a6e1014e0585cd696c72e9adb4736ed72eccb4e30eeaf3b992446 0x444323d14c7a3549b9f6b2738ce286aeea4511ddcb23d59ff0488c63a739029f85aec2295586dac212579b39f39df97 0x18b7d0e21c43e201107b3727eceb73c52eae48e27132491dcd776c98c356d47019da2a139625cd4d3e31ede7563b1f9b 0x4edd6d5ffc5e1c1778c566e28705e775661b4f5a090be40f95f46f7e2874e43386325430a98019114229dab84da1c26 0xe8c6ff008deb899cd39cdec3a387ae4d01ef457c7a06b69a7add16143dacc5f10985d07e6921ea3aba021c2c151cd47 0x7c10c0572aee1e97ccbe895e7570084c2a02b64fe86a2bc724281b6535c13939349326a7f6bbfa876cbd795130d9252;
  cs false 0x65fb0c0d47de8795557bd2f9f4eb741ac78b510ccf452abbc66726ddee31b37d058d7e5bdda2d3c31051f4071ae2945 0x7f9fda3fa03c5295720441d73a813ffff40ee810a12214b0d4ee64da91ea67b8a4525b4b9c37518dd4a05df7a4d6dc1 0x149ee6d25a1c8648c86f8673946935a6c41c801f2eb23fd9171fd41f31b7ec5c4a85f5b285f02508d928c716f9c1bc67 0x6e63a1561fa8259ba6f6e15257a5cd4ab79697e45abf5042aa7cf28b80aa054b18d535b71cf70dafd2b694040d19479 0xfcf61319e51e41eed89a6b0ff12b4da6f664b92422160a52083df7086215506947457947cd8917791ac308465a849c6 0x14c164377443f5accb1eb0dfbb4910e98a49e53d8ef016c76df99c2649d3f49b1a3d8b6a55e5881f8ea0ecfdc3de9b2f].
Definition cgxZ : Z2 := (3173817679043455518561028855769621774971450671729042202579931057243242334374140167576873990769662989875082501930087, 1061903119136554661252589027312479841350528275070755452158378537709581847493347774609704687139029127751805506262137).
Definition cgyZ : Z2 := (2433393532946135937969546957635234136897321940025952659409177298338507215042517770421013533566896591233554661788102, 3194553889017460652502693541215092109821324752267022735294656496392020697692657217737993669207895809888989201996591).

Lemma g2gen_Z : aff2 G2gen = Aff (e2Z gxZ) (e2Z gyZ).
Proof. reflexivity. Qed.
Lemma gZ_on : g2on (Aff (e2Z gxZ) (e2Z gyZ)).
Proof. unfold g2on, g2a, g2b. cbn [on_curve]. unfold e2Z, gxZ, gyZ. cbn [fst snd]. fast_e2. Qed.
Lemma g_c : g2mul (Aff (e2Z gxZ) (e2Z gyZ)) 15132376222941642752 (Aff (e2Z cgxZ) (e2Z cgyZ)).
Proof.
  apply (chain_run gxZ gyZ gTab); [exact gZ_on | vm_cast_no_check (eq_refl true) | vm_cast_no_check (eq_refl 15132376222941642752) | exact eq_refl].
Qed.
Lemma g_psi : psiP (Aff (e2Z gxZ) (e2Z gyZ)) = g2neg (Aff (e2Z cgxZ) (e2Z cgyZ)).
Proof.
  unfold g2neg. cbn [psiP pneg]. apply third2_ext.
  - unfold e2Z, gxZ, cgxZ, psi_u. cbn [fst snd]. fast_e2.
  - unfold e2Z, gyZ, cgyZ, psi_v, E2_Neg. cbn [fst snd A0 A1]. fast_e2.
Qed.
Theorem gen_in_G2 : in_G2 (aff2 G2gen).
Proof.
  rewrite g2gen_Z. split; [exact gZ_on|]. split; [discriminate|]. eexists. split; [apply psiP_spec; reflexivity|]. rewrite g_psi. exact (g2_mul_neg _ _ _ g_c).
Qed.
