(** The Miller loop on the generator of G1 and the concrete hash of
    HashWitPts.v.  The slopes are generated; [fmiller] checks them. *)
From Coq Require Import ZArith NArith List Bool Lia Ring Field Uint63.
From Verif Require Import Params ZMod RingPow FastMod FastParams Circuit Api Emulated Tower TowerSpec FieldFacts FastTower TowerFacts ApiFacts TowerProofs CurveSpec Pairing Bls G2 G2Spec G2Jac G2Order MillerProofs FixedQ G2Chain HashWitPts HashWit MillerTotal MillerNeg TorusFacts FinalExpProofs MillerFast FastExp.
Import ListNotations.
Open Scope Z_scope.

Definition h1 (a b : Z) : list Z2 := [(a, b)].
Definition h2 (a b c d : Z) : list Z2 := [(a, b); (c, d)].
Definition wyi : Fp := fpZ 0x741562129f355847bb6f265c0f0fb8a7f7b590b6dd3bf24a54d84ca64272ebef8eb8826316d0a89d114b9e63cf4c53e.
Definition wh0 : Z2 * Z2 := (zz 0x10339b7768c92021ddc9ec455cc0d557a20639a8f46e82c1310412993977e215e9f6c13e5fee75a4fb9d29d692a4b56d 0x64319c09631f1800d78af3f0e1bc62bdbacbda351403255b7f41124575d7c9b4bad26c6d5b09155a857aabf94eb2d75, zz 0xacfde55f3e1b7ca6d86db6d38ab79acaae6e52e0dfee73fba653791792ba039bdc68564790c7a4c555165dbdd05a830 0x92016fd74c0cd5aabdd93d6992df7374ab83cf5aed37f0bfe3dad2ba9070aa4ac3e1ff4eabe159364ce018a1a611f5d).
Definition whs : list (list Z2) := [
  h1 0x12efa2f8fe3bac8f473eb6dde97fc7604b2cd7dc05739b7400f2fb61c9ea9ef138f2c64a3b143a51f93230e78d0a59c 0x189902b8dcb132bb52a8e7cb0edd521bf9f2fcbee7dc2b9af4248367afaf1cae77662e247f4b2cba94857483a146535;
  h2 0x18c840c67ae4fe183ea9881bfb8155db49bcdaff7931cdab0260b72f38b560605f7caa5a981a852edae0ea4dd824be11 0x9d2a4646dd3155a3be636778279831bc76b22dcc175e8cb43b55f383793ac97935f8784b57c69a7bbbdc4f3abb07070 0x102e9a92cd4f36ec5cc26e32b0f3abcd20f1caa9937975578fd141a7aaee91cc46922deabe2f1bc49ce853017b016620 0x1480112e1b6ba037529687a2c79b034455915b9a73e2e77938392fd72f9452d527ed4855c7723d80b72779cac69703d7;
  h1 0x33e721851c6ad29ae6ad6bb384720f0d4aaa92f2a08b5912eb859e3c4964c7da39ae6b02995d88fd80a17dae99e42b 0x8e58bf63110c7025786d680d1463a155a56f654a01142b2f9f35104214da34454ef7ac1b445c6019aca5940c72d91c2;
  h1 0x549d2bd2ace61ba65a464df8b8bef7fa73c486d9806312b5ced3279b4433bc86d3223d8936e023de8c0dc5dad31dceb 0xd372f7672d95e1aea118655c79e6268f202fea40d7ecd191f002b3741ec969b74bc33b0c162e0b90cb42039f4e267a9;
  h2 0xe8b97e416c658a9fc0674fd495af92a7485d3bd0696b38b3cfd199653eca10a50cb357903691f3807745fe2664b3f98 0x74bc9a586232eec9731f4e54b7f7f2960a97b38f8b255754b4931a97b113efd2f174c6b64df1e9f606f9eead7433046 0x17660da8773ec4b0e75f35574892074be789cbf9416288b02a26daf7d338de867d61a3b26d0a2b6c898988c7321111ae 0x150966eaf06cedddec73ca22c0cdfbe66789052ae667e4dc145846529f6999519dc91d589c599d55018163edacea6670;
  h1 0x177838263865038ca98faf8a5cd4136c778103a77a9f9c00450980601ff645122c3787e9610a1921a10517ac1eac46a1 0x5bbee15448d31f7192ef4a6eed6955e0902c7547779023f9bdfec2bc79a00078bc1791432235fd52dc58c2080d8727;
  h1 0x14a515dc261e1ffb7fe8c2d795202758235a89f6438a1abe647341d944fa97f04c208058e2c61d4320a9a4664f2b6ceb 0x30771dc7fc25f4f2ce57c72dee6ed6b5a81cebdeee666eb7142e6749378b00c09a7a6b75415d8d7188567b8b48e4459;
  h1 0x7ed46d6d8c9035e9f5b08eae482e3b79e0008c23b29147d8d3a6af87cc80af3096c5e52386ec427a267ed81cac2747 0xb3107c4c7f7753a8854c25290c1b86c2595afbea490cc8145b314a7352647e0c5e9999c4eda8d343bfaa6a7e6a7892a;
  h1 0x17726834b925f1a0f05d2bd4ab1ae23dc344a2c8a449c5f6bcb7268139fc7c8c808d7c247e3ff129c52bdfde73099fad 0x756d3d2548b0c84c648fe8ee789c38b51e57993da689e0f75067ec267fba0f0648ab58e2e0e7a08b5b1cc0cb82de9d4;
  h1 0x4b2a7f839206096dcb9224d4c5e35854a86b632d72d4ea225b4ffd3533c8f5731c90a0c2617251ab548196e3542422b 0x60ab0b9e5acaa778ac4a4024dbdd3f4a2e17e1a42caca66ca7c57f8f8c60fdbbf7fd54b6d791940f849c2932af39794;
  h1 0x60559e0cc945bf35607c7a59203482907f0857096f68a0149194d461d3345a0ad33cdcd37f5cd8f51f2b12fac982a9f 0x17d0eec15d4a1a636b375aeee71958ab3e73f0fc2ba76f7347259f84aea282c7551be7ae8466bbda9a6d332fb82c618f;
  h1 0x19bb9b24deb0ac2ce64e48fcf62a5ee8be93294d9d36b5f6df3d75e5ee2c7425b125b09d7a66a83c67d762358888a6e 0x9894e1526254c3904f27c179eff312c9e06eca0348fa8e0e94fe56bdd63cb63039f66aab9b9f9dd23db320b609d0e65;
  h1 0x17c223b864a7dc739194ff7f6e01fff90306ec4440e6a92964cd61ad37a5771b0469d7050977c94509933122d7c77a1d 0x32a7010f0f058ec612f0190accfd2b44acb2b16a1e6aec867a0232a831c85ee5457c5d1b6819374d4cbb3083e80a59e;
  h2 0xcfa2cf55eaab682cafb139c7ba635387f2371b42cd5fc71b400100832998863d7ffc101a0c1f3599bbad121d64328e1 0xb6e2efa0de342e9b9b2b8226fb59ce89ccbbd4c2e5e9716b8f838d06b12284ae5a6688ac59562b3ef454716eb87a0c8 0x10645a4770a4f7abdabe09b178b8905202280bd284b6abe24e0eead0efaaaecbe9261aa68914125ae876bae85eaec2e4 0x864c0d00369da0fc5287e162af89235cdfc3b913e7d9fe07e73ffb1880d44c7c8a999af6dc3784ca947da218ea0865d;
  h1 0xba4aaffb631dcda41ee0aec02a5539472888be30272e9d54511811c7ad0d2de9c2fc56298fb5596f3e707745846018e 0xb7b2d035df63a27ff9881ed4449d5291119c0f3b26f98b07344b1456455e9854208f9721e97baa987e18b53b6c71871;
  h1 0x11ea1bf1c54c06e4283470c8481f7d0238ea282ceda7cf947d0e2dfba1e30e1449bf100be08945c80ec61242a630ccb0 0x16141099aa6f3931e830c68ce768b55289c07ae5b10ba8eff201310beef8a7f281df3a20c15b4323ceaa5fc49c4b8c51;
  h1 0x18b5eca741504ebed295dbe40b43cdc5181a539252c9e533f6500463d7b118727b09864197e6cdedd7987d6f216ed477 0x18414774a9b5281503b6fa7dfbe36251d94fa630e2482dba9279f23cac31c952aac9c345ab97c1a5533b02d4e493a688;
  h1 0x2304f1f97d56b83ab6fb75da6bdb5651a8ce2edf09e5ffa6b593c871530d38ec9016eeb749c01e2f6ba860a48accd22 0x31b61f04ceaff0bd8b81ae31d7c617d09188fb501c26833c5a68e301f8921cea2071129f026e29f595c7397ac6086ba;
  h1 0xd9e32fd3bfba808ad5561837581b5ed6715ee873267315728da7e0c45b00597a56d7c76fb3902a8eb3c779bbc2bcc2c 0x175188d44973ec0c1080ef209b7cd75c683ef79c70d0d7dd801ce9dfe26544c2ddda098d93b95eb3779799bae87e5dd1;
  h1 0x4d73878e0df358e2e29e7fdba46979702a5552d0692180b6056a17dff1f28fb9806a285d8ae09918841fd14650236c 0x13ed9a407c6f0b84aa74a5a1791edb0501e7e9f80fdaac551144e79efdf70ee19657d3a5769e59c99eb4dc8661d5f546;
  h1 0xa304d10e46f28557f6df80de64c19f996a78a2879cb1f2fb99618d1b4913937dabd547d50ec13d850d3444d849597b8 0x235a5e0d9da80088edd45b81f921f54bfc25ec1655a1e35eda7c49deb1ad865b131d3816a80eea5672520468eb621b0;
  h1 0xcb9eb87beafc496a00814bea3d7150622eeb618ffd9cf92a6a18cdeda98bf21db8141302ded0d45a5b7c5d5a760b0cd 0x763166e1170fd07af973ab8b7fd179eaf8a69e51e49274ac7c7054073c6af8cecc068ed9cb38a489fb0ca4a79d28583;
  h1 0x12e8be786bbd0b991b26a2239fd7db5dbab9c176982a1ad4f640b3a48d6f8d2c6f06d980d5936ef4a024e120d02ff0d7 0x1090f56f32b64c4ba890d6950f731189b2f58db27d05029ba4dbe0862f2437f07dd61cc97043b2b9c353bf693fa34160;
  h1 0x62f3d183a24538604daffd3493d121b0ba6c9633c81c91c4a389617ed06d7c4e85f66658b2f101b342574c3d4a654a4 0x11a2069d27d13e834d7ed9cb67e1b952eac77c97d119777d93f3eaff435422ba17682145876ce1883d6e18da2529d29;
  h1 0x60056d4d831e8fa6bf973245226792d20cfa53f559d2c2313601f2aaee1baf5599ca06915a1feb4267db597ef4d0b05 0x143c6bb3f7ff8d372f30aea6485ed41d35f50218cefdf153cecb750b6f9073ccf6cd31a104ce0a80146ab45283721ba3;
  h1 0xb9cb6caa2e8c3ff4b4ad68cd1f71433f8aaac1d8c68215adeb76aefdd710df9561bf553414d38842a72b88b9314417f 0x116beb658c1bbad2afd61a78ce9023291dc1ecae09c10c1be84e6e2d7a9008508cbb17cbdd7ad41d55deee30602d509a;
  h1 0x10da6c29871403f51956d67459d7980a4a471461af79cf6be6bdfc5e64abd6baf7af390656596faf2757309ad7c027d4 0x130e6c00d738e9d99138fe33522c8b7418cf3784ea5238c427d253bef463a54aae657046146e4a504e5958400373790e;
  h1 0x38d2de1f1510f99d6ca2fabc4d98eed66e01e59d632c3355ddd10fe6830e0274edf53a5f838c1579e21c5b2055bb0e2 0xacffefc92ef167d51a8a360541556dd5f4a39b7df88003858d785c255a5b59a3bc6e311ecb2025d9d441c05a2361c6c;
  h1 0x1951a4d90830869d891bdb18ce5f158e6741efc6f320398017721b6711be9743a93189cd66a823d91fd4e1a1686ede27 0x19258e5cae79cb58c9c4d9ce3fc1a6fb3431414ce610f3689de511560d6dfae776835b9772409dd9a63b477201f1891e;
  h1 0x51f3dda4aeb6526efb7983361058a8103835b02be1b753290037e47352b5bca88c47a4688b1871509908ee1aed4e288 0xd8bbb78542d203616311041f5d9b7d9811cd1bdf41121e40af1c461bfb57cb8270e5fc5a0d592a8c32701867a81af95;
  h1 0x5d1d0b943e4527752be8d40343b206b186e1376a47cb12581030e99f329f3637905d499afa073757c8fc9cd8c5cd0d3 0x7e19af2c52abeab452ea347222556e4118f09fe57a1435fcf81e07fecf3df9f5b8d14a48f0e4e684eeafbaddb81a63c;
  h1 0xccf55b69d4f1d2025dd175e58aac01217f4f59e4bc99ca22d563d24274803e4acff806d5b9ef8a50d9d26d853f6479b 0x11cbef270f7a3ad047f6250c576da6f37489e02c09ecede476a0b0cb021803bfeef6bad6904c56af02f81fff1e547db0;
  h1 0x1356b3e7da4c57d98d34d1a716a8916c94b242bb35ba9a59b23341cfe538e1e2861cb9eef807e8ce79592095d09a8b05 0x4da1c43134a565d2d0aa788660aaf4b0f3057fdba1094fe060d48b454c1ca4ee3dd5b584c3ea919ddb40a19c9fd30bf;
  h1 0xfdf4b914ddcb8f9cbc5b6625eaa74f8abc3302ab614a6c43bfe2c503a7013005b3bb3b7af04b857eb52fa545b01cc1d 0x37f1d51938f4deb231e069490e1174c1f3ae8af10c744c6c08efcc639e83ad6f3543174bf9c75c08b7c3d7a8b425eb9;
  h1 0xfa087fdf4c28f6709475b2e71f004eead04e3bc448e2333e8ffe18ccff0399a3294a4f7f2a0ae67d5dc874a384a587f 0xe38494879163e715253ef950e4eb65f7580b994d7a66ae24020c124b6b7af5d9b1c0cc6062bfb633080278779605c97;
  h1 0x10d45a253e1d3f774872a120cc9d86b1c831c4e5f2e12f4b05a79c6b0ceb16c31691f7c67751b5a6f6e3296cbe0f02fc 0x128bee5956809475856c7fecc2e598cafb74356141cc32a786065defbd5a4d5850d1f28f3ea081f93b0f7ec863f2bc90;
  h1 0x108643fca14fecb5ebd9bc819c0d584053ad3924fea3b6597acd3791a3e1bc0ca5df769c5f73641d5bdc1ea662edcaf4 0x981e7ff1f9e5181c71085c2daac880f6ca427529ddaf36980c8b2d36836218eb12f04dafbce5762bde2cf969782feda;
  h1 0x1678bc73bf8f5085a931163d5bd39849b3607bd227a35789610dad33f6e8c4047588cb99fe20690ab97695bea9b94cd0 0x100acb8164baa5ca7b3fdaa2aaf5df1d6e216ec7610de5a43910ccee89a88f12ce0ec851042b49650e7c81b0bb5c0830;
  h1 0x155c5458134aa162d358befe302a037c0033397085fb271368793e7deaa04ef4a129e89e254218b59532b463baa1b4a5 0x115873064d2279144f0d48487805bce5277c7bdf4dbd540dfb56a304ba836244655442ee7651ba8f7d08c1099b9c8936;
  h1 0xb8d62811456060e0bd0afd4f041e79afe0de17d92b217e3519cdd6325c679a3554aee960232bb34a6638aa5f6268b18 0x123f2fab2da18d56dc392ef9cab5e0a0539bd138b8111ef436c7a406b2c46ac864b809edcf9416ce85ab5a9866c1eac7;
  h1 0x1222596f1e237eade5f62bb70bacbd983dc53d8c834ad3638d3b3dc8f961025db395a0afc82ce19ef8328c096bddddcc 0xdbb7844fdc810d4d55872311c6332e6cd41636112b29d36a1b547feb418ac2b71ebe40edf74ca6b6e0c8ff580edc3fc;
  h1 0x26e008b6262a32e718206e78a55b9c70a72988cb7658d2ec67d7c512f29c45fe2f1fbeaaa2e249f887308db1dc99bde 0x159ded7e01f26b80e123479f84f13507d297cd2bbee6bb1465872525ad1a8655b664dbecd5a7e790585d6e39a62d186a;
  h1 0x92da6484fa906ed004d8836ef4bd8e2542edcb59a6f75795198687bcad26f30e5d088494593dbd09129dd9bbc4ce71a 0x106e4b7a1a143658615a6c9baaae1c4d9b70e5d2a3d45a3d48ef649d4b6f087daf299676d220ebb4b074c1b04e9486e8;
  h1 0xe4517ace071dc604538a8a7fd59170379f2bb00f8938651029305e6be7b50a985bf119ae7b6562386ef4116660cbc99 0x955d9193e102cb1abb729ecb26443d645fb89e0abffc3ba1568e57196e966b28608121427abf72fe92fdedffff5aa0;
  h1 0x7c86072a4f1e6a6d11963f5a26f5b544b41835e77dec905ced4d1158d9810c53c23dbe3740b1f13d8b9a3961ad508bc 0x757ca7232777581ee23729496b5d91d505e09298a629f3d47f474ad53423fcd6aeef939c8af9936b18c2a59fb1ac202;
  h2 0x85bca663f7aaad6e96ccfe10f8930c2a6d33a872c7db27aaf068239aa3bff5f8071960a042e7337652d8c90346e5e4 0x125981a8ed848e9288c1859a0246c045383f0fd4862dec8a1f635607bde70511b301d351a77275d4ce50fa74fd4b7e3a 0xdc2b8dde09476bef7ea551bf167e96c0801c42f5f26c3c8971fac7442cb1212168dd0861e6bf058196bb6f8f232b0c2 0x15f06375e2c1b4bcbc1709a15f2c6c7f0a116d18b11aa90a864913bb336b740b9e7197f9163a53997e0540bc338bce06;
  h1 0x2beef308cdc0169a3f7b447b9f23b5b73ca1f5a36cbe9bf963e222e0811f3ff09d3642af28f91065496778a4ac7656a 0xb0b55cf86793604388358020b61e1e18fb76d3be8ba46b9e32de2e5973eb890a92935647b1b75c3eecf308465c3251d;
  h1 0x46bcc6098d918f02a1bc0d36a62ad784c16a59a105e72a378fd1db68af8082baf8f29528c7442e8e1b066b9a69cb9b6 0xca23aebecfd938f402f5ad4a69142d25a6b34346edcc0d99cc66610f7bf8c306c3d966a74edc219ef64ea0938891a97;
  h1 0x2e5430ab5c932ec7961e6c6ef818715a935b622109c0d7b38faf45fd72aa8bae6572f6d89128853218d880998b3102f 0x1276f513434768a4df10a7512a912dd19db9165056625962c73ee4711af3994bf334f2f7c738fa564f73dae745d14c31;
  h1 0xfdf882a5e66a3724d538b17dfa3309cf84449f36abfadc1e448c4bb4b01919226f7caf7729f633fbe222192fc20ede1 0x10c8b4b5b06755661bcbdfb886a91d757d62801ea63f01ccea3bbfadddd2a3f5c3318903afc2a5239e1d5f9f18d887b;
  h1 0x18bdfc93d8c13ec6d173bca80d32ca0a1a50ca0c9d737286723f1a60062d794dea6f5a5c9ed83318e788cdbee8013ad5 0x115d0c3fa9c548b3830efadc31f23843d78698f8fa7f95a483ec0ccd17da0416b3b43d18113edc200838129ac7271289;
  h1 0x1510ba8eaf6ccedb2f7c28ff045586924c0bca5faf8c56f7b97bcda8d998e45c2f44fa8dad6a492a12c28c06c08f6c57 0xb1b498f17c6bee8a2832a027f429afe415fb888f61b5a8aa7aafefc88df2a01a3da53c386cc7287a8f571688e3da82c;
  h1 0x40fcab01802ded9a17b0e8df01e149f7b054e2ae7db6260b656575534a76a043e73d14176b122b1d2dc3a9f55b79f8f 0x16cb86aadff865287e42139ee67c80694ccc673a31bf4e2f00db87c7816ad7346076cbcb1bc319f9c2b084622c683d4d;
  h1 0xe1c1e5c10f47c857073206e6d3838aaa4f445846d86158f78e02450fc15bdfe604671c518bf2c9c059326a223a29565 0x1e0cf1d6464dbfd0f009e9b6f4d6a221ff020a192523140e88ab2c3d388fb5608b845dd7cb6c61c3aa69f70f657c579;
  h1 0x16f99dfc27bab3177ac72a1500dc9bd6f4b52093e0a1314dd3f95609ebeefdac8700bcf8756e153aec887277c7d553a3 0x178bf0dbaaf9da2fe1bb390474348207f601bec10cfa0bb2a4817a5e0f24a652bac1fe09437d44edbb13a073b49382e3;
  h1 0xe2bf2072af81138ad9688cf16ac749d34df99e2f78ef62fa26f866a734ba408e0149f983a8cdddcc38e2297f17b251e 0x111d53eb4b5b745a3925b0b6a629c4ad21cafe4f35f59564dbb1f5bb27f5b3b9fa6573869511974faba5713474293282;
  h1 0x8376927982214ec75797ad5c323d0d8efe9634f638ea177ae67e4594bfabbaf3f2a2699ed2aaed9ed8fe5ad6b9453d3 0x9c163f067dc8ee77476248f72828bc566cdf9d5ae7101ff53b2d8f270d0aa21eef123344c7d1867242142f67ba1042;
  h1 0x1291b8cc59aa60a4dd1c1c31444212a63d0603f51fb39ae94747abecdf702ded3bf604bba9ae5ea98295fd43e14a3bff 0xb85c3090f581014776cd12906764ea22e56033b9fc4cbd8f0254f3414fb096c4cffc379d93c696ac834de1d5dc1ae6e;
  h1 0x1cf363c481d16e0fb1b0988b43813a7818c3973ecd8ba7e152605088cbec57308b65674e9de7119c6f4735f34e633b 0xf385e1580be2e19734f056dd53e3b7b107be5b652738c10bb8831d75060938e9b501ac2f49ab23ffffec81d9f27c1eb;
  h1 0xf8f678361135748657d4062cd0e351ff9530b1a28db8854a11ffa5d6b938314b2ec912d2c6258b89a0aee12a15faa64 0x818967b8c556ac50a58ecbed29cc7f839e82988672673be3cc73ec9cb7fc46279962cd68f04141c77f3a442d0749267;
  h1 0x13bd65095a0a064d7a1c25be33c46d23e9812c56157befcc15979c593db002cccb9d917a5c4d70b692e625057d6076e7 0x5a14dfe31b8f0c74d701ef67bd96ca5fa6f2203d6a0616ffeee013f9e41cce0f4d3bbbbc09abf3b13fcee7a8f5069aa;
  h1 0x2e220135614ac1d7ac3ee5d172e469cd7079c5f62a653e16e208069fb0ceb676d522ee92f52e39ffba02beb42336067 0x776a8673ad8f1be1b08629d0a968027b76e1611e207bef0ba9d8c081f3e1e17857634f8be0352a0a036c69d4b7e735c
].

Definition wG : G1Affine := mkG1 g1GenX g1GenY.
Definition wRL : LP := (l2Z wRx, l2Z wRy).
Definition wyiL : L2 := l2Z (fval wyi, 0).
Definition wxyL : L2 := l2Z (fval (fmul g1GenX wyi), 0).
(** its image under x^(p^6-1) *)
Definition wa : Z12 := ((zz 0x15091033a279d9c332724290814ffb9183a1a5ab6dc001768c142256c7838e15e252b09cdb3dca63a834bd7a5ccfc92f 0x5c890e07ed72e9619698b0a1a3a88fe7f36dc59ffe55db57ad0fb2f6e7def7223d40b7dc63afa91f4c1f2a547e58db8, zz 0x8231e3b827c1d71c671bbfd5765fb0bc5fe9478c0957843a5bb733a0b08f60a1141d378324d5cc37e47dff47ad15a07 0x163fb69226f543b17fa2d3f50b4548b210ba8b15cb16f62c99d1609c7a3e951470f2c64f30739a313b3b13ef951b37c5, zz 0x62f4a35168927729e3248977ac745e3fd5e21428f43abced29ca939a1aae590fffbdca85ac557145e329173fec819d1 0x1673fffacef2ac09d46c955838eb6b4a0e7555ab607c594479b79c260d09a3e4e81dd284708066ad9bc2fd7f78988241), (zz 0x54f35e52dad8ccbeca62f02aa6e6c5a6d76788c6ce8f8f338f263dd9303006054442411421bdb63076f05ba9c6c36c5 0xbc4ed8bb47e5c44c9b94096e0bddaeaa336114bba748bd96ac8daba975a3e496ef6e89b54cd9c5da63bae81ad09b3e6, zz 0x18c535cf54a2e82962b1db160d369cd2d06b8cb3d0cc296f8cac71a26c6f32fb91ae290f12c9ba9ef14ad3734d178d1e 0x193ad9ad239338ee4759590446f270057647592a44a889e8c91170ac54b35ccd38cd43edc61b09d2ec27ca91c62dd8f, zz 0x14a14e52ac14000b189e73559c98756758c04014c702f24100003f15e25f538ee9e4e59a97933088ab6173aa29996843 0x90be5973178a40958e502ebf1d0a3dd4dd118c7b5df50252ad052b9a3440dd08b450842300c53dd02a4908b3ed0955)).
Definition chk (o : option L12) (a : Z12) : bool := match o with Some R => negb (l2eq (fst (fst (l12norm R))) l2zero) && finTest R a | None => false end.
Lemma norm_gen G q P lxy lyi yi g0 hs a : g1Y P <> fp0 -> fmul yi (g1Y P) = fp1 -> standsG G q -> stands2 lxy (mkE2 (fmul (g1X P) yi) fp0) -> stands2 lyi (mkE2 yi fp0) ->
  chk (fmiller G lxy lyi g0 hs) a = true -> exists f, determ (MillerLoop [P] [q]) f /\ B0 (norm6 f) <> E2_Zero /\ z12 (E12_Conjugate f) (easyE * hardE) <> E12_One.
Proof.
  intros N I SG Sx Sy. destruct (fmiller G lxy lyi g0 hs) as [R|] eqn:E; [|discriminate]. unfold chk. intros H. apply andb_true_iff in H. destruct H as (H & T). apply negb_true_iff in H.
  destruct (fmiller_val G q P lxy lyi yi g0 hs R N I SG Sx Sy E) as (f & D & S). exists f. split; [exact D|]. pose proof (st12_norm _ _ S) as S'. rewrite norm6_conj_inv in S'.
  pose proof (l2neq_ok _ _ _ _ (proj1 S') st2_zero H) as NN. split; [exact NN|]. refine (fin_test _ _ _ S _ T).
  intros Z. apply NN. rewrite <- norm6_conj_inv, Z. apply E2_ext; apply fval_inj; vm_compute; reflexivity.
Qed.
Lemma wcheck_true : chk (fmiller wRL wxyL wyiL wh0 whs) wa = true.
Proof. vm_cast_no_check (eq_refl true). Qed.
Lemma st_real (x : Fp) : stands2 (l2Z (fval x, 0)) (mkE2 x fp0).
Proof.
  pose proof (st2_Z (fval x, 0)) as H. unfold e2Z in H. cbn [fst snd] in H. unfold fpZ in H. rewrite ofZ_fval in H. exact H.
Qed.
Lemma wG_y : g1Y wG <> fp0. Proof. unfold wG, g1GenY. cbn [g1Y]. intros H. apply (f_equal fval) in H. revert H. vm_compute. discriminate. Qed.
Lemma wyi_ok : fmul wyi (g1Y wG) = fp1. Proof. unfold wG, g1GenY, wyi. cbn [g1Y]. apply fval_inj. vm_compute. reflexivity. Qed.
Lemma wRL_ok : standsG wRL wR. Proof. split; apply st2_Z. Qed.
Theorem w_miller_fin : exists f, determ (MillerLoop [wG] [wR]) f /\ B0 (norm6 f) <> E2_Zero /\ z12 (E12_Conjugate f) (easyE * hardE) <> E12_One.
Proof. exact (norm_gen wRL wR wG wxyL wyiL wyi wh0 whs wa wG_y wyi_ok wRL_ok (st_real (fmul g1GenX wyi)) (st_real wyi) wcheck_true). Qed.
Theorem w_miller : exists f, determ (MillerLoop [wG] [wR]) f /\ B0 (norm6 f) <> E2_Zero.
Proof. destruct w_miller_fin as (f & D & N & _). exists f. exact (conj D N). Qed.
(** an accepted pairing check *)
Theorem w_check : sat (PairingCheck [G1neg; wG] [wR; wR]) tt.
Proof.
  destruct w_miller as (f & D & N). destruct w_hash as (_ & _ & HG). apply (check_neg wG wR f wG_y (proj1 HG) (in_G2_above _ HG) (run_sat _ _ (proj1 D))). intros (H & _). exact (N H).
Qed.
