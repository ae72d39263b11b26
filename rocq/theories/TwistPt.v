(** A point of the twist whose order is the 448-bit prime qTW, so that the
    twist has exponent at least r qTW.  The table of slopes is
    generated; [slopeOk] checks it. *)
From Coq Require Import ZArith List Bool Lia Uint63.
From Verif Require Import Params ZMod RingPow FastMod FastParams Emulated Tower FieldFacts TowerFacts FastTower Primes2 CurveSpec G2Spec EcGroup G2Mul G2Cof G2Chain G2Slope.
Import ListNotations.
Open Scope Z_scope.

Definition sxZ : Z2 := (0x7341f793cf00eb3653c71452f9a0c8fa53fa544dcdc31b6e02004dfb5f003687bc575c57f6675f3047e45e4401c2074, 0xb47a53b816dc15f34ab0d1793e81aab0bbdb40ca1bf0245e4e8a3ea5e8d755ce7dbc0856c1cab50310ca9483126f8c2).
Definition syZ : Z2 := (0x7da92c8eb804f2375c5329baddf1b6dc4cd8f640a576aebae53c594af36c6f111bb4cc51b054b073b3bea66ebf00bb4, 0x5cfd8093f2877dfdd108af5c79531de226fcd4c5723e7b518cacdc54e40ce8992cb433bef10ea5acda9047e9874a2a1).
Definition nyZ : Z2 := (0x12267f214dff9776d556751a956c91699fa9bc20e92da7d3b8dd0d0c477a2f330cf0b339964eb4f87ec31599140f9ef7, 0x143139e0fa576eba6e0b1cc07bb67af942077e389c612b0a4e6604dba870279a8be0bcc2c24315a4ec55fb81678b080a).
Definition sTab : list sstep := [
  sd 0xe3cb54e4375c341bfa62f75af351735536f23654fd676af114f485623f91c32c0393b97375ec6b42acc1b966089115 0x1224893e3bec5de3900c049f865151fb34bfc1ad0d7bb12e3ef401361a0b0c8ce74c9bfcd9f5cfc19b1d1a23fb906ffd;
  sd 0x17231efe4cd10fd8b2b0f8391c252ddd55a0eae2c54c1345d8e603656ac180196f257925efb90e5c68cd7d4bcac71256 0x4d126fe8b1eb01c3cfd73cc6af442c3b3699b043f67fdb776c03d19472ce52910d6e905649274aa7396761bb5d7b813;
  sd 0xbc40fb89984ea5f9b1187d3775e1ad3afb49767a239f2cf155002052ff8f8d01f3d9303f2e94cb9deebfeedd6b42ef7 0xd9ac3a1b60eb2af7f74537a3b16d3b0e41d627c8a44605f2b7bc0278e0b44cbaaa3a2e062df67ea86605b5ae37d46db;
  sd 0x91119d03cebe1eac807a3a2b61a3a2b681c9670f4c12fc3cb7a03c7d6933391dd50220a34749d54a09a8cd1a8595591 0xc6cf891737303a3284154627a329e99f0466fa69d7d11dbd7350241dfa8f076c0cd7297351eecf193067916a0430a2c;
  sa 0x10b331b895603dd212154bc00d9bf8a595045621839ba2a5bb1cada777b2248e5846b19b484f75e7bbc16a6b77669b61 0x17b6a71aa2fc1623e779a7f72876be2c9989eb21aa6f2b8d6c0a054ec40dbc3f10a3e17707221df6d0f65c425b55add2;
  sd 0x698361d57d84d9a278116feaa6923dcc6728dcb6aa909356af227679165e6663fee682f5fcf8c8547afae988833d0f1 0x1557b75e6f55c4afa55877604797d670752a06fc2e7e10279b33a14ed2d76c67a2cf35c9c85e7b32686dfaf880cc0a8;
  sa 0x1807c5e7fb3ef4a6e61d0d74d85569d1e819264cd69c3577afc2a9fdf5d1b35d25eb7ed4fb68cda41ec48c66f7cefd70 0x135a7122b91d127223a68f4473f5d071bf445511d836f84c496bbe2850f03a521e1e6fe5f1e248bfff78d061599ab620;
  sd 0x5879a707f988c2503f7c3384e5370dbf9504900ca2e4d607377ebc0187f32030b1a5b765f03eb8b6e01f7707ce5e463 0x197dbf90cc2c3b4c4d376752a7bc194d4315702b5f6433700bb8d2489f67f69f6b19b51568a950c64f64112640a8e71e;
  sd 0x1968f5442edccf87bad282e59bcd4c9aa8bfb2053a9025bc1aeeb99a826e5dacd11471595872f35b3c05a866bb72d2c8 0x81f4e804c6d99692d4aedd5bd56734fd248f8e1d0515d8e6d43a450a6ebd77072471cb22acc7681ffc895a195a1370d;
  sa 0x118206e0e0638a4c859a2e728fdb1c9521e523ff8a3243ab7700a1cd6474a7bbd31b6532595e91011cd9d8fe477f0e5c 0xfa8a42294f21d83c2e68ee29b7f0914b167bab28236cb33f627962be303bae5da727e120e4a72a87e4811bdd8c4958a;
  sd 0x14e21aa0b80ed78f257dd60a074e68b5e897d3c38e64c5da19dfd7c0bbbeca0432889cab58665f99be861e5a553ad018 0xb6c8fcf5644f52d945c0d9dbbb0e3e9b4a09d398f4b908a455104ec3920c918a374f92f387aee5a74516f4081915744;
  sa 0x3a25a8b439b8251b1bd39c7d151e796a53ce8349d6e3fab3c2fb11fc187a10731136b364b683eaf1b6cbac49f2e3142 0xd31705e5d0d734b6322ce7e949f26ff177985a4a00613eae744be7927e8f5f82a4e015abb0a4baf2363478e3a21bfe5;
  sd 0xda1a477c2988bc416e7499d66185bc4be79471b7d78b648c68922fb94aa5872c6cacc2b7798ec3973ecb4551f4d1ae0 0xfcc416255771f9c8b6713607f138061c4111586e5079527ec58149dee8ce201709638031a5c3c4f343333d30ccfe99;
  sd 0xe95360d5b73044f7a56a471074a76e5d9478c3c1b9b055db6d1b5a3d7f8cea7842232ba582812938661ee57be8e202d 0x211f4b1d9dcc26ec608f9f025c1339a688e84c3eff409d664d42c869b6c4e9114df29ade318d873cb2e97b8304cc3bc;
  sd 0x18aa6ee2a645bdea50442c2e5bf8eb2574b1b5725d291ff245bfbd2a74edd1dd2648dedcb33e55922ea2d9326754e99b 0x19f3795892b9714bbe34a563d4a1e95ad174a7b6ee928c2b627d7019cc2040c4eb0a8c54d48fd877a22a4473761fde45;
  sa 0x157cd3474124157fbfad441ff559a5f5932fadbc2ede49045cfca378f189c8a530ae35216f52dddf7d3dbeba2d7b2b76 0x8ef9ce0d1a1bec382a62ae38300e0c4ee1d4528c716518f2f54941a0bc6086fd37553553b7f88a491d7922cfc7faafa;
  sd 0x1907dee6da6ba41bcf9fbec317a915ceb125cee97d6f721cc2939c712e46d0046d738691c97f261d7d8f7126cf10d260 0x94da4cbf99fa480e31c98d83f7248596a00fe7807e56fa7dcb8e6c3978632fee0a2e6197dc0ddd69dfcb0f547826e0c;
  sa 0xa3650abccb93e3ac539e1ff92faf86252c9f4c79ab091c73821be8c476be3427eea752f37a2231f68c112cfea80236f 0x112c567ed7e912c09af2d2ae42748d22e2070a82b9a7a070414e187e9e4d9d7961a9f5b4a4b585ac4727cef7fb8ee8b9;
  sd 0x86c2d4df2fdcf8c023ce8a718f87128d88df523401dd84b41352c0c341d77b75040b3170e2da8f220ee15af583aca5b 0x329878a0dd2f03f7a3a87c988614cc7a440fcdec04624aafa23ef711c633bf61297dd8b549cc111100fcd2377fb1de7;
  sa 0x442a22254ec7ac68ea584d6a31c724ed99269db5e1d6f1c864e74d03c0eb1f0dc4e715c5602396e74ffd9b256081649 0xfd5b75cb0f31667b475e960906d96f909894b32ca902fd4b64b09eba98f3d1500497a630ee957341e290d8139771452;
  sd 0x427ae1306e02ccabd6c850a886e31a8f6ef955cb9e7ed52d275f75c8ba3e0f037ebc77f175c05b439dfc924d18cc610 0x7d0604f04ae6678d12210c2d15565a6b30ce186ae00894de4f493529a059499ff150413eb430ee7fd182da940473a06;
  sa 0x138efeb9fd11023f78e17b7ea5eb660301641b568d9aeda94ad61e3db812026e647035f96d3f7b90018b00feee50c5a2 0x3373c59842e7f06a4cd3c923e47c91642ef789de2f3dcf9424a873883fd6d54d5c9a17a8d9bc66cb24326be36196b8;
  sd 0x11322b6c1ac4937d3ac1266d41df18a281908609f91ba1741399001923401115d5c35e314172f619f25d0ebc49108dfe 0x8deeaf60ef24542eb4b08df473a8203a303e00daa121d7e6c70000d09c42e9923a6287f43610eebb8576126c1ec5ab4;
  sa 0x8a40cc9ec30fc855b9452045a24b3d1c817a3bf23d009155b653172e53328d826fc7adcb682d5646ecb6be2d07addfa 0x840bb920004d70277a1edce05a44383d2867688b64f05c42ca955e256d1837c173e3a8d6db6006f427df05d64a81e74;
  sd 0x159a4eb26d7ec691757573a872fb03e5323d75ae9d337fa906c23767e9c0130666ea93d55f73c826322095bef102ad9a 0x12c658295d0eeaade8ed7d4447c48a93b20c766307a040e32105d9a3346781adaeaf46bab823dab95077d0c0bfab54d5;
  sd 0x1442782185f9899a77a0f53c1f8268d5d30294c40370eef6229b5411ad5cb9b9c5c65c824471b88ced14f8e9b7ea6017 0x1398256dc3dd3695c6770d6b47173d3b20d38cd10a4bdeff94ec528449e9ee51ef2af8dd8aea42b780764d19042987e6;
  sa 0x13f838dadd478d8a8ec0edc09c0dbb6da067693b2d9a0f6cd2489798b672b501dd62d017f19c5c78ec4cc7abf48967ce 0x3d77839397679c53635215e37c0d1446476bc64c930668a2be486cc5ce993d2783a8b3fd914b87681bbd5e432558000;
  sd 0x3553e55f8a764399eafe247b721d443ccfcf1207dccecf345a85efebc327c82dd9f79a99e528b8e5fc9871b1df27ef1 0xcfdbd995ab56c05765e3df4e84478eefda4e8c25a3c5608ebdfda40d10ee677293ae1413e17d23f4f9de8a18eeb9ab4;
  sd 0x7d96284bd7146b5b7ff22287b52e8f53828604c17006b0b58c0f07a4e5cfa2f6216c58b4f6ec1ff652636104db8715a 0xe9ef5e20a659ad9b2854b4b2406cde64b5b9dd06935cb78bc39836ecbf440c41fa1708b9d705ba624257e84c67bd8b3;
  sa 0x7221463d5fee65e2da1707a1072503faad95a0092d2bd98c69451f67c9fe562bf4f4c36bad407cdb6b8e48c22d2cabc 0xef46a9ce353eb5ee6930cd9fbc7d2019db9816000bd4839a298b1f57c438015f168e8a3eef66214d884ae803f5cc3c9;
  sd 0xa4fa1d67b9ba7f924cbd2d34758a5bb2fdb4b0c07ee3aa97c45f2528a7852ebbaa0c695436926af45c2542385174cd2 0xeea450d5fd9d6bc0aac60e092c42e855fb8f099db9d4e7d059a35e7f769d40915ad54c9926a56992b3dee31dc2d9be7;
  sd 0x157f244687f971db19cf94b004eba2cb527b19567ddbca9ef4edf56f048593457672b4db7e242dd58ebf8e3d848c3d73 0xa5dedffd1c9f662f683bcc118626cc260c0d65f16cd2b3a34ef2761024cf579b6c1cb51b2cdea673d26f0ca6e5bd13b;
  sd 0x6e3a7a08c5754b52fa68be9a65594c1aeb41a553499997a247b64b1b4267775f0487436d124c72d97cc37ae3b398966 0x519a4a15a556b0d9e2b131262a92c00978997bd090305587190024c6d581256ded709ebe1db16345fca1c6079a39c43;
  sd 0x19955e75aad51aa2dfd4d25ca01489f1f32136d8555b4dbf26db7697f31d36c4215c5254087fc197cfccf53efa14d9fa 0x12ea4c98bccf3a0ca068e45159b4b539958b110738c3da7e078694fba855b768e607ca61faa3fa06219c7427be1a31e5;
  sd 0x491b8869a5b473b27fcadd5b80f93087069f340d9dc0151c309525652ce0dccc8c281e3fa6e2450b3fffc08560647de 0x11a9cce248e4cfdcaf204d79138d36b8bb46eae818b74c091024690d8aca267ff101046801eb2fceeafc72247d21ec5f;
  sd 0xb3be8ab028f88dc4f4a5ceb0665aa94da581282982fc9ba09d8829dc1c63e1ce26f1d1f4145ec3dc1af5a12ae1e3ab7 0x7ba2a20374f9f190ace30453ba17d483539c332875a1f34d5d3ca6ef1aabe21124be48c8f687bd0afb795433adbdbc9;
  sd 0x5908b6cce6d64c84c72208831d429354cee5bb231bfd107888779bcb13581b631950da53505e74fb45a926269ee1751 0x84a7139f99de8812c0a105ec6863f47114019bb5bdea042ed9c5e82fdc76ff68b7f9d33389b834bca71a0056d41a68a;
  sa 0x1680adc957f5cd5739930adc59f353ef25d4f8856b06d038bca6745b7b779e1a2fe36705d8a953b55b005a106ce1ea31 0x3a276113d51f2e8401c82afed40d01fd6d88afa685b53207b2fa09a642def04d6d430745439f07b89cb9247ae8ca3c0;
  sd 0x1195214ca98cf394f7a302493239d6543041f01fbf6e8963049b46a416b774d8a59464f51e3b724f0dca135883ea2ce4 0x11032100511f2a356f974f8f7237e15279a92d1e4ae349204bc8960f5ea72cf8d26ec3c966941509d3be7cffdb8ab2a5;
  sa 0x165f38567b581dd165b754f1d8589987fbe54b2a762bcd003771e5c5f544609c0fdbe497e55082d56aeb345c43578ad5 0x16f01f49377ec74f13888f80e0503745cf8c9d4b1a69af2c0973e3927f78899153fab3641a75a14f847c28d81a12a92c;
  sd 0x79fc7fb3a27d5dcb1caa3171736bd4f9f91d2b0a10540bc4c20c4c542a022fc4056e86ee87fe30b4f654f05e45bbd77 0x19c4067c744866af285530fae18a01ce122dc755795977ad9eb7c1d094ef9029063d28813c56cc5e802ca0a87043f918;
  sa 0x9aa5297a6082982a9ead9c224787fab9a1cdbe6602a328f145fe24131f7c7f8e8411088b90a6d3f1a8bbf3ff6a20dfc 0x129a7c4d11e00fa9dca72d13311713dfbfba2672c192bda6e5dfa4f4605653b0f1e257c46ef6385ab7ba8ae79645a2d;
  sd 0x7e113adb004bc78e771aac022f3298760bff4414dc2b3ee8ef5437b3bae30a4b86c367a770b51e924089a0ee25931c1 0xc16cdbfb3d715f8fe7c2be35e3f1166502478adaa4bf6fa13a6298b52968f6b474ca657d34369b5443c4b78100d2826;
  sa 0x69ae997b1148a488f44c7a580811429c8ea837ce5fa9f9f817c0e1f883b8767bb910ee3edee2bcbf6592eb118ab3b91 0x10b9f4326819daa7de451247d4e6e1e364f92551ed5ff6a4c37af7478ccc4309b9f1402121579bf11cd5b346cf58ae9a;
  sd 0x13d33755e9f48c4f41af87f758c8cac78c8a4ced52f0c5b1056cebb6db332819d206e00dbebfb51ae0939dcb7cae99f4 0x555fb8e07cbc670f723beafc036d7e13bb701d527426c470fab29a002d8cdd75f45cf3c06ea9adf7d518646edef1ee0;
  sd 0x17ad328e09fdf22f624e36d32f3282575187643a35fa3f091fde0ad32e0c3fff9bf6d26053dbebde3ae587e3366620b5 0x168a5160a62582ff781461094fac17b74ddba455f3f21026e1c364850fcb4686f900ec456be8025c157f31c77b91220e;
  sa 0x17f7c12e1389733f84882c7273068dcdf9bd4bea42e7c1fe20f975210b11b38a83596f9f47f338c6f2ac40935ea39d8 0xabf27fb111f59889f17972986163437a2845be76d256ad9775da01961bbd04eb410b4d35952ebbb676f9150398f9f9a;
  sd 0x18720a68c341219233a6156795de24bd10aa3993243e4552f867784712e3c90351f0f0f6f5360f28f61791af0fe4998a 0x1313c0780f58aa37a02b50b4408306400d5851c2001cb89175c524784cea1ee5e3725ef7cc76065448b723ca76a7230e;
  sa 0xaa255add2e5d30ec86116c6c8e2ce36f291ce2d90ce2a669a39ddb1b24602418eb8668977bc4047c2642d98ffbe96e 0x141d47e2d7800cb27c0d47bab434a010f2761e066f9f68fac6f801fb908e99adad171bd39a505c6fa43cca220868e40d;
  sd 0x77694ed7e2d850d5d5519c5a27d91b4b5a8ee2f4ec6429537929f3e0bbd23217c05138b02928a25faf4d3f5ec153eea 0x17487f612139e8505d2a975c4fb156f8a1aa32a68c08edb399639752f285f910f9508cfcf64fdcdeb11dcf3fac41bdbc;
  sa 0x11a3d4f0188be5f1db6040fcfcb21c09338ea451c3254bdbf4f96a916d4f015eb7ab46b2bd7746e825e1778951013c73 0x18f4dac49c075d621c2c9d11a42e83bb25380ceb189f52c9854162b3df9ba692543802963856ee9796376d9aea65832c;
  sd 0x24f753d9409c9ab7c0451c1d31bc4c9fcfa5b768c5a598e11f6b54c0e5ca0b6feefa7b1b3b41ace2c1832d32ff595af 0x3513d23dc03a28a2409d3930ceb608ce6267d35806941502f88655e43db4264b6d1b3924a07d8c44b11b2659dcacdf3;
  sa 0x8585a3de09947ccf9f7b473d0ebd997a2975da4716cf926a33d2bcb77fad44ac03b120aa13b8e849d010adfe3d8056 0x8d7c5f9cb22328ea16866208573aa8465b04d0e2ee96c2c9deaec61243b5b7f6a22c0c5e5142b3f4b86049c800f1fc6;
  sd 0x18cb3eb53fd1421757e65830a94de9130191b6f7cbe13b96b1eb0768baaf03d0ce315cec84a1c8d2e9000490a4f4d9bb 0x5674c94fdb327a6a23fdecde44b363783042d98872838fbe19b433f31a3f85595cdcecf6148c9836db6b089abd6df4f;
  sd 0x184a045fcb0f234be6d8eb3539c3fefd5fbb8b057e8117e149ef8ac9405d99c49d4f8cd7a5cea3c85a7eefb8ca8f140f 0xf07659bcaf80057e1da00027dde3eccf560b8587c2386c1070d814ecf51932b971c6e9738881f8d4273f6bc07b635c6;
  sa 0xa6191f16ae1a198e0d6231eeac973f59b6d3866bb4bed77f3c5053720399949e60c255b6dab5bf8a831086032f24677 0x195434843c43e4da98fc546d2c6afae030b516a92cecc031466c91b0f85a9ab4890ab5dbc841df1bbda9d134189876e4;
  sd 0xb80d85de0117bb1bc699021499c9f60b4c96e0643398a777a86da139e561113e2371c4f6b00d84004a913d0f47339ee 0x146c64f6e44a72ce0f5db3df1fccbae8b7f8a168144894f8c661d9bb5ea6ffb2d95f781b1b841bc9dd5473eb04b96309;
  sa 0xb5ced12ef3d8d314303a2dbf4c1638c7603bd326e7314d3181926a7ee959723a40d28c92f68b88f84506ca1a69374d7 0x164906af3a917e706bda0ac450777bb57949ccb5d777e224f7f6e1c2a1ae19049fa427d91832b6724206b8f9ae3d468c;
  sd 0x2be3c00a266e7746e4c334cac8d2dd4ff54e37ea7cd720cb6071daae5faafaf3421fd07771111ad4cb2e96d8831a2e6 0x6b11b291a73f82230bc3ea9e9be154d8a0fdcbfc3069351be03ea9617dcba6807d5400d14e50695de6f135d1f32fc29;
  sa 0x1432c8689de4009f56ff37ca11e9b5bcb8c4038ce91110dd3509077c9be18ed9be3ad5d94a9e33d8b3f365ca76515d1 0xd632c6f0c1765b8da60d5cf36274feb936dc07d54d37d8e88e5cf74732e28ecb22b550b665f91a978b8a9412cf1c713;
  sd 0x129ddbc2135c072f5807cd885f2eafbfdff05ab99875b8adf12704764d32d9324d31d7badd554e96ca3213b66c1f343d 0x11cbda7443de524edfd3d0626d37774c84dda9496d24179675bad3b15db157bf038af6b94b2afd0b5d14b022a24935b8;
  sd 0x5986be12feb101a1c8a03519ee68cc6e73a6d123f6cbfcfcf33085fb8c9768c53e4d174e372e3dd1c90452e71c86fef 0x2f9a7da32af4a9b2682fcd68aaceef9bbac55c17887f58206cb0d3328c838f2408fa920113247f9af4c7105f2340a29;
  sa 0x1730c88d9d178d2543b3e459af083dad5d293c295d37b3ed2eebcbe7da2d01a1721d6d40a3c499248e41038ff0e43a12 0x3281b7a4e9873dbe511fb69d40ba60c7bbd96bf70041ee8b3a2d9e71bbf64eb35e75ce6d7952edb9429cbbf381ea6f9;
  sd 0xa16fc1066caefa5c92ab01d0cd28515854374f20c477654d096152790ff2ec90766fc8e69a45220c91d68db5cc40cf1 0x1526c10a39758c1f92241f03a73c8e07a759b9261c36d641f9e28e9b48ceaf9688281076ca7c3b51045f317eaea80ac1;
  sa 0xa7cab9ee857fb003c02e030d226d4f5e281d9af12b44343f602a44343f3ef69614e7e7320b81310f59c32f834e63696 0x716ee2fb10f95fb86c5617979432193a71d56db9e2b4531f665c3a97f8c1a5d8848059fa6dddd373fbba7708bc5f4c0;
  sd 0x1828313def93bbd14edb4ad4d343c2b33097192fd9e16746fc501776dfd4605eccda9b3ca5c0346ece560b9c80a5a689 0xd45a0379ca9f95053c060a591b69e4c140ebcd8be9d7b753bdf533aa1957174d0c5b6c5535956a876d6bb5198588469;
  sa 0x13c0bb60f7b1c5b7f037d982a58a0f6481a49957344aa6671136ce9b0ac06e35e8699282a23d1e1b2d62dd8859a3dcba 0x14bf57c7c34d9ab5d6a1d7c80660446a97f7783bf031a27e8933bf35eb1ceb1f3e70f343047b721f6a85e306200c8ec8;
  sd 0x187a63f3b198396cb8e850943f4e193e342883a0c9767452e5900557d5fa251e27821b9a76e0a122f55d326e932aba15 0x16a0b2051f23b0e732781c8e9cce9d6975f98e88b701712e34f5df4ea50df39201116a883ea768ab26c4aa5000770505;
  sd 0x1863995d1a1b0c56079278da3f2a4d1ba38f869e253227ba08abb2944cd8be59359b38739c46e1e8e445565b8d59aa69 0x75882ed473b0249255845e98ba4bc5c87b6574e076a20fe35a69f7980217e7c93e0b6cbdc1757e3ae97b646113cb750;
  sa 0x1213f6fe8ec50c98f6061176ace7174f538c77fdc60bafe6efa093512191639606451fc91a8dae2de99cd3b377134682 0x19592b6cb3821c37821b47aa89d3858d91ddc4fe0625e7ff713c1ab33c8570b04e75e17acea597c4a7f1dc0f6646da84;
  sd 0x24465ff21f2d0c57d2e994b9688071251e44db871006d5331352e0d20bb58b8d46c845873928948fbc9b12a49faa125 0x15d7eaf848fd4a8131fa12dfcd5c0652c38e6dc3d0a9d8d64915ff7cdbce46b19b2e47a15ac6aab06c977c3558ba44ef;
  sd 0xc2f95596f79dde260ad89d2cfbd76ae0022230e48d95b04c27cd4529dd19de77fbf598621dbe22e2348997e24a3fc4d 0x821ce7a7a586ef777bd6bc867692867d890fecdcf0408a56af28a8c5c481f21c5801dba8a5fbf00bf8ced74de1d5507;
  sa 0x3cbceb370891865b69cd2f379954ccdaf710627b795821eb65092960d59352400e7536d868931a068cbdfcc5a0a039e 0xe2b830b816fea97f32ac64a97996f55a5ed2abd67155cd920569ab5396d20a16bb89803b9dfd1025e528867a999de90;
  sd 0x33a3e097672fb74c4b5046ee02a873c1b44d6efadc7af3ff70641ab0b87347e71d9c908d42a686847e0f0459c873888 0x609af767e364c8a5415915ef51871962a10786a0a6742b6a389f4c5e5180b40478b5e1cc9aee4a2ae991a5072df34ce;
  sa 0x94ffe78072a208318d97ecc75c3909bace694656ddbff21ee154fa670c2aaf7227ff12dc2f3f0f72b703bcf448e303e 0xc33f6b5cbac59770cf5157255a73edb553c48e561d74bf39da2667f8145cb8f0e3b863194fb739077cf2d6397568d09;
  sd 0xfa4f694c9fb27cbf82fd6292b6d2b1ff0d2ac58963a06452c4f3157bfc8eaee4165b0f72fa596980f2542c014e1d7cc 0x11c86307be72f484a1ad7cdbc093ec4049413f63e92e82670a7ca39d174b790737e87fe3a129b638dc112c28a4a11dba;
  sd 0x309ecb2ab28bc278439a22160c307d561120cffd6b128d30216fb0b972cdc2e3938115fa8e34010c14e71c4337db633 0x50a05b0923998f5e51d2f3cfef23b204a0d5cf3e76a51b5c1acde17579e54ec3bbb421e7b752fb6d5844b246e49239b;
  sa 0x856c285e873364fc72ed2dd51e61b355c6bb1df00fce59a787daa4f5ce3ec9443a2156a55dca36b0c37b964140ce035 0x390b0d911a61badbfaacfcb3dd35babb2a85ab49662243f5d59715ccc4efb4d6de5f1f9fe91eed442f785d2b0abd550;
  sd 0x372bc27f93c025834873ead0217eb2dbbb967b73d64e1bfc8b1cb954238a325e54c7fd105c29b2a797a4ab7663997c7 0x164cdb5e5de625a2bc221a75fa27ef546f8bacc45b2d125bc9bd0878512afa8fca516d737a09d975516c6d480c722f26;
  sd 0x98b54f7dd866963a67aa96e6823672c8cc12c8f45db40d7b46fcee0ff72db97a7ae0bf4a4b03c454ee21b152471158c 0x14c1f75bc9e877aba1ed83cef086a4ab813a7a3de7a58a574ca97351dce3d341ce98702f3dd8205148f305fd32d9fa0c;
  sa 0x15763beb2ac0b8c8e31dcbe8811fc0349a96eacb931d65ef1fdb88db663b102b7432b46653c21edc38367465f18239b5 0xd3c4981875ae87193cd1e7312bfbd9e20cd6a982f6fa0ccbc24438c1f1939afc9664c025e5dd6b53298ab58ac3f4f2;
  sd 0x3549ae3a3e75ba1787f4c134b37d2c995dd9db19905104dcce0a9fc95d63ab60f6782d46bc34b78acfe9c3049d5d634 0x15e9a8d6be005f4c6502cf8d841d8705295de53b2b6f1edcdd824e2d517e304b7a9d600c062f09abe003b4a7baa2de0a;
  sa 0x4dbb7a6198de6fefd84ef4898d2d12ea3efd9a18dadc9f5d0f6e02fe512077ff244325d494de20539571619d4eda3f9 0x98d7e01c2a99756ca0d8ba8c0df074f8d76da7592cf4f16c71174d40052d9e555ac415046a6cb8b47b36e39edff3059;
  sd 0x18e30d16b2f9be6b3a9f14c443e60f6c8b4bca3bafc49a8905f40dd51fb8b2c53be2453204658870c82f564fdf2e71e2 0x14701cdcd9a5ad27c032c7dd9350f67931de42d3373a2604a1ce7a96eb7fb8a504857b75756632182e8274e028cbf91d;
  sa 0x34a8b5d9b2b3aa9edc741f4bc173635b8ce455f8e3fa27622440bef085246dd82aca59a40e6031421d3883864fe6d97 0x5fc12ac6afe78720bc175900b76ebab08b98edb5791cc5d02094c0ad80f0814011f0261486c0c3985f2b318bc0c7efe;
  sd 0x1034ec904874e962afa961d0a3a5c702e6395e7584850d1aa750b9dfc24fec80e83041820a20406d15f1a6f054ba449b 0x3340359f4fc2ab4fc010e1b848d2afe1ae51a092c687879e19bcf39c7da9b7169b4c91b3ca0be60c9a4320b87e2b968;
  sd 0x147a822f0d99a9d3c103b166cffb3607fb8210dad65822dd4b9426b7d0f89e2926bafc3e6b216683852c5107535f87f 0xd57f49c4c23584593eafad9f3d8782c148997b3d32c1d32ccefc9a24d7bef2c21c8c3e34bfcab17f093ccd7550daddf;
  sa 0x4c98bb07c9726478a1041ce9be8f8ff77956d9d97dee15acf92877ad61cb58bdcb68a056d1f204b633e10332990d9a6 0x19b7c78bbd6f2daadcc8c10f6571ce6acd12c8372a8f90e8898060ac13b7989dc3d56bb583f0b9775e4320328547a676;
  sd 0x2cfea67d236b4df401e3106798fb119e92d9b348e37fcdb56bd11681bc552215e33f81a677e50922e37a4ca7acdb087 0x78ccfa41ea622f20a24fb1d2053965ec84743be702d6658179a65c1ab6d2756ebf19cb82ab7d7df80af72f63c1a4bef;
  sd 0xbbc9181b71e8ccfd25c898555070b4b543aa91e30eb09b9152de52e86b8dec3775ca05c938d8f4673b2dc4534470bdc 0x67775edcfdec2cb0ce70aae6794fd09a93e0da75fe874be68312f77862cf17ec8fdf87974eace5f5ba2874645e1179b;
  sa 0x184b1d3e17d0213c8ba1a44637145ed020a27c39d0608aff8e57620e496b615d73ff8dc5c50b46cdf6d621ac77917d30 0x2125daf34561282419f8e20819968d78070656eb927c0dfaf7a12667a6e6d7127baf8dc03ee0f1baecfeed6ffc1ae2e;
  sd 0x17526ed78d192c4de434078e2935e0110e6377fe87bcec6d57e06442a92023cf491688947590613182b9578aa1bbf825 0x5df1c31809df9acd3fceaa8b3b4cabd338589c0a2bf800695514c67240660af824b9b7ce63c1bb56783ac570a62e2cf;
  sd 0x561c6e6da3118fccc3579a380ec7ea36f62fd3c82e037e60ec90dc131eb796d47edf3a220fea1acb6cc9dfd347f73e4 0x383db900bc477295eecad8c046417ca6230488aadd2236b1326e7c1d5b75f219232ecb4ed792e8b015edc3488725951;
  sa 0x8e0630078de251135381262ea4e64ee1c7fef97d94637ee2dfc099dced217a2e8c4447bb1f4374420a14ca8d0230ec 0x6f7099ccb80d091831f95ead2999134a514e302a27b1a9893ed88b7d5b125307d3e873afd7b75c7bce5cc4aa82ffe1c;
  sd 0xaa35c43f9601f915f067d9062f2cefa73e702a7d4b7dea0fcb9adc79bc97c80efab6f20246ee84091e424f6ef4549e 0xbd27828f65de0efa92415badd68ca174a511746017efd347d63f7b5228886a94c687e7d31f5bcb654f21f10cf4ac504;
  sa 0xb0ee6fadef38f0986126f4c87677b4726d4d5c2048131ecd467f5b47682636fa9c81c09b66633ec219edfae1c345d00 0xffceb2ce155dbe8b3941d9e24d68623c713617fa7c622bb3dbcd2156d2cb561f97613c1ad43918a445b7c3de5f72b6e;
  sd 0x894b34a1dc983346d12a73f08f3695969eb4a53e54dfd6f9d0b5ba363cef303e9eb27ad7f3254384de5c41145137991 0xcb926a3461ebb689356914853c48b73901c3fe03cb30af827fdadeb9572a6bb0f39514d24ad6e7823a87e20887ad0b4;
  sa 0x5f10e15ab370fc8ae9629cf7c1026c329901e6abed9cee6b22f1fb7e84e355d1821e9e4b0ddfeaf5cffa80c97ebaa1f 0x6515f869026e41bbf5ce71121a57b783ed6df75469f01dbefb73a3b32033b575a4ce325944d75b23a865afc037983a4;
  sd 0x7e11f57966de4419ba874e5c02cb84f5b6b3baa4de7abba156cf7f23bb6189595ae7491738b3cc2209d5e45cf2e3bf6 0x106535397134317943998c177b11069f4c7250a72ba6f5c18753bd5fd01c9e99045bcd18a074bf87ff910446b0159156;
  sd 0xcf8772efe558df09ea41481f3652cb26623d9b17934fd35be3ed7092876c26f8aa1532b7bfcfb3d9d7d6de2daca99c9 0x9dad277b3f0b5a694a96218375e408d9cb628ea68d67184c1002dce1c3374a67e16afc2b66dbf7f0a19dfb94f9a0621;
  sd 0x4029565839232100be55f6c6c7f6ca5216f8bf03c7e8cce724dacf3fb8b6d3e09e7392e4595496cbffa7abe260f0521 0x11aafe5f735c2c2033072039c05abe7fac89db4f4361bde5615989722c553ae025128da9496e53372f6f20a41ee95a96;
  sd 0x19e496a2c24c6cf3b141b2fc073e2c692a2777484e26b041be63656abfb0666e4d5c32d92704c141bdbdeb1de447f6 0x10630336850967373a935de4e5de5c946a833a3e2c9560b5a5dded821062af00b3ed90d87ad5d655c92d33786a444f7f;
  sa 0x610a31c6ec107db5521a9c9e30a42aa05ac90b5cd761098e880dbec7d199acecfc2127a6002719d06ccf78300efb874 0x4b8c8dfd08f6cd3f1a1eb912cdd33a8d188da93538f3b20348fdd3a8b54c950efab9e2b662296bbb88df1ba867e6726;
  sd 0xcd74d8ca192a66265c7b4df7056eabc7549ee076541abd7248a74042a9654ed76684d8c36b9513d194cf945ad3402e5 0x2fcedfa00ed4f04db61d1732024d6210afb20de31684024807920b7cbef7d789dc44fb6ea874e81863b7db9a5b55872;
  sd 0x9fe0e6a1da2df711eb863cd02998834eb22277e2115f9becc57ead1142370b1e9544e76067c1d5d156ce48308872d51 0x1caaea144f4eb169a9aaff5b07d8c65f23115e0966190b810e8c261d36b887e58be01688fc51c11e470f195f0534db8;
  sd 0xc44079d100b20739f44ef1ba16e98ca007ce4c083126b46614f1d52d16edd9a0b435a7d5578ec2630effc3010793a01 0xc27409bd953308675c9481583004b4da360a5945c9e08ad37524f208f7ae6b52b121b99acce60d0e612a9a4774dc87b;
  sd 0xb0d0ca0decc976168fa8bef46b103fd004e219f42d5a3d6003e3b131373d518ddf6a11207847230c4923f2da09bfe0e 0x1160d33ea281926b2f7526a840c302f2b52734fe2d8ee376e3ad8ad8c12e49afb4190e67042632907104659a8def7131;
  sd 0x162d57cd957c09d96b50f7c4afb156b65a1e7829f885d52ba5accbca8e76f66134716482ddd2c96db119f39edff88663 0xc8dd15be8e6ff90298d8567d1a0dd3a9ecd3678aefca19001c7d58e9852b99f5525805f5dd25f5cd0948c8dab48e3f1;
  sa 0x121d8caf638570d3663a7404b82a094800c5dd050a378711637e1ec9b5c2afc9cc6623e49a494d000e69625e3030aee2 0x4bfbb2af7aa770dc7029d5407df10a279f71869a2576971910ee672fbb20c996d916b873144e2e8365fecec568a89dd;
  sd 0xd1ea0b8a8799944ab9dbcbb7ee097357dc1d6823b4e99f6657e5c00ea05acaae265b18b4b41e4a8934c840a0a505c71 0x1177e5d45ce745f8c0841f6959bda36d0992964ee904502c5ec1bfaf17215d017ef9c0816718890371aa836ef2980926;
  sd 0x193495d05f74899dcd11871101132026d77194f4c9f3b598f6ac66d0ad4397bcda972c81c94bba63ca285468f5331699 0xa8710320392ac69bedd80dc70e3e3cf79052c397d0abe883e15b99f02007c688074dcc55068be5b16462dc0dfe4be9d;
  sd 0x3539ff4ed4e20b3ab5cd373dd48e908d5cbd4c3e0c58e727bb8fff81bac6071e909a5fdb44abdad0cf1554d1627fdcb 0xbc3beab924bc34aa79d4a2973b028cee2f61962a55565ca14ca4a799ab3d3957754e798de5e7c04497c813a48199d76;
  sd 0x178df948564debdc9824f18ad4b9bda571df7d41126ff543d6d85a53a7497b4e9e5684010822f5651950d442245b194 0xf2d8b43bd7e07312f5480c6f6a55b212eb5f0f15f41bf3b6b8f078895a6b65094effcf0a3e043a38891b7eb88f3d745;
  sa 0x162c99b53d4e758ab6326a93649db98c460c84f1ef8466d79e462478d07ba9e986976e406652b6c9c22b20e0cd4fedda 0x173b64280a5db6a0e392b35648b8ca51b7baab7b0f2dda5616dac5e96773c160cc4f861ea510f56df6172373906669ec;
  sd 0x1628913051e11d5deda4c361de11bd6b15e806b700bfb84bc93696c4ee58ea980c905d4ddac79bb095be3c79f9834c39 0x1d5bdfd451949469dfe56871335306f4b6d5db739f1ea85fc5aeaa4353e22acf3fcd7605fa0040f3131cb8d3621ad01;
  sa 0xe68ecadb3a855c4543072f387d7a491941229365aadadf9d51c1595d1ae1b5b75528bad696c1552ae3dac98e86ae7dd 0x165ca42ce2407b97b71a2dbf46d9baa7b5b426cbe5fa9b4d640fcfe810d07894a324f2823e52fe0fd32e54e7762bd0d8;
  sd 0x18d2ae5db5fe9c3915a5161de026b4c2f716a6c0b2bb135db1c6e842cebc696e818965a4beff23bae2b67a11f427f520 0x194e243181a1b3a27cb590b50753b4ee3e6340a896ccd0583e562fb11bfaca7854cd29788225f102c425a91e81425d13;
  sd 0x1f8e537a05d8207ce1e0604698f2c20e4da15d067e8a6a1fab6ecfb760cfdd6b890b93e6aec7dbc7a7e1921fb18c331 0x9c7aadfbc346852b72189d8a5db84f8b48f12fbc9a8c72a01adcf3f2b060437e45073cc9622b6d102270ee5eb19ae89;
  sa 0x184fd80cd3ab0bf4c60192bdd38094151ef923957f0837e29ed20a9ecefb1f7b69099eb39cfcd403993172e0e9bfd672 0x12d16c366841cc9cd10c2ab72339ed7006e1c6423c08fabe861b070e5129f446e9bee2352a564030c15cb44c93158cfb;
  sd 0x1255bb0f7bdbfc805c31b1961e55022842504c397c3db832ce47a29839961f77efb10e9ef0699593f18d9c882f69c6f4 0x170d1214175c8ba59814f87387d15292895981e354126e3db44ad2ec46361960cac0f7cf1ace4bf55d8af356a58a717b;
  sd 0x8f479dd4cd4c95fa48b750f029fe62af37d2546a2d77fe5ed4ed95594b98258bce2e36c8a83e531709740b8f9869f4a 0x19e235e5d62a6f3a5c4d751d3e9ef67d9ead3432ae7a40ddfcb7c01c770931c81cab0add82b208fea685627d0c54a1bf;
  sa 0x20158cbcf4d371dfe3bfd4a0a20122b010381034e7ac6b512c3783287d3a0d0d69ca445955531be7f4c400aa39dbd08 0x1054c45eb106edeacddc780795ec98ee3035fdd461820890d644dc6596dcca8f317ee7c4b2f52b2c8aceb1ae813d0587;
  sd 0x15984d82c6e40e35643332a67abb08947638188204190885b57e3da7cdac8c7db7a599b0b250f700b306d49ff6dc258a 0xf08e31854d71933ba605df6bcee38e6a235cee0097d6b12acde820bdf3a418e39c03775d400ae7f2cef265b379a8b72;
  sd 0x131f748280e9fef788eaa825c71e693ace8a1cfd0832e9916f4d37d7cd8556223d1e8b9e6e126a6aef88f32cdf658f0a 0x18e0312d3c45bcf58b5f52bd2f4d797f8582f9824ed842384eb93f4fa733848966ec6a677847c05c851a21270a299533;
  sa 0x5c5db7016cd6ebab30cf943c6622258b332fbe035dbc94e31ef59e0129e1ef35107c83cc3b2e5285ccec5ef24110eea 0x1975f13dde3ea11f074eb30e08f37593003ae70d4864549549d2137345c08bd958c5ddf81aef82cfa85d972541e1cad6;
  sd 0x8ec22097784cde8fc87cf0aea198b62deb45cddf2dd008252e6540078ff075c7a320dca8dab2e346eb2d94f89af53a 0xc449dc9b8f1f13106bf39458fa732db92bd3573291d80263b1bf3a61df9fe96b99f3e6cf57b2e11242d70f0cfc163a2;
  sa 0x174f6960f0e66ea891b533eb19df189f3edca6c3a1f87dc935463d8c0d1ee2edd45ad9cfb37d08c75355cb7dd5afa564 0xe9dd54fc36609a9e7aff730d71e29eee49ac724985907d9af596a5dc6c9b1a11bb4f6a1001b2e321ecaeed2f1d293e8;
  sd 0x7502e14ff735617fbd3a22d00c984c03db86e0dfead636dc19fbbd473637550705c19889c039f7964476ae61a2f2bd7 0x1974f4dc5c0b7f4a2c7f62e83adb3cda15c4f313f42ce891b6d767cbacddcaa6acb901192174b1cfc15c6322e523c87c;
  sa 0x5abdaac81987ba7e0f3bf4037abf2b5cb06b6a30216c38041189a5be87e1a4c29f20b8bd1f4d808c64ab79d9fe7d3b8 0x5c87542b48ba7b9a91f71f31603ea07500dd0a0b38ff610f1fae092a7e465515e4481799bf21a2822687770c311ea50;
  sd 0x143c0182c3156fc5c9136f9ab0ac51b37b941796e3587db067cc14228c746b73b554e78e4b7ee68feeb0fc196bd6ca6 0xa8ce63e74f700559f001a5eab0cf3e122ea7dcacf47753bcfedabe1114794a5f5f5a1e9fd49cee101b1189f390ad9d2;
  sd 0x2a07a2cdac9c993f2cd92fd6a777ffe02e12ef64de5aea69249e6cef1f7375b80e0d32312e520f0a2244bd120326b5b 0x2148aa3627429704b7e01ee6841bda0fd63f1064a2dc573f9ce9d7f03c30d284c75d084818a8e303c515f77f19b8890;
  sd 0x928350caec60b5ad7ac4cfae9895ac2283b95aa5a0d6dc78f6674f4d8d960db0bc1b187927887888cdea32cd89ca7e1 0x147b289e2adc5acf0119a01e6fb04064b1e4ec47e7d24b4d0ae64e0ba8269d2e866c8a03dbd93685fdb7fc0abfef49bd;
  sa 0x191007bbfbb0d229fc2c30ae556b9f22aca44ba5e25374bf86d0f937a933e35c5c43857d8971db5bf10bdb02b230eaa8 0x10f4ccebbf1ebb872ef06e9b333e0a8919e2cf72596ab834d711a6625a82bfd4a1a8d0f5b569e8be04b86516b7a44b9c;
  sd 0x41ff3cd37e33947db8b0a3f96d8d40ad4c5cc497cafa1fa5129a9d2c8edc1be6c1b0e7c3691c302a987cb068f5d5e8d 0xf4bf6163de37c1cc1542e5350cf81603d7751b446aa3181f0783ce8d9c122aa1ecc656618fedefbe4a280f46203a8a8;
  sd 0x1519fe732ab39c910e3032421541f1a5169e3abbf23080f56a5fab002550419b9234d92158d4ed1a93be3626ad533828 0xccea9000d2bc78646e799c873f7025ae4ccd264437611fb36e6b38b2935920ed61ccbde903775db37f9393da303003e;
  sd 0x5e5c9c447848fec7be537ab294b98a8a87ada26ecde9743c1fbbf579132206a8445c43590cd58e6f8d8abaf1e38d060 0xa9acb8b6af9bb48390170ce64001c0a192349a8bdc2b7c84cbfff9678cca3344564a1fdeaaa2579f2dfce3643ce4197;
  sa 0x1847ae963aa8d919f3af94c9b73f399ff334b14d873da660f0a742925b7fe7a0409cad4ec7f683f434a3f3a9f014865e 0x103f2738e1d031bb47afdad098d47592b12e6b4c962d58cf8007e32aaded9dd31c4618493a09d28112c1417f7a93f6c5;
  sd 0x10411767f2acc232d47892e37482d90d872fff712848c8a4a02f65b89bb910ab909150049d8e135e4cb4df7054c594f9 0x185befc13eb178fb9608027fd7f125691b50e46abbaea13a14c8819112d4690187deed687c28399e1cd364204bd6d390;
  sa 0x134f73dc41236cf08c281a3e6ddef0680ca754fa8d756541bfa760cb10b82656c048c5ba535b479feac421b6ddbdfc57 0x15672b8598c98b393f61eaa3df4dabc0169ea613c676fe04269a3590f3fe0b79a6b21915c6da462c1ec2b79a1dc50527;
  sd 0x19ea55212e91e1eeec531e986d13825106696d4cad7fe3967a39638af8900566787ef700665b1041b4ad243f89843aec 0xfeee903c0e4e251ba4ec66ec823578e0329e9bd0c7e5883e34ba3b174454cb8364f6a4b5388d153d5170d86677a659f;
  sa 0xbe468d9efed913f86d468b8a9e105b8c1cc259d438de49bcbdb6402238c2701d184870db148e4a1dfc5f542a3ac9cd7 0x1ffe0056c8d06735be629e1a29ead8d108e31c0498ef9b94fa30e0a2c5b37330975414e32def987867e03d720997184;
  sd 0x147fc82f4d3f05c3f3733eb0d100ea415aa313500fb36b5ff3a497437ac9b3a111a9bdf45de726f87f435d3b1b660cc2 0x443ac127f8fb709acd715bde188db4db104914763375c6423a888def346c67a79dcad62333aa95ea91b02f2d4f123a8;
  sa 0xa9c4a9acd99592aade5c10a8bab4810b1fa27ab6761905a9fb3e8f5ee970108b4f8bd184f27ae70420ccb4409ceadb0 0x67e56c8f89939908aa91a3f59476b9ab5408261b5ce816fd4915b1fea28875b57ce0fad337639a2ec5108ec3676e876;
  sd 0xe6fda00e6b7f45765f24479ecd0bcafd9e2e738479b373301c0eb39dc4b9831f1ab1083ff26c1e7267c6902ef57269e 0x820fa5a06f6387ad2024f5ff3dd6d36e0830f08a6cacfd48441e76b036bbae5d82fcae1b9956721eee0a52daca54771;
  sd 0x106522d4b1bbc15f9192a8951390ff03e7ad0c42ef463267d21ab575887e8999775fb24dcff4747b55b9a809e55d0b38 0x44dfa1d20dd29ca3de89f13f31894e1a5ba2fe62092ff01d639d578be8b88b0c7a94408028c9d80f42a60eda07b7494;
  sd 0xe51135bb0531dfcbeb9c33595257975065580fd14b515d198d879c42dc91bbf4c0060ac84179f7e3ff19049b54458fd 0x4624d8a97aa4652600a6f7057144df994cb62e03e0ef104cab0a84aee43b9a8a29092b74d7072075f2062387c69aca8;
  sd 0x59279b9843ebf2b0e87bd911c87b61a4de50c51e3d15e1c7ea665acf34e90200a88260ae53cf9c47c15b117042840b3 0x132d62a6dead0ffde15e3f766195af2bc87df9d114572de4180876a9bee32df8a9b2d83c896014f896a9a07a9fb4c1a8;
  sa 0x13bec4cf7b43f2af7c058a753da9e3a0186276cc5d12da6f9f6f04327b7c8813efd000599bb50d0a4192890ed4dfef8e 0xfe109292f3c435e8ea611d4fd2715c18c1b2a3320beef63eb4a90ffecac546699d7aec16160624b458d8e2664de5f1e;
  sd 0x152d6bd15a4d46a495d8f4d478d2928933f4a8f0d4222b602b52a30e8ef24ddc3685477e41db4ec80a561d3beb946064 0x1552973787d6ce4c21924dba8ef7d3b6940998cfb21c75710ebd02382d213d000ad5d63f5c8a8c906e9e12011a04fbe3;
  sd 0x2008cbb06106f1b578c771cb6d41c7da7a253fe1aba652d63b98d0c64c70c3e0446ad9e90c3af0c3e74b13154702caa 0x59aa3e5ed31b37bac45024ce335a4061e598173638395c65bb6fc49369f83e806420ed5ba31e96c22043ca6f9091710;
  sd 0x5ede28bd7f7d00dca4bc2a147feb07f900c20b71f17a8387ee248fef01e806cfd59f5dbd6a7b7c7e9db76a985ec4626 0xf3a21d83869cc9fcf1eefc7683aabae627ea4d3f3e5c67ffccdd3a2c6ea51e4366ae84628b11cdde4ab494b4f793c7f;
  sd 0x5647b5efb73e7e9b172391f0751e4daa288074b947ef023566cdfb29f95d545d2bc5dc90f40a32e6da70adeea937a7f 0x113d47c9a5325f826439d3ff3a139028b9fdf6089f41814c12eee08ccefba990cc459095e42925a780523a32f09ad83a;
  sa 0x14760176b5da5b2d4327e7f6b4b008c91056172f3e47423d77a7201f0c8930fbb903536677bd9a2d8b3894abdd8d2ac 0x103d6f405cbc036e024a7e459b42172a48101929260903f835a662e01216d2e85cb94b36f49473ee3a6c3eb6d1ac926f;
  sd 0xdce3139ba744590ab5bb8b9dd3ef4b89dec2f04d412df8cf40615899073527093e3c0a95885159aedf4f6f7c3f8e2e 0x811dcce0889fc08f4ae098a90a1c4a4eb157594fd4acc6cfc1dab538ad1c6693f4461092d70857f4bb2078f08993985;
  sd 0x917cdec6b1e2a720e0ffcd536584b0f0962f6a504ac5c091e63945b263870f5e8feb960e52af36da0471f813c6499fd 0x4c964eed6f04a2edbbb67d4811f8977012827373667666d68ffef062ea6efcd72a4bea82cc610f7edcff6a41efded4;
  sa 0xd5ca6449fd75ea23d3414c89eaac2deeef3373bfab8fcccb62a3f975aa8e115addc1a49fd93349cb45cf6d88d27c48d 0x6761defd4f9a7fcb3b17b17d8ba4cdb67d3bade335753b1c80f0c2ec95b680fedd0c6030db7cca19bc57f925e9badc5;
  sd 0xfcbd16b6fb9770b9029e9834f7c4ca331569fcbb0fa3f6f78863e1669d29490008ee04a66e9dddbc2186601c9d6c12 0x2d5699330569886939d01f14c40811d74317e6fdb9c3aa04f01d4dbf41fafbaf66b0173f2b2ab8be421fd1ba9bde44c;
  sa 0x472e381abf156b0939d9216f969a153446d08a6fdb7168c1307022da37701caf7122c8c224fbdf309614bd801c58df2 0x1d310227c1d719888ee2bda0b0eaa221b3838e3ad6aa1dc806a1940507a12938f766ba3fd24e91b8f9585e7fe380e8e;
  sd 0xa40958fdfd763c60675ad8dacbfef07faaf9de475a0bfe646782121538574ac7b67e137292699fe2dc0c4f21eda5319 0x121e7d8d0b3ac318decc95e5798f911eb130d4b5d131b81bb37ed8e9b1e07dc4de9ae15e2f1bc0ea0f8297aff643408f;
  sa 0x1a8ddf4a0e35a95efc84971936292bf3eaf0372e8591e64f08469bbb7dd42a6af5711546bef7d6c6ec46b7b9d880943 0x12e37270de32e8a1d417f41a0110b5af6bbf054b5f6b5a0cd246f777d5cd683e1136a4eaa87342a9d3c459f12c766a45;
  sd 0x1587580ce3fdd0061dacf48a47c5595852655b25dca045f3cc99612a5525c447b75998c4cbdb4199dd563409b5c1df69 0x4d1de84dd7cbef5544357b1d843015e1fa68e71d03899ac11f156bf5321b264342112bbbc740875831b59393d11fab9;
  sa 0x18127d3917304d6d5533d5f9329368edb7dcc637d93135aef070b7fa533eb1044fcaff5f607d35dfbd8c27be7dbb72ac 0xab9a2b87d091da088f5d349dbc2e8e12370eb7d4f6a047425c8c0cc4def54eba87c399c88bdf240302c399cbd5895cd;
  sd 0xb084f778d0fd5b77c832bfd351c3ee3a8e2981c09016768a8bcc807284c609dca273a1630a40d9538cff7eef77ca6a4 0x7fc7574f4027c1ffbddb26617c19564a44d7af9c4dec5816285a85f99b81e1d85a30ed74de3605e3978b435e6968148;
  sa 0xd5830ee8934e0dd3c081c3cf8fc007cf5bbb5d14bfc3ac01dedd4ea59f402b2cefafb055edf4f5b686050009fc3461f 0x13fad265dd455635281ef7050215c81b711e0533b4de69320d842f4fb3b8a7655fb9df78d90043610b01bee7f032a3dd;
  sd 0xa85bc0fe81d084672124b979b91bd92d919498bf178f8a3eb5589476a18753ce0996b5d394fad08618d0f32d696bc6d 0x1615ec3c6a10318628cc1d94c448c40c1e5945c212b0958ec576b453810d73d4475aa86a97feb2ccc7b2941a4c8291fd;
  sd 0xd505728f2318be43474ff35a881210f73578a53f77768fc943ce877f4d90d139b0af23b5ab05b9822e2e8d816807d93 0x15fbacbf38ea83d64f438d1d4db86506a729c7dcb687fb63eca0bdd75ca5a8d2532ba5f5639e4e0def76fc876d647ea7;
  sa 0x154140d13a6dfd69b5f11324ad1d08d874b907b48f2d757ff9243e2f008e0edb63f65eee448170828d6ad7911215fcee 0x6ca1066b1d6d3f35884025f6d08eed65483d6cb84149ee70c4a4aa060b17332f9a5d4e0813cdbd23204e1b1b7a6a363;
  sd 0x10a680d487b5622519af77fd02f512051367aa8747c12622a911d6b3f70734f764e3604609d459816af6692d3eee8e02 0x5483ff329b8af135fa6c063f3f693acfdbafc9da93150285ce7f5a311c326151bd4e4e98eeefa8ed75105575a40f45e;
  sd 0x11d1bd1c6f3cf115fc86ec840e5ee0004d044cf7f2dba020bd8b7fb794da3f8fa9e7cdd97c2643c141d36605fb89096 0x1141d3f5c9c51fda7c23c6c6dec02e394afe34286811d8f1971f1a3d27e9e65997d2dcbe3118aa7ec0b864d1c9e128fb;
  sa 0x87f1bc1cbe7f15d8d20f2742480a4a7c36fff5379d5507fe93d3ef244aca7dc6efe34652049ceb7577d4757e86961b0 0x24b21f49c58fc78f95c033f2a08197426012794129e85a8d52a166d30fe3acafca0626316880dcaef6894f2c7530515;
  sd 0x1986ffdf0cf32c7db50022561b1532cb7aedff6a22beef0f196a74bb15a13e7e97ae2649f4a43c3fe56575568ba13a7f 0x140706179e427f9fabf148d4c65af478fc5237088e9b7541357a5e1922c3b546fd17fdf6662376a296a61db454426bbc;
  sd 0xaad161a14861798b0e48a627679d8e8a2a2a92cc0fe78e95e2704376b0b3659a5a04f07dcfcf713c9c2daa406eed957 0x72c7e3d9d721c96cf20186ea3409190e1735c00b3b6e2110c0de206608f59923c531244d36242406a8b3cd6e8c462d7;
  sd 0x6ffb2056c8ac962a7ec550fc85ffbca8ee14670a5d9e51d1a16a363cfb20f41e51aea69da201eb58c5c3f482cedb28c 0x7c56763916260477b6ddbb53b0bcda6eb87b5af6b574b035b30fb9fe34e9cc3f610e5ea42ca140b697cf85f844dd586;
  sa 0x114d283be83fa3a5ef98c13c52ffdab6273ba2a5a66ba9d549ddf3450f8685eb4ed37bde7de88ddf653831bcba993f09 0xb5efdb82ee86155df861a3d1645fad931325a63be7c55189fc7f89fbab8712ca1e9a333d000378a33eb0aeefe548c04;
  sd 0x8444a9b1dc54d65a7601a8b779c1eefa099cbf473a04cbaf64cee18767f7b60feacd6ca523466a27e6037efc0358df0 0xf0f1b5d19108ae1a5efb6a378b81c4444e4c666559af7ee68cb2fd37357f6e15e059ebbfb6b22430f490bde502d147b;
  sd 0x141ffd71be264be67be64a6217c5871bfc6bdbc4b93124b03a71eda13a67e0679a045dfbf4553368d44ed024969844e5 0x43d86babc6db8ed1a99de82a29995c338a496b3f0a272ebadc80fc95c10ed55b1e41928b74673acba6a77dbf9b60e7c;
  sd 0xe4df36af27ac979bb905822f6a52bbbc3f83726e85f0c49598b58649ff3f39c059b85c7086345d9937ff1ff7b927e1 0x16a387baf43e795dd7e08ad47370c0f7eaa9056f8fde05c3c8ecf91ac2735e9d8c356a6339131b073ed66aad4b4b64c0;
  sa 0xc83436a54dca77c68933baf5db959c571101c5a503d22be8d3d886bca31edee526d5b5e9b15e80962e17f9d24926886 0x4c52048ae6b939a1edd0c0cd6055fc3c7231c1cfb9cf776bc484444e27bd38388c22d55efe7f19b0a6413156674e8cd;
  sd 0xd77566e4f641147229b786f33602a9bd3091b0b0c47d4351aa5755b9b8a85b77fd72b2767ab4483512c0959ccb12817 0x13241cfc153384847802d73d84aa3a2a4271b0a5d890c125e0ed99649acf47d1839bb29603f50402bff1b78b10a265e0;
  sa 0x184dcc58d758e8dda484dd1d77f1bd83801829cdba0468993ce085925f3f27d22acf229a274d917964d2b491fb46cdfe 0x15ee47c1aee9db2016e601272c2737f16d956760449aac788861dda6fb4d81fb58783443aac08ee049fd0df0a30018a6;
  sd 0x19418a1e9537c90724dae415d1ecf1fbaed3654cd0a3177b0e3e0537952cdd1889c968a84d6404d06ce9c887d367af02 0x9b488caae0b43767eb058c2d1634a5d3fc91c9c4be239f0a4f6913e24e12239fd4f807855a1747e0dfbb334532e5256;
  sd 0x90fbbbb7a2bfa64e661b8da7ed4c4afc28290b1acce24baf8f4505c7f3a89c940b375d25557b11e272dcc5b3ba137bd 0x4d093045ea7368df491bd40e3549366551cad3d1ce5bf80ea21f958aae35a7fb1615d8862abc70bd6a154cff1f02427;
  sa 0x91baebbb55945ff063a3dde7877730c9af4aec0002d6d837fd00054dae335d8e43269398d32b834bd98c555c8fd9482 0x91814550d05b61d58d761d6543b832f6aa94434be2ee0846ed4afd60e3fcd4cd5935bf73317af2540950edacfc2cc9b;
  sd 0x17de84e25f2edfa57355d9fd5d21035863791c8de5eca2753cad788333c78d832ec32ee9928abb4487ef3f499c088f4 0xc2faccb5b5e31590f95b8f9ada5ab277b82c836bf2f9fa801d5cd803afe54616dc8586b3f0a2d5e394b79aa1369ba08;
  sd 0xd17e70dae00c3f4cf94a14310261d8f1e099b7e75808a6776ce0474d1207b423fa890551dea22b6e2f1c3bbd5f7b548 0x9da4ee9d67a7b8c799fb7b56eb8c007b4be335068f14b97c82d45ac2344994d24d71c67caa784a10b639f1d48d51bd5;
  sa 0x2b96a1623b440f98761c0fda85c311f2dc7220e3099a75b8246a3a7f50aa849e59dc1793ab3baecc383336bdf64aa62 0x63daf0b42a610bb7670957ae774b96d00f047793bcaf60c9fe4339efaecf9549fdcac39c253c5b1a00e2f88f8119b16;
  sd 0x1069f7e3d9754adf84366d8220564e732add2fd6cc456cd7d936dea869b1de832238d7d17e1a6f1030bd241720d667bc 0x3169c9fb33c72ab8473837ab625da563d512fdc11ff5d6863923a98ec2a1067e016cd9a82af6b75e56bdbfcd4665610;
  sa 0xd63b4331166b95a0461e41f0a43ac06be27e4baf09eeace4e9cdbd5b3f75753d8e16f2d568ffa8def942bf8902bf352 0x12895327cde289bbc8fe67654561fcb182e3487570658ff7fe33a6fa29154395f922ddf56292f929d23964183a5d2681;
  sd 0x17b517beb3d4b8b3548c4f3b77becda71439a29e51f8bd27389208e7e8cb5ae96e53548e74787cf5eb1bce360f959554 0x1756333f9d245a43281dc713d06167f10da349d885369e9172361bd69aab0fc003619e57b58901c008a43a2c884b1268;
  sd 0x8247ec15eca629b881eaa3a8265e5239f735802272fb8a9d45ea572dbc421dd9ba268cd21552ccd38dd8a0c9a7400e3 0xfd3f1f018550d037c493c1355802c5ec107c27065014b6691fbce585fa8d6c4080cd63f9cb96f9029ff165bf804a740;
  sa 0x6ac7c0a69a663791f8503e3e2e8844270a4a9cf29603c2ae0ea2fb22201bc8681ea13d00a1cfee965178a8874771502 0x2b3df6e92c11e09c93020b96c71421efeea8071638167980c82b5c1c9ea7e877126150f8031b9ea98c0f1bca5e7b32a;
  sd 0x10d328f0c1094454a6d811dcc5134efe825d5272d3518a6b91632ec9aebdaaf01722b5da723e160ed4df6bfee41c0ed7 0xd2b8eaba4b036a3e8f6d8346da0b57dcd62cefcf659cac008328567612739b74fd3a0c30a3ca3d5feab8b17168b290f;
  sd 0x3b598b4265cf7112f862ed50585aa23134f2601ea63c8518a60d0a66ddd4c3c9769d3e1523fbac19ec77bd7bdc0fe0 0x2a5e705aa57eeac2ad757ce6af6134135b261fea8cf52e91a65b3127cd48de3ce5a8c39b703c8b80f0e98b9c7010eb1;
  sa 0x10eedcd9e79d706e1af8156c3f62bf306b3663cbed66567e0377daeaade36127db7878ac864b0e253f67078d41529508 0x954046d0b0830d946503af0a03743a007c3682b0981da8f2f0572fdf9c5a30c69b6e1564aecbb5365fc90a5e314ec70;
  sd 0x694ba982fb4ce0c0973009c0d73ec7a3f4f8fc23de543bcf985ac5bc222cea945495054b3abd36f171d3a8a03d73795 0x82f08079c27c1581655c7e24e3cdd332c860ce46b9b288e2d90986bcb772cc735e4881bd86a50794d5a9ad02c2b6fad;
  sd 0x6951e9fa3b40353fa65deafe344d6bdd4872fe1de15aa3515f8ca8733e075be7a43c3b17631fabca7dbe17a59c9e11a 0x18e9a5ac0a6675ab7b985687f0e5fcedb0d8a5b6f356f1d8c28b47e512b11319197c5442d90aef52c687e854e6ae90;
  sa 0x49c9cc04e35a0d7c8ba9fc8563027f98c2d7cacdd339e162e4c2943fcbd07ab04b775d7fdfa236f5a83960be9b18a0b 0xf8377f567226143f9405a558045370cb246fe061b67a6459df4f6dd28fe1cb7de6e61c986b924b4839342b331fb033f;
  sd 0xc369ad869315af381b302f1346266dbcac1aa646eb97a9fccb4bfc592b1789d7d41c724f1c5223c2504d3633839e4ac 0xee877729d4e8f61cbda41d02791d61bef46d51220b482f58f7baba6393947fcde026127c2e9a8ec28cf6acc4367049b;
  sa 0x12adf19a96a8ae93188a4750d22fc834203414609f0ef4983239c80c9da9c5ae88be78cec846228a7dc64ca1505e79f3 0xfea713559ab66f51400e6964da48ca40294c57eb3caa8dbb8f53528612aa20df266427a4867070c5ac91e852d52cd56;
  sd 0x15928bf565f1c201f5815974fe0bf957a51f395954e46deed99eec94aec052a8e9812ca974a8810f866600c18320ec59 0x19a0e074035ab89df28f6e4a908ef7d4102ad62011b0adc4c0945239ed9b8601ca44c6d2e1f2fd9a2237636bdbe8a31e;
  sa 0x5e9b4dd4bfa253a191b0309b42f0f8677aac23e8573321b66ca15c0f810667ef9620a3ad8dc330d339afb6905bf8d6d 0x5768ddfe5bd1f0f20c7655ceac1fd5297c35288270e431e82d26179a91c4d3e7b6d543a287b9a85933d9bf49577dd45;
  sd 0x3e32f1eba3ea4e6bd768c6e9aa76f49a25f0b0aaf03f13f0039fc25bdbb0a31d231e4ec0d7c1e8ea52143015ab200fa 0x87fcccec21ff631742f78ac072c8763ae8b8506215bc01c379545c0c162db39e5e4cbb49d3e05a9058bcb4b32d2c54a;
  sd 0x24eabfc66ad698bc86355e16f068d8b7e73ba33bb7e0ba9e407516b0b0900cff40d596f5647303bc4828471fde4d575 0x895d04e048d9028e2047af1e15a1cdccb803673c2f6dd86309de1963373e1c04472e72ff9ece1d536b69cec144c40ca;
  sd 0x1492a5c1c2f2a9e6177578512fb229d23607537ffd93ba82b1699bc4b7d8800192ca6145ba493d6630e0ad6a85f9789a 0xa5e26f7ab5a8e881d44eec4b21edd5a0e94383200740f16f4fe2d8a612a96a1e3ea635bac8f787630a6e2f8a9ad2cf3;
  sd 0xea1d37790c6ec5dad91ed66f143e1a41a9eddc3043a71d3d67b012f7ed6fcfc63c808e45f25e030c9b2544f963c9f76 0x11dcd6f56cee803bd59ecbadf7391dd6654a057010089fea88e543a06ed841581d20c69799e3feb1033f2a6f43fb1476;
  sd 0xa66010b0f6b57e8f86d8ad666f253fe692bf5b4a7565227688c2612f72810e34a4daf6e46253a6defc3c63254b57ef9 0x2e449cd0a3f66f269efb79ab7c6e2c4a2ae7c56527150ba8f2981aed5e68a3513d21fb84fa86428a14d4c0871fb8406;
  sd 0xe7c9323c502cb982fe5f3fe6843182839616d71c75e33da7aba21076b234dccf1125209dd569d183394be3c166f28fb 0x15c68c0d3d3b6ab7db2e097a79fb812dc7318697ef09c9d5f6f82333d913bfa0a0ee64bf9d514444c6810595d3eb08d7;
  sd 0xbc7a82d9fd1f7d9494fc99a1deb88b75af4eae806329e27e625e60ea1274ba7ab2d14ebd2ae9e0586e8cdf852585342 0x7fcf44481c65d97b442c42a37bce7aca331197a3b4f503bf1d4f797c70cb952abd32479e561fcab7f1d48ccc31909d9;
  sa 0xab8734faa01f3afc430cbaf0f9e469dc17cc1257490d9a5507227926f0d0d8c6e20d620b6c9822998dbee712d6194e6 0x32664406b6b65942aa9cf58c7094bb99a29fed1de468877405de66178edb6ff5b97e28f3cda642816a9b02c8db51a8e;
  sd 0xa5d1f7f5a93e0c6d047a26308825e7851d54ac5d36b87fea2854459f60c5bd300b2bd51cd62d9a4821be430e817534b 0x40feb1def2f80d0808f2ad95243d1d4bf6df18a273b0694ca7ea6a62a1c8305ce64403919ae042e80f3d4f27c134227;
  sd 0x8e83632fa5b2913fbc9f611e8552f330b723ff293183826243409f130d80c199592483b311145de53c3460b84393111 0xfb237548f46555bfec3a61b5febefc9433e5e9630323304826981904211ab2aa30cea15ad5c368f0dbec59750ca1c35;
  sd 0x3b6616b71cea149cbde890fe60c7cb706bbe53358f7b632ad048f1fbaf46ecd7624f71bfae106b7145ccfc1dfff5196 0xa6e2c76795b07370a058211326d61deecd53e353c6293e92a94d9d96a4fd4feb4a67ce69e4a6f9cd4b57052a677e461;
  sa 0x155f32e87719199e347987a85a38da4a22d68e86ed497ae741f7ed41c44a18360af8bd7cff02a24e11483b41711a3d35 0xc9c26cd85f01627a95973c92b95f3879a182280bde1d2ceef0a9dd025f42fda6d8a22ff902b3a2463bfbfb7c94ad061;
  sd 0xa2336880f55c5756572d1da5aae12e921ed1ec9073c1f64809cc2eaf97309bc16b2c6886d316723696c464731ed0f98 0x146695f0438c2f4ea16f0000bf008d0d643cd577302c1a9ff5da1fc9f55abd6887f6ea1361e85ab4a10f0ede3af1f459;
  sd 0xe9191c83ac9fae9d3ccd782553a44307812c561473350312ac8bfdc5be36a350dad534d9d53d67ed2face2396a61882 0x918eeccc01fd5642c3ed8744c4280a3ba8b35d1f7731e68419c785bfeea49ffcc733e18b0a034ce4759f2005fe8c429;
  sd 0xfd11ea9feb9a5c106d4426d1d021ec0079eb5fc67dee31cbc869e3e17683f51155559e6a202366d3249aa1116550b37 0x13f7838ea6e1488ce3a4bb927f60cf446d3a80189dda0e7e97371ae3d6d5fcbb378e43b0ab9b5d7954e1f537cab6417f;
  sa 0x5c4824bda3e5d18b3165c6e835ae325548e6edf7c0032b2541b0891f3b419a5a3ef318d0fcc9e0b613132253ca1a6d3 0x10dfd396def05c59cdc05aba19a8620cce06d9b4afd483eefe8ed6a21cd4597f3d6b89ae4406b08f2c2cc51a7e4f5a5b;
  sd 0x9ac4f494d39a73f9e2dfcc5d6f1a06dab947dc6ddf5c669eaa5c5d202aa6b6c7cc0e85d1f9211abded601542e3e5ae9 0x1039a8703602a8e56204b9b51a2ef2b1f72ea85f69154c31720e51244c1296f7e209267fd3864e18a90fcb3e6f146e36;
  sd 0xcf155da664ea678bb5f930a6296f280191fcb32f6204587ca3353e6d5158314d8bb277483e8bf5ea0ba2cb0efe2d5b2 0x63086c6995203765597a9b52bf9751b8f454a10d37c329a432307200ba42c505317db3a4e211d6693a9b0dd8f687859;
  sd 0x98df10ca45635d18e753e4509d011b356f99f53800ddbae356ee4bcda0456c53f2654bb479852840f770d1713715e4c 0x1447c4d4e7809e04f553773e9954c73f0e44921d6502e7e92528e18de2fc22051de48f5f78fb48abf270a48c3b7008f7;
  sd 0x1e4185dac25de91c04a4cab4bf8026bdf54072d81b5104da742332bf847aed06bf389fed02fc0e7b2a92478236c5b8b 0x6ad6b899c66bf5b3e661ea5cbb7788a95ec77fff0068021cac160620ddc16c264c78cc9d543e0483c30892bbfeeafe3;
  sd 0x16558a8b57a6bd3669f00e2f5249ff0607d751e82544f0d065762e5e3777d96c3d6643f965d2e9f9b71bbbbc682a4ae7 0x1f1b52e7d539c5b3975c40e8d40153f584ea2fa0f20734fbc0e94614daab5de2752e4bcb56037bd40482b036d71979b;
  sa 0x43b0bef4df8f5fa4467247c6dfb6f3c503e537de6ec9aee05ea76eec7302dc507ca677f2a7e432b36c869611e23dd5a 0x16021c1206332e503982b33c2a0952b4e5f01ccbbe479e6c1654b991fc7ed383328f17d7c1f78b6584629bea109f8d6c;
  sd 0xee3c855998f15cc2366331f1080b77b135fa6d39bf0bae2714c89fb21a72ff2070ac20bfdc360b2ad1289b374e7a4ef 0x1319faa26ad515073721d82a05e68b40c16ea87278c0297dc7f5468808d3b72ab2f02a2129605bd1ee262714756ea0b4;
  sa 0x10215265dcaa42c6bc6bc3a72e71372051eef7f48bf2160d888c693e5e5145079b7465a784499619d8cd584121947506 0xdf36350bf68c04d2881f6a61dd0a670f8a106b1ec3f5e6ab52bc592edde3845e4fb99d322a03d1ebe02e56582c7f0f4;
  sd 0xbd8f5c19171fd1473483c76a0938a9c2e3c30daf78948af3c035422704adcfdb180baeb6e2d47e69ec7db0f905d123c 0x2d9c4a12f7b87a2f76ea4bf606e1c42a2207a59d6f989bda67dd7c07e78376219a85089218579e45cc809bcfea3699c;
  sd 0x19154f273894ed5677e4f450e71a4aebdc5337952552901cda124db9119532c0f1d9fb15d01847a96489617c2c757d3f 0xb45e0e318710760f34e435a38e517052513c161d0f73ee101fd5ad7f49a6ea34dee29e3e63e05c214954d6012a512dd;
  sd 0x58efd0f060a7c072e80ed2f20664cb391b3d66935a89e5395fcf301547e3c54bee456861e70d377bb1e3c59afbb9d6c 0x13b35363431bbf738820e76541a7961293726496c6a9968f85c4501963546d14f88190b69a398b7a5234269cdd829df3;
  sd 0x19bbf556d07337633622211b090ba5b5b03db23659e29d731ea56b404c24ac88e5d933bb819a981705befb99750502ed 0x16e356f2bb103ac5d329aa31bcac5e9dd7db4d18aec55518f87bccce8af2a79dd467523179858bbae9a30b12724b693b;
  sa 0x8c12c568b5ccff48513b2ee57acd10e3051ee954ec0286eab4141f50ac71c2215cb4e582dd3881e96da5522d5e95763 0x3b6e5eecedff602521ebd8ed2eb84d4f7ec4338863b89ea6e42512113297fa53728b34212d8d76b6f48d2cf8ad46788;
  sd 0xa1bdf28c9dd0a4302682510a0fb3a87613fe0f25ca3fbc25c87296929f44a60558eedd620b301db32f567e0ca6ccd05 0x447ee52f04fc8f3494c20557d30013fe67af07f1d2f02d517bb5d794a2226755046fb5902a28d3d689bc7bbb4c9bc4a;
  sd 0x64a4df6de80adce3f11b390d2f045a33b3b8e8773b44dcc142849a78652f4d251c143390f051a15dd7da2591122a133 0xab2bf25de4b9acb07ad493b88e5d860b69c42c7152a0d1b0e1a6e38347bab0aa7126db5c39551528e36896fc6e7449b;
  sa 0x3f9c96f4b880334d28b1017c629802d20f08880d8ec507fa6fafca1a4e6cf99ca28e27d8703c3a1af45555a02a836d 0xd01baa3454cca93b9f7245df1bdb1dc745cb12ec4f5996f29d19b6899ebaa99ecf6c4f4ebe22f8b4f5facaa90338955;
  sd 0x8ae20863bfabf5d62d422adc836cb88ea8062e69e330929d04470114f6ca09f3a77f1031810708844544e28d71cf9aa 0x41c1d66ace37a5c8c6fa3fbf8b1635561def8c4a218c5006cdd79e4359bc0c421335c65a593a727eae2113cc1ebb47e;
  sa 0x190a14dbff2dcd8fcf9d6a5b93d39a6149f1d999e5bd5e51b9b7802f668804fafa7c59d05a6bb5cec3cc817c3970adbc 0x88209fbf7f2c5441685b6989ccbaff4460a0c4a39004164b24e34b1ac4722323890bd149f0f3d7863fd66e762afb09;
  sd 0x15921ca3934fb0f5a70a5ea53260a57cbd40b5d9e01ef94a5389913d5e8189f6aa39ca46f5f51fe8ded9832f13b72732 0x19e0ebe6f5dd8231113a5aa23385267de3ee693796b3f59eacaed5e663306b7b722e5a9f85370b9b85929df28b07b48c;
  sd 0xa96c25fa1946ed70149fae5e27af122f8764474cc92aed642d6a3e5f6f1fa95875ad27f07276fdd0913fe33dc38fe24 0x17d5ec3fa99b11cb9815cc0bad775cb9d5ac38a9b9b0dab4bee31e7fd54ab2ff63c49c30967c0e9430073b48de1e6b;
  sa 0x17934880d48950fed928a4ac55699d058e9d61023c47f990343779951e2e9ad4f85af120f15c2fa24a21cd76c2f4aaa7 0xc0019ec3fde63481a1e0e54d89d7e1f98b88cdef9bf527fc200d88db9efc09811d7fd70e0525799af3d02b2116462f9;
  sd 0x11624b8139bcadd84ba59377d903a816cf96acbe1cee1eeeb01eac1d86a0b5213eba67c0f2e8e60756d12ea947d32547 0xc11a8dbfbf74721f0a5437661fe98f70370de27967e5624cad2c74bbb108f121c198a334385f7faab83e155c7761676;
  sd 0x3dcb9cba957e25dcb240188f61bf490ca10005ddd70c07f866e213e8f6447348877e04a2add6e01bcf13a46e241bfd0 0x18ec55ceff9fe3c552a4c0d9c7defe4fbd666a813042ba628d6c59ef628b019502dbbfb49d8005bc88e668c0a0687905;
  sa 0xff675b7de91d90b90cc96da704982952c9f4ff92aa649596f3ef14e6b3eb81bbc47ecbdd68c6c87fbf5c522cf7a1183 0x180d37fca999def50a5ac5a1e85f8bc6f5031d8fcc213b6d46ba3cc4e71d8ffc8971547aec8f826a89e0587557693444;
  sd 0x7712f3b7388403bcd53c38ab4ba5f00a589b9b11f25328c755257600e89b840f22e31308ad93d7f492f9e8de6868708 0x12cadf2632b12456765cb3905ec8977acabd500843e7747b35af4bb2983a7538ca4fb375d52d2d72cd00832ab2b57ceb;
  sa 0x865da222908db82164be033bb01dfd7dddb8fc2e9a5ebf1e03026fa9672ca99d7d7ce5456e3793d8f0d478600165f43 0x1291f449b31e22076bffca29bab1eb3cf873140fd859f8d6a83b859e90ae5e96f92690bf4f27789a8c2cba09e4c2d032;
  sd 0x8baac1963ce94a32150ad4da93162680869cda2d5183eb5c54083b1f052011630cf59a416cd1a14738e31b54c6e29b2 0x1447e652603820508adaf28ebfb0d981b501a850ed67cdcd8f2e85990702bb0afe999871a6764cbcfc04941a3d887480;
  sa 0x118e187572fa04fbfdc6bd6fe6cf495e1e3902e9a6807f0a46c3821c8213d5f5308a20e909967f801d7112838d4d9619 0x13cc92f2be8f82bf3de500403db408bb3311e5fb694c1b5dab66857bddf8ba0691f1b17081483d4deccd4deecbc6b647;
  sd 0xe87603df828181a9ba8797aec7e48e7340a2f9a304d0febc44983dd318adabfca42654fac9ca73ca0a14bd0ba963511 0xd1a0689b4bf65b1197cac049f504ee6b3584ec8e95236e834a7d9137fb7a9744af0f493df736e88c0473e7b08555be0;
  sa 0x19d68f2d13c67d4a686d5ca5d66145f2369d5f7c79024cfd6d293c325d23c44cc3708c6a5b38fad2553815ac9eb2d2a4 0x199ac616b5876017c0589ef311e82d55aae74a2ce5d3d8fecb2f195879058c952f24816e5e3313bcbbc5449c01349d46;
  sd 0x72951983395172b6f1896e5e7ca65cdaf64a0d7b75c94bdfa41db7a7879fb7c1a0a4de6c134854fcece7ce465d5466d 0xde092b5d4be3ff2aeeb065d647406bfbeb2cabe87d52b168d7db0be766c428da13a90046ac3ddf13e50d5765f3626d4;
  sa 0x19251989e29635a41db759b64a479c192fe0a55fe0abb656e029dd5556cc16cfa961b6493d3f68ba7d22b6f55e486973 0xe024814b2b1c5a3b767455b3af2695f9fa156322c668fb0123471c7cfa1eb302d64e66d047a106b20ae547d26d12964;
  sd 0x5901f1605b92dbe15fba5b56cc8f61f59328cdbea4b193a336ecdd9091dc6fc91cb8028ea23e231a155fda253d5459c 0x9fac04bf39ce95c6ea12b2641c05014771325dfa4aa3f511ec1e6636ae63f768eea9729cdfdae039d0fb4daac605f37;
  sa 0x9ffe7b1a064d4b07b17c479caaa1251225cd0b39bb094bf4bc0d1eb4d9174dfac818d195d5b87a294a712f78df8938e 0xde57fa955d4168c55a71a22bd43473eea4c4826e011a6f2fb2f10335fa88b4e50764d78137ab40142fe0804156d0b6c;
  sd 0x141a022bed25b076240a4791905fc44523f2a6433cb4e571336da4a927de745481a712d30ee76de965e13eb2a7d63754 0x16c73d5993e7b620407edd8cd735f0d44ac540ea29ec390db75598ab10b66f30342677d0bc79f6f1338c99ef18dfd54e;
  sd 0xfaeed696be6fbad8df49f8fb6927ffd9a03d6cd05bc65fe261561a9ab77b551b53b969096f51542b767571b1bbed375 0xed8dbc9b9752caa891ec9373c6360f2346c278b9c3d55c26488046e1d079a46c996f365b58c42e8b54ca2d7b6464151;
  sd 0x2d3ac2d1a2c4c5b72c1263541101dbc5ec7cc15daab0cf6e04258c7ba83d4aab958282461a212fe4e89cbc28299429c 0xca6113f4d9e941694b1409f56cbee376d327a7e5f973e3bfa76d7e99d2e9be1a2d5a9414bdb088a25ce165f6f3cea41;
  sa 0x12bc363b89bd62120ab692f4e11b43eade87c44194e935870e19faf348887f4b2196985d0bdbf36c6e8b830fcde992f9 0x738de552b2635173df45cec2be4517ebadea190467642b6d7e82c40954fbfdc97bdec9ac4902708510f00f8ba1a976d;
  sd 0x17679a8bc378a9e5986c99f038fcf2c2b61b17dad267a88928a4b1c02935e82a1c96ebc8834c682c07093ae5665a3de7 0x16826fb0b47804064752493568eed04627d0dd7b911243e05bcd28dca00f122e1b9824647ef15c7ced84c5609c3fbbe5;
  sd 0xf978883c6a2b74cc71882475805129e590f16199cf413e0aff71a23ac5a7d8d3e095e88b26268b8ebb25f82fe63adbe 0xbf2b09b11c23e6d2a858ce5c93551c66fdb8cbea5a8f579f702ed7f73ba7c5252dc4a257525c0e3dba89e8c2c2c79fb;
  sa 0xeacc5622b16e649d5f7048e767309a3c183780f321f59fad2d8e197e4091ee1f357b5a920c65934fc2ee372aba00aa3 0xe55a6ec3e1a9a7c263bd44cb6f7adf886e6079dfa9e659654753550a22ddba03b5d8d3dfdfe0d9479d888893124ef43;
  sd 0x864308b4fe0cabd42ed925b8b8a7175a6ea6a28d7b0609ec2d846e4463ab7bb95e20a9b8792335d30ba81dbf4dae256 0xd9fe1bb4c49f0b02adc2f4a76bf87a1b9114fc51255767ba42644eb557ec1c035d1d239ab6eed852fa5c5cd3e781f56;
  sd 0x10839d3a48c9a765f3685c1a99553380707601962d8c68256b0efef32f61a43dc9847d3bf4c37cc9a1d5b1dd4f753e88 0xf19f06289fdd571b1be737fa4fc2bc313677f2e9aad0782e2982457863c3c64e5d75371eaeb0efc5cd4f33075b2d6b8;
  sd 0x1eccb1d055c97ce7a247b2793d6612d97eaef7f2fff0d5fdfc89d5dad656721b6099ec7394071cd86b23ad9acab868a 0x16019228dd6b4e0d481531a500b61c34b31e840ddbc481e203f6e7ca6a8d52f0c5ec9ee912483add42d0d76bf692ac3b;
  sd 0x203a8c8206313aea71b63aa8be386c030e91d2a375b5d3d8e4635f859a3940097335aeff7d6f8054eac6930c602e271 0xd5d7f07e16763352ec48fd7dde6978e923aca410c5a2ea9739a62c3b2fccf8d9434176e9399d9bd0430d6ef9b2404dc;
  sd 0xfe15fa2cc800ab94677622c2d88b30375ae290ac2381b4bc4aaad3631e2960b05ec627ff674a859b3a7b546ec84abaa 0x81d02b96c038b83f34e0f2a146e619038b8d061a737a8217f04855cdf50d57fdc0f4ad10e09b44c9479b321acef0003;
  sa 0xcb31477a64f4f33ac5b1fb47f36862dfa670964381a776aa6380bb4e738799c711e01af3850cf8048facd0c607a540f 0x1053e853548cd93073ca58f4c39d2b7a7677ef69037a44ea65162a94c154d40c2c5c8f925f7a6c45c9d3e50f0fc8965a;
  sd 0xd358b525e6e918886a4befe92b2955502b4f5d8d550692bf527ec72a792b2bc52fef32aaf01df22a544992d3e201742 0x11fa0d0926260522a031f321c7fcb30f2d0f285a2e5da5dc67eeb5d0b68569d50f132e48856d18bdbd4cd5d231578550;
  sa 0x6337e3a8b226d1fa0f4a7a2844f98d0751d0faf27c81b4618a77302cfb3f6be8870db3704ea3cdcf30656f44628f4cc 0x10777475b52fe0371ab4fc62a633113495180d976f19032db7e3b9abedeb35e496e25fb56fac04c58de8582e76b2aa43;
  sd 0x6cecbf0055b24d80fb9edec81d9524f138b957012c16d696cd10a8d18b82dbf893fef0dcb6dfbfbc7744ea7b6dc7f0d 0x130544c69a03f56e19c84088e95d064482f8eb80ec1406a885380c9a5dc99e7d580ff119a883a23109c93564d4537ddc;
  sa 0xf9a011292603faa4312d743f25cf696aca0f32661e9414ce3d5250ab606bc041722dfa4dfffbd2b60a3c0507880fac6 0xb9805bd89b6cf610741997936e636f561e61353fcfc0609cccd15138349d5aa6de75d9ed498c677904b5f13ba2e76c5;
  sd 0x123c1459d69f1438c566cc5c0841796ca9db46890d44f1c28bb6619a81ab61d5fac12064a09f9012d65c2996380234a5 0xd0df0c861a419bfe70de5aba996718e44448bebcf319001f20e300b720a9b50dd7e0b3b3fbf96c3fb128d720c1cc97b;
  sa 0x11499580b57fde57b43ebb561a8d100f55b2cbfd25149734f29750123e770d4aeb59fcb6db33a77940ff8c7a17dac817 0x88dddeefc837c8ea1a4c05f0f2605d3b7ed9763e7db5f2c01442b16701fd1205b744fc9b53f42fcaca92b627deff6a7;
  sd 0x80296117e8ba54540d7e35f6f95175a17a158ac9e76ea58c93398abdefe283439ffbb9863430ecece44091238cd6663 0x905fe93bea0960f67abf37e0e95cf18e540f1f3eab5e7447aed18582c9a79c177cfca0b000ca904b1306ffcdf223ef4;
  sd 0x184dc478fa0dc2600f0cf585d86aa40f3cbc885412ca34cf091fa55665bb06d7a0c70af11b1ff9e302584af2e0265d77 0x16b2d15242ea390ea62585587d45ba276739214acb0f43689e093f9ea7293326adf5b6567d56d7c9884385e98256584f;
  sa 0x155346c71af817bda66d21033eb6dad99a87cd74ddcf0e50804fc50c72df63e65a8506448db133b82c2e824b8b26f621 0x107ffe03ce82f3fd3f42a9a265ad5e8129dfe3626f3f67dada7504bb030679506119433f1bd827b7d8177a35cd743604;
  sd 0x6c64cdba597845578ab112550323dde8883b90600f4323abc25448d06b79535eb549af3490f77b9859bd5860413d1a0 0xdf1fd6a59422fc347e85053c1a8807baac60736e8fa29ed3b4f42b5b894a531f392bab837483ad891d016c904a12f70;
  sa 0x62f86c81ec791cc2a9ba3ec99021a0a274a31ad2ea2f461eccdc43dd57f84f8a7607616156ab76898e5d269fde3e883 0x170165d8a88d9abd9e681f87de731ea8303872dd9851d4905d0dd51f66d007a6d03ba9c2069838f8d7e0cff791c6fdc6;
  sd 0x4e7484b1b75cbb267d6be94f4348bab57593fdc35b53161bfafc586214c32bb684a4cc1173e761e015e56b7f4233fb1 0xe891ab9e9d6471efd44385697441e6ad1837de40b58c36568cc9a56b8d47cf936a8031de4d9d4b7d56a97d557a3a171;
  sa 0x74ffedfc1fc21f63bd08b0ecc7e65dc9d6f911c5c9c8f620cf9f31fe243beda0609426f82563562a66e78ce6ebe67a2 0x3ec06216534cde5d940f4461929633234d688eceab61b97d48a1f05d78ea24a2d0888f8c7954b883872eda75eeb6436;
  sd 0x18bf4f9b6107ba01e8b9797e5f9f69f23a77adc72ce483f63c3dfb6c48ba451d9e74504c8b4a852e4e2f9c3dc4b9bc16 0x811b066361f02caa0b8bc33ceaee138f315a384783d613a635fe1fc506447b664c42c2afb4af7763c51bb8b9bc79564;
  sd 0x36bce7016477cab028507c048a4690edc29569cd24644d3e020dae3acf22a0d189e00aea42854b630c39b4493886e16 0x15f0b98bb869f030be8dd1207ae7d85c167e0151853fcc1579cb32d5506a1fbb9d11c6e69000fa88774fab1bbfad995a;
  sa 0x17aa74ad589f1e2dca442def48dcab1aeb8da7d9a9a03abfdaa1c91751af9bd2aafde45938bce7f87b3f5af810a997be 0x1521bba6072a2c930f4fc215ae1411c6e217b0ab907e7ae007db3b4c62cee0ffddbf8f5c813d23d732d849cd607e11a0;
  sd 0x111d05b92e214f6ac1580d346d3c8420e52a32007dfa881d6f06d265833aa2e8d6ad429f1c4867a9e8b52e2a7b54a721 0x43870bb981727932843f7ed403fb85993fef09d56f4551a6d75f1f9c7afc699650a2a4a7099bc4215311075a540ad0a;
  sd 0x16666ca6ca26d52247d09cacf751e7f17b3da0d439a7f34956c48be5d5aecb7526d993cee1201bccbff93f5f51c8e266 0xe0d71a581a6ea6fa5fec6992c26f3d00fd79b06b5b3089d339819290a75856e3a90e6f58c8abc61a18a3a96b7b4ce90;
  sa 0x86519a1f64d8e62966c9de52b8a8fc2e157d2ed7c0d3289396c77d9b10254c39e1a30ca61fb895deffeb3e4bbe2f309 0xab19f2fdeb35312e13d3941dc9702bb0fa136ff66c8959a7e679cd838eeffc50c51d2709138358939a8248cc36c44b9;
  sd 0x1930769ff3aa7757caf679fe09f9fc35293a93cfbb6356f1bec9d8bc927336534f3ec6f0a300f53f6a5a9dfa889c99b5 0x6e6a3b2811225d9ab05a486ff2cd1222675269a9fa1a16b0122d61a0495c1c6995fd183aca9ec1c7d156e0afb894101;
  sa 0x1243844844ed77b6d2b4389f4711faf05d68f342291f3e8efd35167912ad57ed585dd599e5d5ed6eb3c7a21feaf58a3e 0x72a933dd031e58c3594e1349d54794253a26cd2f5d67eaf5fdbe758382b622f9d5e56f0ab351b35d075046dc3700862;
  sd 0x190f187d68cbc801bca6cfd866ba6b9ab86b15f61ea84f4df57706d65b10d708e521f478e876601b2cab9f4fcac83ff5 0x153df689dda2387813e97afeffe6a4195b92d7673df53705cc1e4bdd4e7fc47450b38f8b59feae87790124a136d04e2c;
  sd 0x136744ca56f8f702ea1d7f83a191fad0144a6e5b43725779d60ff786e99e262a743c7b329c9fe30938b8a4f1b4c908c0 0x17949f281e8b82e9132234a3a1f8fba9be466a1afe72c73f681ca6d8f78576ee5d683678d881421e9d0426d35f551539;
  sd 0x1915eaedba63c5d73554b7b2d6781264dfb110d13234df45bd5a9eddf02f9a68a8f2cb905fa9e9d2443b567a52b0e1dd 0x160d993bc8304d6234852c8b4c55b73fd23fa94aaa841dfca7a5ed74a2a853e8652e4c90cbfac1026a6d34250c4f480c;
  sa 0x10874adf30d52a33aff6429ac14cd351672e2461a54ab30ab301446adf573271ab8df3a527563cf3a3250f54337466b8 0x16a7e7d133aaab31c379d42b800ad959a588ec5d338a438753487aa607c5e2d4caa7100378093117113200c69dd245d3;
  sd 0x4ef59a3fdcf5c452e140f39ab4ef71c6adc0037c2a17ac816d6fbb48849e31718c86d413624380235a592f1057c23d2 0x63a565bac1ca378454321e479bb9dcc997070f20aa31c4452043fd025b580d9db725fc8ebc26cf34cffb7075c314149;
  sd 0xc4823cccdc92c19f72a7ce622c8d622129d868b82b813d206486ebf7b251642f881d6a09ed0ff6e1d80dc6ac0e1cf77 0xbfcf7127cd346df521326f1e9a76b7c95181d8c0eb540eecc5696e1971bc53c9d1111ef12c053678db5e013b0aa318c;
  sa 0xe5403160baa3e8e352081ecd8886bb861b1979065d5eacd44bcfac124cdc2ef404f29f281f27a5838ee87401884c947 0xccf29024bb48be540d56fc3bfd7e7e499356a9751c7d04e20e63f127ef79dad78396b03425391395bbf0328faf01457;
  sd 0x40b324a0bf44a229922f98c5ae0bfe4f7488f1f5ab5207b556b038eb557f30d21501bfabdc5a09f6468852c03f75afe 0x17d29e14b96ea213d8d1cddee9878f109ea5d538cc9276207c245fd4b31ee63d949b5b686d172545ccea487301f7a194;
  sd 0x37f5298d4f0788ed92aee88c2c8a05207460ef24d2fd211a35f9e6ed05aa3813568d4197390126e76569ceb5fd43ed4 0x12708cc4a67765ed79bd75a270c86deab016077435d60c4f74341ef9464e2b2a1e7a2ee4188ef0c367b4cce3e87cc4a0;
  sa 0x19cfd77b1561ae93de32967096675f09b210aa544db1d826c5a1c7dea4a6d102424891e7be3081adff26563d3cf170f 0xeff1f5949e6562d291c121614b7e9923fbc38caa799e5e0706dd78166f96d239ed8403ffb15e2441c4003b3c848fef5;
  sd 0x1bc46c639b65b30afa7f85a177d084769a7ec4d01c926e2eee8919af66ea020f6110bdc8baf8cae77fc95898fc2f984 0xd692676c8fc37469a82d4a93165e6fefdd1066974cc1e7e60cc76b8a9fe5720557c1428a5fd0d52665e067b4a9e2e70;
  sd 0xb4160cff505d685ede520eacfa2319bb4926d72d685c977a32ad89c7c3d8ddb56c639e3bf4a42e1197ad2ef974c71c8 0xe57f918beff816c86c367b6aff2ec7059cf9f500bfce011b79c79ce180e1bbab23c5ea31ba8a89afc31e6086a1397e8;
  sa 0x41e059a04db2cfe384715b4773f891acd593ccb666e717664d43afc061ac2c3f1b47d5ccf0884e20fa53780dd76c32d 0x3aa3f987c4b39b53e25f6d8abcc2fbcfced33e92fe7c9037d226c16fa5e32bbde8e3e77664af1b7730c57a9ed117e2c;
  sd 0xb2c961cd4c02d2d1c0a544d0c5e04fdb62ee98d861304e23df2d54fd914111f2ec653db00fe09ffd1f1f77b5e2b056a 0x1764e78711099fa7c850dd21e41090ad38c5256e868b84021c3d26ca75fead836c078e3abdd7257c0b4b8ba11994fb7b;
  sd 0x14b9b53439d9294d28d3cb414b5246f8589799fe4e942b8d3d18d2a12c4b36b06a4d827b05a502eb5677a7729eb27bf 0x1156ea9d3d2701636b3f3d18ec8df97772357202e02ccb33e57b2516d2bc7c8c08075fe6c2a47ee30a373da88afa7068;
  sd 0x11c04aa5898628595896273378dda208a1c938e2cc08fce7c8676870d237a9b313a2a2585528ed3c485558a898c0c8f7 0xe5a872244bf3024827b82e810e9e66575f2b7f286aecaf0ce7adc748176158d1e113982ac2208e91ca1f6501e40b11d;
  sa 0xf515e6b3787bf8741c041ee263dda055fad9db65783b33dd83ed0eb781b9005272f822fa3e769a1aae8d14e031a7f87 0xbe52e520f6e6dbc3a8867ebb8870da0a6addfe39b09464f8dabc6e94aa722e51fd799a8bce00fc67cfcf18deb0035af;
  sd 0x12f57a9b285f9fff6c22cce9f0e4d603227ff8a1da5ee7ab78e2b71c6069fac58ead77fa9a03bbf9b888524710084e01 0x77ce3c6fefb00161f4444d3781a95500bc93f6e2bdd11908ebd11fea3ac58622b18512685873b885f8c34372af00f35;
  sa 0x92716e3cac2e2a47980780870d6dbb41c659ffe7b099510059a943674d36693467f70cc10cae0b41be611666bf51712 0x18656713090c2d9cc5379850c321b39e7769b2679b879efc72762e0e9d087d0860aee733e57c148f299b4ba3ebdfeb62;
  sd 0xf9bc8738ca9030d222bb0835d70a1646635b82b967d2048f03c8b88468c90bf7e00f16adefa4400e3d1dc7f6e4e5145 0x124d1cf22b426a2450a3b5df26946e6b141481f5de778cfc4ed14b443c183d83f7822b4b70839ef24087cbdc5e32b612;
  sa 0x50e7f7a0ddd0b4aae01cd9801c9b0a9dca6dced0e6685d8273770dfe34de55267e00e85bb88b03ec05fdd51415b3d27 0x2ae7c1b3b31e6671514a5e9d18d7280326275c7f2fc8a216fa5d07f919898f0293a24d44d572b1029dc4f9c4cbdf1fe;
  sd 0x12a659b5494cc09c8e79762495744bad4055ac359cc91b810047fca2ecaef15ac868532c0f6d1eafb57e64444dae082a 0x947d01abfc1597b5131d00b2d19b2339150ade5832cf18d67197a5c1967d4b43d0efd47552eda4ca4fac8443fe2a86;
  sd 0xde25e59c9201c9d5cdf7e659b57518d28e8f5fa9ee694fbb3a688d4503d15c31d72dabc777981fe8b432ffdadf54fa7 0xb123de63c154f395abe64308ca57be7022d4bbf8b412a9a20f0bf3cc46a9bc8a8c8926018a1fff3d35feaed92f5068e;
  sa 0xe1fdb39f04fd0c835d44fa803a2570b080189476487b58c4e9f8146719b7f9f79a95a735713a57a98ab3e02543817a6 0x8fbfb86afc9b8ec28da22c591279f692ad6e8b1691da6d4442a03ae62cabbf5e1e3ee8929cac49a559f53cedc1d4324;
  sd 0x12ab16637ea9476fdb301a210231394d0579afaea37d4c950a3e05d45be77446b5984435eec493e7a22e990aeb3fc0a0 0x62855f77c7062a8c994058bbfbbfda78815916eb7d412364691c356095152d90742a8169527827853d3f9d885291259;
  sd 0x1096940901c21894da653db06e971fae019b78cf38c46f53e82b155a716073f58b7a934b0e17c6c8f3d7d528e40060d9 0x5550e6af12d94c0d258e3633d7579019cffe2ec187af9be9d8d30c6e6464628936f912f5004763ca4963c11db1e0371;
  sa 0xb52d1713d008ae63b83f026bcb3df164b717339d1fc7e6839f049a6a0812f6d26019d72978334683ca2ed07c101384a 0x210664265d9db497253425e1baf1dddca98de273e8447dbcf22b0aa53d0a86ea952e7e4f722a820e001695d2f5c8e52;
  sd 0x163b9127cf249b1aea8d408b8497cf0eb3c791a256c6d1277134486d95b9e8d58e212d7364fd744ebb8ba7ac15a92dee 0x4fd36e19ba14ad78c316dfe88b64c1a45f7ec8d9bf6e4a420d154151084ced5f84ff13979aa1052846a33d9973f44ef;
  sa 0x170c485c35d0dd6bd3c2060e5a73c4a2f01da5fe76023a97805f7aebf58f65b6eae2d42efa60b06940e78ba7179027 0x16cd579f03886251464727b13ca133df5cc6abb282d7529e58d83f936098d170695341dea808ff23a1a0c002ebc16e9b;
  sd 0x19744a65d6d9667af7d0917013a2f1c3250be59c5f452020485d330beb13496bd14a55f7de2f6182a20ae0b9869727c7 0x27614585dee91deeb87b7f23ace434a57d7b2ded24774963d4c19a0255a4ea10b67d571c46cd94ea1461bbfe531f66e;
  sa 0x14fbb1e42a61e7f85cadc5b77b3d67ed38e574e87c1ba90ab17fb8a9fbfb9b013ed0bc262e978d21553be4ef68855ce 0x19658f4a99fb866a95459a5d6d13c50331ce1f2c3c40e4198f04d65884396d76299c050579811398608a6f5adb52cb86;
  sd 0x13d3219bcd29627d530378947e8555e22e2d02a9dfbbb9f2d156c90420749421292f2219eb9ac54de10b14e0105b697e 0x1939cd865bff44620c89cd9dd661271c141e992249d170d99559eebc5f3fc64a5e58acc7ba4ac5f114cba099be60d958;
  sd 0x14c34ad5d2905b88c3fee9ced2de3e3b73df45a6fdb5f9638381413b85dd490e5a4486ff30c1365a821b851e47548ea1 0x10f55b99842a92dcc69c76e9cb01fa2a99d0995752c50786c9c6709e7b3ecec385c3fc060ec253ef94c64d9250490991;
  sa 0xb59e27eb6abd56c44378b9a0432e968ed000ad2b02eb431256f0ddebd17aa3467fab76ece778d670f1538aae16652a2 0x8aa11616378c11f9550262c444d28cdd1678942c8ffd36a8f6062e447cbadf23d8323509af88844ca80879b91182d42;
  sd 0xc55f98c53d223eab107fdca36ab7fe02df3cad9d9283938dca8c6fc1a7e6cdeaf070866c28c92f19d4152dd44013860 0xe343907c47fb5ea208cbc8efc0f6980688e4167fd96f4ca6f59452d37a24ee20d74e02efaffd7f92f9282850ea8042b;
  sd 0x2ac9c36886ec7bcb55c5487f06fbe5af18ff1a71781fb6808e842a282c97283110677ceb8410ad226b3589d242eede9 0xe3a029f2fca28b2fd27e71fccb05ee5ea5a941f286aaa2044bb1aabf590d00a9d79d01a0dd910f1ddee202c4ff5e7c3;
  sa 0xf12831c6a8558df6930ac1917a102c8a496d0c7a3827b6fcf2b47e3b3de1d6bfc0c54398280b02552ff70a9fa9785ce 0x80867af4831ec6e5f38a4061e957d3320352a2a9a720da4bc4eee943ff4f589b23a6c70ac783d220d3856cd533080bc;
  sd 0x17aa14de7551106af47a6d3caaf82a14287f2787c913491eed824492f8820abb4e5445d989e5879b407f33a3f7edaf1c 0xd5795b0c56410e9616eb5097fb597cae3c27fe7d88bfceabffce411e8fa513496626b175465f69915f8bc2d0708db90;
  sa 0xce972fea691010a8173bb2139f95947f763b48d8b32f3f0b3851ec7e13bdb2868d3552ffeae83285afb1405a09ef907 0xf9f2ea69e525792f480fc3aef288a21e4f295c6f23784c1825e380139e55bd6e552666bf41b39b15fa248c91457eda5;
  sd 0x9b80e4927b12826651f4507fe7f77ff820cb598c8f01edc550b35f2ac0ad50750a0a8d19593d608657b52665cb3eeda 0x88c6886b8d479a3fe7a306001f82284d3f5576525a2f539eed73735e336978ded95a80a0ea7a8510d983bb12f5340e1;
  sd 0xb050951e208c3805090c541d5af734793e74ed97fc99f999f9bb6d8fdadac1a4a7f313f64ef9e2b8c6556238e7387b6 0x17d719a29e95aa803dc3dc3d011a02ffb1870907869dcd30b3171f014bff6e34539df759a9023fbd378a69b141539974;
  sa 0xbd628fdbce0677490188631e4af6d2d72c198b1cb1da40a9fd0a20878d4c614be31d2eb6c314890c8f5a8efaa6582e3 0x986a6f29a5f4efb5921448c82b2314dd6e95c99546837d55f99867d9a38cf13134288460e56bd1402ae78017593b72a;
  sd 0xdc9c41ec9684f419363994b069d96cc960754c3636974816c3d694a1a97715d360b847699892318fabd36d512e7c9ee 0xa85ad792343edc243fbc4b36966fc2245eb3ca714a72c730a8b5dc5f5929520e29d591a2a8d0a1e94e2120d094f9400;
  sa 0x39aa3ab2e0b322b360305a0062ff0f4cec4424f2e4eb668540d26fd5b94aeb75193f376ecf99fd119e965dc74488439 0x1f5cefdf6c4f45c7db5b430ad2a93de9a368732baef554f80e4976c87fd3f4d0251f042846f80e22189769448aab8a1;
  sd 0x1794423c3802cf55cb9e45c40be1a0812faa8254cb17bf8aa3115085ca21d9cf5914b7c07eb5f4224628a62f101d8a5c 0x589d0b27b492c0ef6cc3a8b0ff0ca311fa2358f0413f67df5204427032ce7d1d4dc96530530581b87e4dcabdeece397;
  sa 0x233b1481744d87b6afa60e71f35018af51fc7f168ba9c278ef37345b69771e3dd97fe78441dbe107f328766d2edf37 0x12cf1d3bdfcaf845081f2053f3003e2c01c059d6ccf9d6e6e35d03748307d34d47a3aebe79148402addfe879561e94c6;
  sd 0x664c1dff6fdf37b0873c3864aa8e45771e7e32426be82adc6ae4b2e2a9515a342ffea5f668665111f13e2a7e6568ae2 0x6634b0a455a2ecab741c7d2349f9f44b3cd69bd5c381dbb21a7ffbcf222b82b1c7cbd737cc489028acbca6500e1949b;
  sd 0x6ec60416f6cef4d25b495045d1753ab2c0f68691e049fb5cb77988daaf872bd8e2fe5877d2c84fff934511b28edb288 0x19ac827dd036503808cd534f61b71c1a5c68ff0751369ed4a3cb67f0eb3ea585ba4e72cfbfe6e62a1bb3846d2e486db6;
  sa 0x3c0cd46ddb026f243a641b2b4c292ac6828d38110154bd3665b6360e341a2d99520cf74e3a9211c4b9e12bd196dd480 0x14975ff220986f4cdd09d54129fd8cbfe22363a00db0762ab9723bae0403aaa377468c2240768a115f62cd235864afa4;
  sd 0x1577ffd8d356df27153b4851672f8838596954060378524fb7e3ce6c459cac7ee50843634cdc1ceabd56a94fda1ac9c2 0x18eac636c18c17719042c8dd167731eb8a47adfa7a28a5724e6ffc69199227f281c27d3ee19dcf29f818a462095db48b;
  sa 0xe538f9f0a9008f1e61801c8097346bccc7ca7e13bc4d81e2f01e1b90e3bb0350770efe80f60adcea78492d3339de084 0x14d32679028735e8dee4e2c6c5036766ae8ab63d144c0a31de8d8911e8a5596ebe1679cc3f94bf3d8306f85d15bb2d64;
  sd 0x6eee366174ac3c7671d0f3818b661dff5be68ade25b071fcc337d4f02da8c8a8a37fb0574169fd34c3ee5e852e062ee 0x17924a9dbdabc5e5360e974a6e2d49eefa1643eac2f8ee10d775042f8051e511d7c0adc4acfed533f986ca1736fe4dc4;
  sa 0xc3a657e27d80a44c51dd0e05b28350f0fee29b269d40ef228745854399272095c30f40aa47cb66afe4591a8cc7b1815 0xd66c8b40b534d25cfdb81ab90cbb442c887b7c6b2baf023a14590043de1391a4ce0a380e39989ee6d07076eb8d11360;
  sd 0x2d78ad42358e81b97e079c7e06597edf6c854158ae02137183895409720cdd4f3c4df8b59192a56376809f7232b05a1 0x1274ffabf5c8eb4712ea76dbf8404fbad1babb14a421647f5a4e9a65c248df76de2e1fc7cbd214f9dd22cefb403dd52b;
  sd 0xe734aedd1e51ca557d5b0c6777771775d119a7811e3e61054456a1ce3fbe42101164dc004a8842f401a018719adb78b 0x15d534ef6aed896bbee5690e97e90bb7258022dea65a9b37bf6d702c0c589eeaa28a24adc139f1d976ae2ce1cc75e9a8;
  sd 0xab5d7885b5f60c3105ce6d8819f644f02416228564820180dc79e3e8caea48a90d943a2aa7bd0ef4b8fbe71812cf1b6 0x5030d77a5dce78a0f9b96b7e57975eae2328f76617045de2ac91d8c2c62fbbf7e90d920dcd49effc66812f15bee01ee;
  sa 0x114b4308a32a83eb3a818f3118747197c8eab6377c8abc564e0bf55c95f230c0db0d6ed7ad5fc4aa0007019550aacc02 0x51462041672725aa79bf781d6b102d919e34ff0c4c3bf9ec41787fc60b89e2812fea83ce5aa6f540b53f4122e4d9166;
  sd 0xf7afbae33a4e5341d65f38e8ce01e33dc9f99f1cddaea571cbc9fc87cc79857b673a9485a1270e12e20159b4bf50a2e 0xbc896c825ab9e3c345d348d3d90862cdc045e832911f84b0b50152136a5fbcd1e7107ee20ed0cdd2626a1aa63b60ce;
  sa 0xda105e366610a0c520d09c23a24bba9f375c03fcde4ae8a2c842c4acfc22c515fea3f0c35751e5241bc5ffa64c25de6 0xb38325a1a14580bf70ebd34af5f943492282666b1a16c6c53bddc62d26f00003fb7a832f2ae60a43c512fc6c94acc8c;
  sd 0x160c04f25ae889c22f4eec3099cd64ed33726943bd160e47ade9d4b2e4f330a25518566d1836155136e700ce4a736ac3 0x1560c16e35bf3b531461c1676ef525cbd50e5f31b2641a8bf3dfd9f7c822d56388f4e5277a3ccc63e363ec10a53f9929;
  sd 0x828eadc298a3d0bfece904eb65f5a535b41ccb330457fee62edeea14df52b8f05b3a195076bcdb47115e55922b31e5 0x1566df3cdea162a959a3554aa8d81c1d829694cd7041d4734572d1a93d0a55c53f2ebdadbd872d1037437ceec3aef764;
  sd 0xdcd03aea204eb6444d194caecc1cfc71575d709f3902f853e0213f0aef26faa38b7eef07201f77c74ca137a75ea4967 0xa339fa4a43be7d54288e7ecf018824715405007cc9d60c8700bf9aa008d7ead65155518f8dcc81b87d689f17c54516a;
  sd 0x1101cc332d429d46f55aa755e7399497ef3fbb8dadffe110e3bf58342ac411c4560947c96acb4c36b272bd0244a4d297 0x136e8dd30eecab4ae4416d69ced89dcdf853c9dfdfc7e07ea2b4dc7bb27b03ddb76e3a4baa05f34a824fa1a62008f18c;
  sa 0x11ff3dba70413b5e8e4cc88a7f453d4b905efd3ff7038b384039b91b65866ded841ab07134b6e1b804e43c7ec8fd89a4 0xbbf8fceacfcfc396a6339b6731e145ee4997d0aa671f5cf2390a56fad86194eaa33957d5576521bb4b931dff1cbdd68;
  sd 0x6c56c7f997a79b4c1b3ac483c392272b036c9ea54c37a12c629a03296014594cadb1fef2ee4e4dce5899a4b4470818d 0x187ed3ac446a4f83d23ab4b40648971372be665e50e7744dadd76b4c35b2df180e49dc34bff5a52da55c1d66118f591f;
  sd 0x11cf263d1b2b8a84c8ff59d90cd7f6a87710a8eda16cc25b8d99de70ec1bf96d9ddd517f75fec65f3510d7f46e102cf8 0x102b7e01a5adca1fdb5c3f5f59427760084b4d228b20143cdc0cfb3c018a701556f0c7700bd62bafecae738c1a17d815;
  sa 0x695c25ec725b01d7b038966f0a433d7a132aca350fc8848a2275bdba133524d52b584417f0a1fc89d58d3537c5b5636 0x460febad1ec293cdfab33d7b55f8927200601469fa6d3ae8d451ee5e486ebe2e9da88323d9c09f8c3d3c22bb181dc0c;
  sd 0x14fd24f48750f20fa483fdb7ed4d974e6cd3fa7384bd33edbfc48329b95be6531e7b46f8b3ada485716ead9f3672a0d 0xc1575cd4763fa1d4996c944de6b5814037fcf9a7f2f6bb34fd55e6b8a47df5babce9aec36aae9c502853a829367b1cd;
  sa 0x15cbe6373755ea0495e2adb1df361e1a586812aa5d76af834a2add1c6bf4e82c4e34a69c5bb7ce3191858c5b06b4dcdb 0x14dfbef25e9b33eef7ea0bfeabf277128cb28dd1954b37346c84096053a79b03aa20e3e0b4946f770e074a881e16506e;
  sd 0x15976a8f9f4a11736c01dd8ce3b1be204be469c44e24102c1c94f14fb0a59b26b2bce4c4eb70ee2dc035a4e7a0f82a9c 0x10dbbf17cd9ffa6612c347d1ec2dbd4ca4cc2b1a210e9e24f5b1b0ce0968bd5fe67b5aa2115fd8beeaf5f508f04ca0f8;
  sa 0x191b449150ef55716c3d44f9aecd5f4368cc7067010a704315493fbd7275c7e176c0bdcc7bf5e4309babb07ca29a390c 0xa231703b9306de3b306a34c59089cb84a7984bc1175bbdeaeacdf7fa5c3cb2862a13c7387f4f5b51cb987d765160de5;
  sd 0x18908cf12d6c703137a668341028daa97b6c13ec0054fc177d96bd8c8408956e5ba618070ff213c90d4fabbc754148e5 0xb07679e89d2c6d2085c7f407b7b139165f370388f5a8feb6dadcc5372f6127c7065506ac42ef880332b40aad99a6c23;
  sd 0xb6398716df19ac2748469761a7bd47585966c757353dc664e1e22c1369793e29fe1a963b29e869412aaee75671c1477 0xd0ee08bbe125f34882fafbf2b8dd174022cb0cda3adf563fbbfaebed2aa55a884f754c9e720bf92a0835aa648f96233;
  sd 0x15a89c63612da38af6bd092ed53fdd7089aaa8e97ca447db51ebc0ea965b4b78d62ddc93f70112a67e8b3e650e0d73dd 0x100828fc735d9d85c73ba7634705e9114a2cdf93115b71f77673d8f1e106637c2ac648d1ee8685b58e4c2fd02d00131d;
  sa 0xf577dda30be959911294cb037e35f390b0f35350cd8a4e65bf48f75ebfd05f4278b17116145e738ba02bf89de111ec1 0x14dc990e700da27af49d5a4cf4e6d4fdfadcd65866c84e787d054465aefd661d3a0fe03cb6d38d4297b44ba28036199a;
  sd 0xe3648d0f5460fa5794307f13c87b382ea98f10923d0b160949137a679e88eedcf0489c5fe92401bb702bb6eee2d3421 0x179d3acf041eda6fb5df7e397c11f0a21973224478ff797609a1f7f3d5bb353379cc1056b52731fb8a0c20fdd5263a5e;
  sd 0x124c2f04f16816351c1563a80c1c80dce925fa680fe1edf3d07c1aae2c49748a29dc831fba7b2199fdf810599f60efdd 0xf887dbbc1dc67e147221008a605a9cd20b5f8d159527c6d897661b0c325e6374c7b4663867d3a5dd638c906ae199e8f;
  sa 0x165ce4c8e18e4fd7c929ab5391c8ba7c1e4bb3abf83ca15aa4f0ca5c3dc97bdcef54580716df0e8722f328e32ecbaa40 0xa0e899797f0e13fd89b1c53d956ceabc29412928915409d309964fa2ed7b24258c2bfda9647c89c7dd488433108aba9;
  sd 0x16dc8670f9947813c5689c7ee4724ab66be255f419fdcab78af685b85de7e18063f793d064909a8e93f7dbacc34afd03 0x61d226a829bc807d88f6c875e4462d417e6538e79b058bc1a272d7469a55357c987f84e2df170fc0e85d7909adb4ca0;
  sd 0x19888c34df64eb30fe236103fc3a8841daa469c5436df07a95c529e0182f26c64e3f843b56cf0cc88635cbb905c5d52c 0x10f5488b3054e71f3fe6acf8354077280df19af638a306e342ffda5e78d93cfc7743e6f7a9c0c6c4a6ec47dc4e642cb4;
  sa 0x8d99d58d75a0f95b7bbad040623442fd0af3ca232b0d0e24f2a3d5afe93b82a49a23609db7159655f4dd656528293f9 0x13acf2f14f7c88cbd93bebe712eaeb65ff51012968cfb9b8abc283f7920e2e8da5843e14744663f6059fff54d01230d4;
  sd 0x1537a4c2e5147e58e8c08f0e1b1818a37ee5db875a956dcc8873e1598d631faaf9dbad11a3c97727868df10509662c5f 0x8f00c19f36b4bfb59fe67af29056dfcf9e29f7f21906357d67d612399cc5f4a470a2a2dedaf58bba921d22ad79798e7;
  sa 0xfc9171a3169dd06f57ecdf844d44193f6d6d641b36182cf00287972823f3c65759cc9bae78e845ea3e4b9def90c4217 0x14ef643ebc9f7eee39cca5473f110160e50ae8f87c68a3e4767673fa47be9ebfba36b168d483977cc9af46a16167be3f;
  sd 0x168db7bb7622f915e3304d90f091f57bc3a8791c66634c80976c4474ac6f2d60334965db7d7a35b5d5bb860f47446eed 0x190da5c579628ebafa81cadb3c4d9c614931c59da6523b34dba1629722bde553c6406f65c5bbffc176e4fb7325ce65a;
  sd 0x16b573edf08a1a988a663ee624a143a3142db68f192f9aff166412c28e22d06d8306bb5463c81fc39fcd1e2c1c7dab99 0x172c11c5bb37bc21641d2cdec2559623f77716d423257ba82fe74182265a1165707f24ab6e8640e2f01b0a03e04a4aec;
  sd 0x1505462a89f36a0c9ed033d068b37b96b7975d10d10517307e93aa7b409f42788d9063012a1edfd4962a661ab978dd99 0x50aad29a9d6d6a8c3d9ea0956052532cee7a205b74e8c06a22435ceb809f8b8438ab0dc3b2f1d88a2c2d41787bf70cd;
  sd 0x7dd028e9fd989acbdfcfa53a5951d8417b8e20ebddc6dbca3aba89d0b85bc2af34490483ceeeca86c744db729ae1423 0x5b1bcb4484921c35930e537d3e0f83262c18b78731d119c05189dfcb69941bb87ef969b17040a1220808e184e442d72;
  sd 0x1729d265c5562df0fa90262e2315d9b9a6e288f79831019f5ce74958309c071e96fd81ca4c1fe7ba8ef641d5127b0a43 0xe8285f2f303ef7443b9ce26045b2fe68c226d617c92e49a1499049150e282dce0ea2aa51c370df895cab42e1483e043;
  sa 0x10132ca43ee7fa2a6b9dc977e3019a9f4c55da94605bef21723d0f907441b88085b4e9287ea5d8abac91a3e27464289a 0xb7585f42282e5279d29e5df64fcf0ddf28a507e4342244e55537698c1a47ab1727a745c2f1faa4bef1513554146e54b;
  sd 0x172027f412a7cc1ca7d619e7b008f63d073e1fb5e803567b70b133de54bc9723d4acdddf7f00c23ede2f300214d3ba4b 0x9e8ee8b7d8053d0a20b8caf6a09f79bdb64250941774977e064b554ab09bc7d1d28ce504357dfcd9c3e7503fae607c6;
  sa 0x17cb283c3d1fbece3b8c572b3ce0ffb5f9fd1105620f56266e04a267c8a1390003e001018e177128f4fe38e92281a4d7 0x228e994f7026f4aeeb6c54dc18fc78da12c4e8c472f3d8d89071fc5a7081e0995cecf05b7ac531b85ba02be3398fd8f;
  sd 0x7524a7d7ca6494e20c7672199a16a87a5fd2176604e6f444fa23e23b8b48527e43fb393ada07de61b2a5bcd04a0ccea 0x194408e8d5ebc6ff901f81084d44228dd4121eeee49ed430ac31adc736ee3f5e0b7b414566132367773e0bfb4860fa54;
  sa 0x18e6ba7510f68c4f1bfd10f7fc64a40adf1e627bd8e4fc3c699ff3ccf40833703023ce7649cd5a21aebaf1537290347e 0xfefc8d6684a1dab4ff45a0f93dc87c30612f5e72f390b3ef830dd9c6310e9b873b785c560afa1191b92e450feb307f8;
  sd 0x10be241b880cfce9ae1fbb117b53df66189043683fa12deb9f6bec208032674e4a9f14c7548f9a73c7f13f6d7a0f991f 0x627a39760098dfb30ab67049cfed7c0f86a4e362f6e5c0b58c0c274821d34321234b0979a66654b7bf434e58d138b77;
  sa 0x81f2059f4f74ba1cfad0809a4291e062aaeab9760ded098c33b68d8ec53ce34d4220c0fcbb373be82c3d76986c74bad 0xa7dfd13a28c355c633bb3636c4e054856914d22a1c7f430ea6c3b3e47e1becaae3ae258590a3e9ef3710d97c2929fc7;
  sd 0x196b2c31945fcbeb158097e88a70ed4dd2068ed7cbd5d49d8b1d73d3888fe1c390b3ac1dc43cdd2c610fa2a903ddcc1f 0x6cfcacdee46f22d4b5a4c6cbafbfeb73293ff0883e207182b3e72561a486a96d48e8b127c7e060cfd21a551db4b9e74;
  sd 0x1f12d881fe41079d8ef826934f6ef585f5aeec3e767d245672afe7639e7db189a603e69df4b0ca59d3436758e871760 0xeca9585e87a0dd2e8b7e98870ca356e46420e4bd24eb90aa352e97a2d82a11bf31e7b74ae549097758fcdcfa0d83c55;
  sd 0x1674ddb3e18a72df354688e3e2cb15e40b8e8f30883789d3bc408f35e72aed60f30bb00f72a87480f1a22932befd483d 0x11a128fa69e3f2064753cef87fcd86e096cb72aa31880e460fd099020d008b0229bb63be20abae700dfc33acaa6bc28b;
  sd 0x8af179db4ba7f422fc1b990c89feb6488425c8bc60bb493dbc7aa670e1fcf9a38490537a1130926dad835bb055cd4b1 0x15e27871ecda2ae526855c84161a5b7fe0e34674ca6ad04048489f3b0ff836f7a79291294d84b886608bd7fb9cbdf69;
  sa 0x1950548e506603dfb03653f383a9af564f567be696ce3a680ec13b5122622feb084b72a7744f2fd9aadd0444e6590aa8 0x19fafb7b5ec6a34c9d01081f144a21ee6aa4878fdd2f19db826ae96560a6b61b3abca6c20240c8dc3706340c31fe2b6c;
  sd 0x32b11ea6717c4020cd674e9f342ad4e2181bcc3c9614238fbfdee4111e12e721b0e1798b2c0a086e51f991a38f039ec 0x376845ec934e9dfbdf5e95ce610a54b27857105f0694931a0cccba8ad61f75fa18e87c944b6394718187c9c09525eec;
  sd 0x15eb849ca326fdb85eb84528d4d9e3b845e6015781decd708cc5bd092da68f6b0dc8928f0d66ed3b191f3c0223597e59 0xbe8e018590d83122a268980d95bfc8c450421d60e4b7ac7d11f035e50ea16d4489df2c8c24ebc6a091dc46a011667b7;
  sa 0x123c242541f943582dceda4a49be58b6b05e32b085af7f2ff4275d7aae088be90a25aa36165aa43a6fd03d19209a4a58 0x13cc62c46e84af24d05ddf23328ced067a97150d23f0de94560726b5599217298f5f0885fd8a356d820fae59f466d133;
  sd 0x6c8b39112206cc7eb86c2b3a8445b5697062f47374ba2c9ea14bd5b54e8313f66b85c89e915b800633cc07c98054117 0xbd14ab6e58e807f584ee49d28caf5362e31b5f445c203156739dbb8ad40e5575f33c7e0cb421e2636f667ea66126d0c;
  sd 0x68ef8f6785aaba623c180183ffede8250591463177b0154ac0eeaf2ec4378001be39d0ce4e069c9b1359ab5b9ec320d 0x26b6aef87e57d4bf9ac8055048f5b7dc3aed35786695b04394a16b1e0b8b8ad95a813647666a52cb2fb9a6af9749017;
  sa 0x12a85028a9a579a05229eda115c850e6794948b3ed73f1c91a2bea04e2e82f3a4749279c9f5fc503baf84123e5f96bef 0x9f2aec9afd18771f1ad3749e0a3b8517e53fc6646e6279828ef64c1b0e9ac8d1da64fa06635db0b1f5ed9a39de19a5d;
  sd 0x15ed47e29c755c496f80015bbef0000f1b5ef6e40f29bc8a92e7599431aa15cbeb93238f7ed8486a33afa82c8e976423 0x2055588d4afbd220b66310158ced0021a29059074731e24e7390ecc61515b2d05f29d96ddb8c50c5012f4aa7d8a2f2;
  sa 0x25e5524167a533122f7c11c8b72662359ebb2122610474cf02be1ac967b3a2453add747f9dccea3f1c23796b22013a2 0x139e90a930be01b21c1cfaf4c4c72094151bccdea4681f161291b926ca3905f97045f716b6c070a0235deaddef8eedff;
  sd 0x10ee8963af4f4d92757ae96d59d72283664ee767d4a7eba97b33e7ccc2d3f9e160e68f49a5a97510109c9debd601a098 0xc6a193ccab98789067243d67dcee39425b5d8b8f113c82028f225a034adbd499e8dd2d1dd1ca4f0a35d3f6f01068cf0;
  sa 0x797d018e99b200da21b0a0a1858a2b88475af4f23b41e2660787328faeddcbba0c1dbafe738319ad1507aac3dee1b8f 0x144be2d7853be989e78735c5e9f6ad564fd44ecb6ed0b1f9297cae668129e3258e48f32dad532a66dd5eeab67d9516ac;
  sd 0x45828e727ec5bbb2460a57a6c523bee442cf0dbca8c6e8257d20b3d1f407e6c38dc0a7355eb322ecca66ca6caf15b4f 0xb040c09daa4b11de89a0678a6b1befbedb46e871860f3cff091ce79341e76bd85bd20c98dd9e2a5a29a48ec423ff836;
  sa 0xb95c0d744c42a0d23ade4c9c418243ddb167841449f7e5b08328794dfa820661675ae33ddc512697d403a8e8bde355a 0x2df691cd4283a5f0108b5eb0dbe8e6752bcf701a1f5fcd10d5e2a0005dd71ec55eee19ce0f8c8723ba6e13099accaf4;
  sd 0x12e53dba641037a2d79609b8f8c36d63c11b58ae9a91335841ae42c06cd6f0660f6aa30ad280c3ebafdc4c9d06fc9231 0x3efe41fbc031be356d3ffd208fc080a419b012a840bff7538b7b09a9689c8f293ed9bd1c76daace8454584d502813bb;
  sa 0xd8f3a310f956e96c2433f9bce4fb383b572ae8172be38e89103cc8476b7afd6179083807eba13ff8e86a6883b0ea4cf 0x480f046db241e97261dcd5f5efa9ce2ffc13bd01ab4d625c0de8ce316382ee2f1e033a4952f77142d253385db07f737;
  sd 0x1134ae4c1c43a334febb359eba6dbc18938d9e7482711f95bd021e2db4b656966cf4ca4178c8dcbc2ae4e0620a3762c0 0x19c8e3e775bae34e8be046486c13697265d1de0f7ed4c24960b4d4836377a9eeb110a005a5e3cfbc57d9ef60d3bdfa94;
  sd 0x2c97bc756ca7412b431fd3ebd2d917c5da40992a1b7fc0f49a7da8220c0a043be8fef586ce064f4e7472a5954f8dabb 0x19a88a8f1706a946b148acd35c4e1b823c80e10b2aa97cfba9a0be36eab0064294fa9f0bce8c3f34ba04aa565e061683;
  sa 0xc9a1001c049108515e074c2524850cfb578233d1a3da2d9cb5631d579d720ef7504dc9807ff2ca28c6bdce05553f369 0xf5c51c1a71eb2ca07affde5c729e5cf912a960b022860e092e3a20c1d4cd8813d7a547197539ef8f7b16dd6b155a53;
  sd 0x18edb2b357ac5e5bd2ef497864d03f89b5a0c0d19be82a9c99226958fd55d49f72c035a261320a2dc10fb584ae6040c5 0x172b33a945ffb5c10661f0f1fd60c67fc8d9fb30ac065cb8ab60f38ee39ff57cb64ae13f6615dcc05c5c1ce694a60d9e;
  sd 0x14d33ee61eb0b65db68fd2935c53aad26fb756a7106909e0a31c948c068ca108d6bd1c3ec22af363666048b47059fb36 0x5ff8da9c8188076218a08624dd4967442a48af7d57df2ff4115416a76d2c9df3549d8f4f9e1ca29b6446589288a559d;
  sa 0x56729a3cb875b87a56f80953fd9dc5bf19699bbb2de93491d7fb730660dc68f2f8cb83615b171161c3a3b6bef7a5010 0x44e063888e28ffefca8619b62dcd6723b0393195bd85601b9807889c791bbd5f3103cc2daecdeeeeff8640e56e16e6d;
  sd 0x15f0d663e8cc444adb50e87032d4e3857af4bfd70f1144ea6d18efc42a8a30b85240ac91503288284efba4f5e0c7f923 0x52a3ba4be1af804b947b5c4cbf967f5fc75651860f1e87e8885ab8e47e5d23a2ac54adb973483e3c06c4e6524bd947;
  sd 0x1017ad8df46a863bbec4846d8656b3ab3d4143662b427d1af5dd0704d1584e521b9260fd00bdf24e44d15d6a58d04b19 0x293de37236a3b92c11cce499fc72a167b55206fce709360023b3248c8035e6c678ee9c406d3bb3283f403013e643fd9;
  sa 0xd312e2891e3f766421e566d184dc12716b136491d0e95c3620e701accac297e43c5fc4d5dffae9d6d167cec6fbe84cb 0x5cdea806e2b535ce91c4ff0547d9e1c8e62ce15d599a7d3b948e5288be8ee2f4cf0e05732ad963ecf62f08fa75863c4;
  sd 0xaf641a86e70da9e7811cf8511279dc6e5ee96a539e3c01875fb90384f0063c75b15e93fdb58b94aa951fa6e116f8949 0xf84ba1e59508c5762551b3226b648b54b220da3e575d7daa983034c2f49fb07b96aec6354a8440d9f80eb8699acf711;
  sa 0xc63e409f5bf347ef62d8ec9d1f7e42b172254c60a83e60c902faccebbe2c47e55c23e4ea1990d35270962408fc089ea 0x1232605ead6e53492f4e665f69eb4fded9b58b4cd4d0e2571047aaa1fa6c88e9d34e86b928703fee6df2a1d2e2311176;
  sd 0xff422bf6ee2cd4d877444213769e3a519db39ea20fd904f143f92cd59af29a9b2468dd5ee9afd5970ae52b86998ee70 0x17929c0ef1a6b8c7d5f3f99b69b75319e2e83048fd6a0f77279471dc5971c0675aa5a421565c0b23756938ec09892b2c;
  sa 0xa2f016dedae24de8cf8816ea5267aca651e4b1992f4c004989a7684f9fcf368a8406ab954edb812bcf61b5bb92b58e4 0x1923698077d1e082ce9feae237198859e554f329c146840107e680b3fd8f639f7f21705dde7dcb4bc2be45a241ced6f6;
  sd 0x14165ca0ff791123726b490b76b27b7e1fa3d71c156563df4ff18e8f4585930caa6ec2436a1b33a66d7bb04a183be45c 0x161efb90b8d055cbc18506b1d1e43e14799902bbf5468d9df27301b0fc007d960032e7cf4d9e4bdcb414c66f19b40343;
  sd 0xb14ced2cbfafd709ff2a58b58156e4c7bd508a525af0b1af4fccb0c2d4d3d587e2839240719abdc096691ecab23a458 0x1ad3abe1ffbec56ac1ec7497bf6248e188dc465ea4c35340e11f6fbc0dab8ce67f93630b6081575c3ee2b1738fb67b2;
  sd 0xee61ba87ebc165c29510caca0da0e53cc12988332e1d7fa4de7d17a07c53d8c80ee5027da68394dc00ea00f350e7297 0x6985172738de7c882adf6fe08dad37b298043c1b37cdbcb8f24bbad69b5d9ff17ecc05c5b6c7d1ba467c15685e05fd6;
  sa 0x17038f70fe9debc0b01f5edc9d52d947003335831ad20a43cea30e46a7eeda7911a5e4bd476f17336da73cec7925ad1b 0x12cab7474084044581327b5717e47f18713b6017ec8a9371e15d3229953078cc75ffd293fde6a72dca481c1fc6c229fd;
  sd 0xa281a48701091d1bee3a4eedc582ab468155c2df38802067bc2e0cad1b532a8b0dc35c159dce6e136f7d306707cf856 0x105d8626ccd40c114196a1f93123efa456633fa1cc02ffbe95fdd6bfa8faa30fc84ae2d826c75316435344a9f5a712a1;
  sa 0x87c85852707894b494d95879eb1615ec37d95f7a1deb53217b53200d5c57abccf0a74e0cf456983417648bf5df6f1f0 0x2d3734ba0e85d2e8c68ce86f7963733a024ea0ea42b72eca4b569fa2bc170a7939d0da9200be3f4913c93043d1bfc05;
  sd 0x60ea4ec99dba75900f03e0af48a21982c983884b57ca79cc4c5ab9c4d141938f0705b3406316bbb8cb147080fdd48f3 0x115110b4e4ad746aa15993fe3651ebef8eed2accb7794d89a7279209aab87d8c7aa0e6f42c4792f6ffea0b5d897dbbd0;
  sa 0x7c8f59ad825449bb763f504375fb3b676a81df81a8c4ab42e6348e50130d4960005b7acb212b530d4b48a53d7c239a8 0x11bda5db25aa123b838bf93c987df1bcfcbcf59976bfa6e3a9c8e4b8666be245ad3610846014eef8e8fde6d8a7a8cf51;
  sd 0xd15a9baef4362b432f94729faeb2610b6c7b65b76a823a04ba75af74d768da1640ddf1269dfec1c2a0281c3c9d8051b 0x15c39c3df892793ce469af5bfad9baf53672440c72ef9460d6d9c2ef0c6c6818932c0989ede1beb0e7b00ca40967e0f6;
  sd 0x3f7392a5b4ddf1b70553f09021cb63ace7239b41ce40ddf8299f6854809684b4063c574a9f24d2b875fb994b09ec07 0x1195e0e0fe758ba2065cd3ac35c598f59f2234b86f7d812a97f8c1e52d975bd27c62eaa4372976d159624c9824f5748d;
  sd 0x941bd30bae08868f5c31b255189b4fc876aad66b45a74de151b75d4fe9cd791867539530c3ac215c1b9af87405952f1 0x141a46a58878ea3cc8624f10e4d36341796f9ed726d2f7bf92006dbfed7079a6ebee9d30597767bf8ea6684a27c3b4d;
  sd 0x5ac9171161ee62bf881f398c2bab88271135f554c786a16ed2d8b77f612e4c6e1b96efd092a83cde9409d29af50dab8 0xfe1db64f41a8f0b86ded61134fe282ee4818d157a7db9a77fd54d09a2bdc8b872b2b74f42a763f620afcb71076fb945;
  sd 0x15901c426352610b85f791664425b837be717630854a37734f0efec0ad1947874aeeb28197f3764c94198ea3ee1def66 0x32f7457f96ca9a8bb5adf4f4d4242d2c9791adc3fa07b1cada10295c01443372ad0289231f9ac0c8ad50e36fe30517c;
  sd 0xd5f27bd8d528b39aeb4e3fbb942a398b9d5c1c58dc5c949317cf230f21b546720cf1a2e4cd06fbf8eda13ff179ed985 0x12d1dd7d04442966a4e377fccb05f3c30dd65972a536b04363d90557b7806bb126352ab75503dbcc7a2ff528d26dafd9;
  sd 0x175440b46d273cdd50866a7f8f78053f4eaa4e9b198ee715694ea02421eadf3ccea3c0b06a71e58659bc9422bf25982a 0x188c087556346fb0ac2675e13aee964ce7ba62946170aa1bdd335c73ae5519496dfebee7d71095e3399beb950d1607cd;
  sa 0xf5f8e78616e815aa3f4383430a90dc8a1ca94734fda48414f06c310e141f51887b49e83f302acabe39ddd040fcbbc76 0x6cd00f3abe5f7aef4cf0c84f4a52e41883e73cef8281429323ae6ef9243730cfedfb09fb40780c6bea5c9bed720e095;
  sd 0x11f4a68d598cd44dbfb75601ad9a2a8cfa14250cc96748e8399106b95a7c8dd80853c9a864fbbfb7c017b7c026131fff 0x3040f8348fc0d028ed7456fc5a24dbadd5268578cbe6653ba14e0b998739999238b8e36df8ebdd33a7f5b01b097fe83;
  sa 0x3092fba0366c1eb5a296be6e6f67ebbbf7f1e10cbf2b3c50cca34552e7b6f12f0468df0df2567892fdf25b5b9d64c07 0x199c9660c16d0f70747796ac6fcbad6027a4d93258daf96afe9a3843bc0bb36f88c59aa62739009d1d02a33adbb4a882;
  sd 0xb54578067b47bf9923517c33c198842e31b3554e6cc5a481ebe0b8b451e83c89477881d6bd38f1a845b9b85b254babb 0x145a45f536a6d6fa965a3bc706829e3e94b542cf140c585ff4298bd781887a804fb4075fcdc88513e3e9e4d13ec63b2e;
  sd 0x2f1c61e520436416df415327238dce9bd6019017668667734be2f81547d5890ce56ccb5ea0a8c0a552dacb571bce545 0x14c9af5e746d84d1abd7e1531b0f7f76c7f9e44259fc94b1453d3d206d0340a0179dae35afadedfaa53fd496bccb90be;
  sa 0x9a07324b7026d4303b6b95c17b1ad01288b413701ed59f9f19ee87c7b1f7e4bce49070334c52d208130168fa73180a9 0xd940fcf794368d1463b726091a3d9ec0d7d775fc99f2dda717443dde9a96620e382fc3991ba0fc6ec7cdc26fe7f79c8;
  sd 0xcd696764a284803753a5ebc88f59dfe7ae35f108ede1e4d6980c31e39ad4f7632648f9df7f3b25a99ffd539ddda8b83 0xaf71c169c774918b718716d4709e185b7480b1910ba05919daf7d95c977fd82da695f087ee7af38c04808a38b67556e;
  sa 0x66d5515f38c9e0dd156360c0e12a1a28c902edb0cebf8753cc1d9aa083ef4c40a0f4f556618b26ce6f535b9a8f0b4f7 0x11a8d5020deae3f0d67ad2bff252957cd96354f959204e23df247301cd445eb36cba2400c39d78bb06799af988f81218;
  sd 0xae3033433cb3f23a25962216ceb48da15f3586de20108b2eda87d82f4a21782beaa5eb6966a26699d16d58bc7c8e25d 0x16d695b82608bc3938e251963e94319483a20a40b78df5569cc765cf19b883f9098d677781995ed65f23d5a26e6f2e58;
  sd 0x156fd195969f99de4d3861d2fe8bb8b695cafd11a4fb05f79dc52b769eb3148bf0aa9800f4c52696252a0e27fabc0239 0xf35ab391ace8bfc9143aadfb1590f3fde2b670d49b38694da46ad94b1a57cbcd4dee806042167b8a969e92d343ec047;
  sa 0x2e523598f9fffe6a5809c9200ff4fdd90e971420ea2ae45f1eaab52b3bd5a4e9242adb605e7c6410330c7b67ea3da0d 0xd1e518dd5789c4cf5e72e2d66355c3bc8a53a51ab43c9bea47fd06df0e586eaa692bb0087a0247d58f5934578be2b2a;
  sd 0xb4c13c7fd253f140f89530a2f7fe39dc1aa996d6238ccefa346e6dd108e4907edbdbad9d66f01450e8e7ff15e2a5513 0x1436fce1af1f1a2fc7ba855a968fdee12177bd13154f3c2db92fd724b7119aacdcae00788bc4dc53b4c91b4e5aa71e2e;
  sd 0x1712c10a26da1f3f5b330d09449e83ab4f2c3d98dab2c3a2abf71003de5de5444fdb7b558d658ffc37768c873617f620 0xaa3874004949c65a6a531762079a555578b40f0734a2c3a1dbeef33b500cfda3fe63594efd93a7f0a78d99ec9549cfc;
  sd 0xad39dbd9ec65822733fc076c00e4e526a409b77e6d08e1a188d8b2d3d75e663ccc3b80d039e2de3d3486678e40655e3 0xf7180be3af6c91b52fe67261638148bc0d25f3175a7def7ff88fcd6480cede35897b6aca052e13a12ad5b252ce8ec87;
  sa 0x8ec929e1bee9b88608258bbc761ed5742941161b27b02b9c5bf7d87dd0128403599c7dc2359ac841e32e0b41dfdf0ce 0x16fa179ed731d22c285cc5fd13a327aff10792be088fa0790f9a5893c4bfdce149620473df14d0f2d06c0f6c6c5b5986;
  sd 0x26319c3ac6c0761319b7a55fbbb47e882a3737cd6cfceac7cc09ae8f9c44f81bf6b68f32cb5536f4190967eb16c1e6c 0x5ab916c13ba77800c0c7c426784cf575837d8609dc2bfd9f40b1ccb040f890c0576b2463c292477a86674a2928d17e;
  sd 0x14f7f9eb71cb6c0a2db4bf545495d03a9d5839301844c8a0389cb68c3aef781b830debfd2bf27956f5f85fbda49c354d 0x9b96e839de729d8c56cefb6634d8c3d96923d482d81815e9f8665248e7fce57c3beebcfd20373d9a58f5fed04225e2d;
  sa 0x13f029dfc40e0716d199a5fa70a50a7852af802c5fdda52fa8841717a0633ccead268fcf7f4adcb490a7d64a5b610b14 0x5d67d735e7d70582cb11d63713e086aac0d448598cd09431c369887c2c8d7d0f1f3881d4a1c418274e7cc99afaf0f29;
  sd 0x15bef874b117bf7a60a1104f5b7b9f3707a64da49badf8773e65fd8f87f3fa8f6b5176612dbdc0718e6b928195e34e71 0x1227d32e0a04e5341fbe380f04ebcd6c8081e7aeb938b59afde329c960d10c3cfe05419e324de4c7bd6651d3dc2c1a54;
  sa 0xfa483543b5409379f216fce8f522a93d62d4abb6a093a2ab5869cb53112bec0cdddf314c417ca123cf7d744fd21931e 0x16a6188e71d934a90118fe9c0cc1f5514051aba9652f46982288438f1bf664bff13e8144367df79c44772b0f0cb6303b;
  sd 0x6a0f371566463106273056799fc833fe64b44d002b9a0ff0707166f44521f0c03df41cbdb5a13122c0962a5c79144aa 0x15f594d153f85b3256129ff841a4686d3d6463097b4aa64b9723a64991d6cf911e92714829de5364af39fbb297998256;
  sa 0x4da328184e100e2718c90f81e90f639fb6cca0a38f10e6d566e609b84eaab6959045644b93f963e93e182896637f019 0x11c552dba40a1ec19f92daf88bce55fab397a06ce616cedfc5a6795d22b48fe3764ce3215bde8633f5c4e4cecd3242e5;
  sd 0xd63914570fca5d8104059c33a13b7271c0536473e48a0fb163be2438c608798c702c7286056fd1505952c7601735c73 0xcd646ac1b12fdd17528e4951ef209497872e43efd842aafb599254c2649f58a996fee97771ecc933b192d3238103410;
  sd 0xa03c5471bd87625fc6b9a656e2908342245e64ac386b762829d690a6a541300298a47abbf74993e1bffe8226707890e 0xcb8b1d7250d8e5ed565bf1e4d3953a02a1cb0e7b33a648c895dd3265323d0fa8635b71bca27c617e149bdc956349212;
  sd 0x15f026a390792deae69148cb030a54778a9d009a7210d8cb26866ad1bf65ae91adecaacd6c8850a162ef7a98c8c232f9 0xa22ced64f5b1698f026d8873c50deb1bddc35eb8a099fe215b2c531216edbb69773f88f981b7af8a58b3c1a65a19c11;
  sa 0x8ea88fff9eaa95b98df0ae2689bac3ec09a80432438bd85ff9b3b6a500726289885e14868f1436fbc33789709865408 0x12b5b666d439b64f5cb4399fd396ebd4c98b9e0a8171be49721b31fc4decb73c49caf3a2f45c201278d2b90ac6a7f9e9;
  sd 0x3d2439ba8d51b99660b47ef3603786ccc9dd4af1c5d1c5d3dfdc816a51455fa9d88ac56608835637fb50431e1774b84 0x15528779ea282a97e27c5d1ad5ec3f13fdc2ebb385f574c3873ee754bf992e10dd411402d5bbae8da1b16a16df29f08f;
  sa 0x19d5e25c873a7233f14863cacd226eb037733a0c8bbd452828a24e69a4d1a5b09408b285104da50f67969e44c5a72e9c 0x16351f0bcc102fd5cc57f77a5036f32997487dbf11312bad421ceb7ce184dc666b1759dc9b51814c7482b8745b1f08f7;
  sd 0x930c3dabd66b3d6819395664ffd03fb38f67453f07c559423bf37ce9818dbb9caf39388d846a5cbd3b020d424bbf486 0xdbe3e42aa27be00596d4ff981d6d46377167b9726a8f69fbb288b89089d7b7d40b45113eddd27501c91c5d56fd430b3;
  sa 0xdb7925c8d656905bef5f9095ea87fa986d0b69f7eeeefe8c38abbabda0001cdf1ee956d5de3631287816f1975f3c187 0x1599211bd4ec1df04b763871ca787577c347f472be735d7db6c3e16ad225482e6b7ed1ab1284882134ae1b156a2f0bf3;
  sd 0xf345012cc6ed8d0537404b00a142c271cca91cf09c6ba7a9a05b5ded1e26ba00a5c73a8b2d8a45b00995f006b5577db 0x5f884a6fcf22e2953425c140325006b5e5c0b37fa737a00f125255aeeb431200f63aab9acdd42943ec78b7fda974675;
  sa 0x1623bec6cb976d2a906531ace96c8864eb24e6cad3fd5551506b2778c1c10941c80b2256837fa07fdde1346543985e48 0x6341673cecd9ccbfa8cfa0c9b1131066771ff30c55ebad579273786b9920672b1df53b0bb0674dd3ca192a32cf89f1c;
  sd 0x14f478fd0e4baebc5f1339d218a135ff60ac5f7f4fa15d0057cccd17d7252d61c84d043c8822717a458562b178e0b47d 0x9ab98a10b97690b033f13bbfb4022df0054f3bcb6e5fc737d9cad4fe6eed07da9b4e1954a99791676704f8f947cac9d;
  sd 0x15366924d7d26bbd023bea9e1d4db25f067092da1b1a875e6a7d91c5f64e98f3cb4ccae30c86b326d5f1f9f3ba6b5ca1 0x509ba4cf949febfb52628b17599b90e8451d9b38c977840ad0926d65860333d0c3018ac72cf7b579260a1e56b70813f;
  sd 0x19343a4fd72080ea022550bbd9f127821fa7bf3ab7e2f45e290114248747fbdb4b0114e47f2589c1929e9f079571a06b 0xdf97b3ea2bb35878dc44941766ee30920e666ae363a311b225d21baca72f85e21136aaf7de778b0fdc956dc1660215f;
  sa 0x87de2332a3ac41d4d8386f3f055eb78dde754a60c36861b5d5590431aa9e2f9a286f52a198b22e161a8be445b6bb3c5 0x12e87fe19e708e750818a5dab3af5e2e7492c39b3c76fbef059fcc989e667126c6c9a164c2a96b8e89d2e7179e7428e0;
  sd 0xcf71f767d1ac7d8fb889b662ab0fd80cea0074420a470bef7dec3b3025da6b0843be662a5a9f162e087982dd8366aa1 0x14d168e2db400fd44e917bb4bc808e949bb7b7adfa12764ae8ff6a219588134ba83e41fc2483af31d936bf0872231415;
  sd 0x330008c428ce77ce7c484ebe5bb40fae8edb5738ad3d191a1671f507c75a6cdf39a305079f06dab900133913c3829d 0x187ce558c9cfeed28fa7455f14badf12cd067196ef0c1632141a1e3b53e175bafcd9fefcfc32025ac93248959e35b540;
  sd 0x17a7b1eb838ec11045d798aa3acc3f1a1cc79453875e4e99b8d86785c270f7ee681c4553068ce542b3e5ef0064a67771 0xecfb7c8f33ff3608d8a1de12258e9ff2e368a79f567f79170446254bd30ef0599e844b21bee38088e02258ec2693211;
  sd 0x68fe5a6381c02c3f227f5befc15f70330b2ff4be30550a70edfee5760b907716a4b1d169dd57244c2e2e627314f3e0c 0x1617e7ffce822ef31420f5050dbfa75bc4c7d4b66fed8e7e546b1a2661700734a9141bbd980ae8e842ba25326282a665;
  sa 0x7994a9abcd8dfa40dda21fc77a375d267106832f8bd3096d7f18a54241a96b2d50df639ebcc70c2553d44948fb45bec 0x18ae16ba922d34c9b366b7e0e50cbc65699389ca966f83fec05788ab4772288cdd4286eb87d5badb55452334a093c3ef;
  sd 0x50b8a262e59be50f4913d01c96394936610b3398033817b803ed3607226ccaf1284c5e2d2324cc47d28cbc3233ef442 0x11da298fc393b3d1da34c18edb7defdf68ad0046603651c2ffac48112f2caf3bde1408477c61d4abfd07890291ba8811;
  sd 0xbfd31f305a58c3825dea8625c310f2489f82c573739891be18773f0fbbea14843609eb11af256f6fd0e9d7d7fbfc4c2 0xd4de6336a3b3068085c6e75b15de5d0302e3244f384985a058fdc02a1fe04e27d354c1cec776521385ac0cd65d434b1;
  sd 0x2f5195f32ebf4993fe08091d5e4a472837a3259feacf65b11ba4fa63de951fb6e65ba896fdef03ec839bedfcdb19e6 0x19581d74c878caeaa42c66c5c80af24954e6b747f3cbdd454c19338c3022c2a49d9d4e5991cf762f101082bda60f574;
  sd 0x13b97af6c870c584411cdccb16166e81a0a10ca0100777ecd09edc18fa0b6cac5c8abe79d82cc37ae0c449a7f06f8326 0x10f508dc5e81d081315c27c8ae29f167b3b7c4aa35d47abfd30a489ca6aa9b0b750285acb8a6458e6209aaa258697e19;
  sa 0x39cad82ccddc7cf98672652b8dd3470cce68d2375d7adc9a82f45df5d84c04630712391ac2c901ce140e12c1656cd03 0x12cc341c104066a2c31fa91ed932becf7d5ebc70ac057aed58f4e1ffa85aebd5e72327240f8592babd3f6e7f4dee131c;
  sd 0xdebe23493bb8f340989f82d275fafb2aca76e022a3faa591ca4662285f9fc38260c69304eec9c992b0b071a25d64604 0x5f8d53e08131a340b61b294680a60b290e3a67bbbd52ca5906bb76f02e88c0ef5ac2898361c01908e7f43b8b2971009;
  sd 0xb065bd208c41263e1abc74d233e6e6b01febffae039b184d614246b42cd292f53f282f61f1bb3b1d5f9b8ee4ad6dd66 0x122d9e74043d05457cdba779011d44ff01246b6c5000d4e5bcea6efb916aef2ca7fb230208268deb6a29b342c6afa2cc;
  sa 0x657d36dada75506bdfe55a1877be0affdd8b9d56a3830eafb4a8aa87e362eb1ee60b3c6235218c30337ea765fa3cd4c 0xe054abc70b50270a24393e46cdee201d2d44b0e00a6c93009f11adc8436fb53d1576a5575de19474239235923365930;
  sd 0x62d52f3ff32da6269fd7cb4db74c490bb69387e647c51efd30babed89726ecbf3c1268900542e9f79254e96dbd89695 0x197448c150d2e8d22e793f6be9de63391a3758d452abfa69cbee5a26a1faf33f7f675b8b4ec49fde80fb7346fe59d761;
  sa 0xd1c4b911c6cb902494614cb0a64f514f88f99e45981224876788c67843e426a92a7b92cb587e2d8b135db320d0df8bb 0x169c66fbed0322b6001c13ff0157884ce24091a817442cbd7a938df682a1d41ca1cc8c709f5c20af0c1408c3889c95d4;
  sd 0xbb277deca552bc0efafeb227e18319f9605a70db722a94e8f4f5f41098796875ae75b2d26adb84751b43bda9e50e70c 0x42d2f2ecd64e4e93512c20d8900dae7d8277271620d6c1d41f467f8dfbccde8cfe6b401488f9574d8a30cc5dbdf3014;
  sd 0x95c82d2f582d51c19f789794edbaf87e9743062c5d0dad20cad62f25b90c5c67e6a6da0a9fed4a71885dc80d5d233ff 0x73b8e564e4bca214cf9fcb450fe11b566e648b2aee6a3e80b252d636a4ecb8ed9baaa41056de48b01fff9fce876c896;
  sd 0x5783acb3f2f4a78664ef494a21878f31a4e490257935bc0ae87a50d7f56b1da320054b6087b111f275f41626c2fb03d 0x186c5b3c52480c42941e983a58137f09e5a8cf00897800f268ed78a10c965baf65548c3255016bbf85a4511c2bf5cd6f;
  sd 0x6faaab7af9bece15f51a3f5a1ec4fb689e3783e20ccb5a468ad88377e071ef0ca35ea22990d99930519282a4ed0f03c 0x7338615254a32c19e1a7140efbbbe9390878ecaacb352aa808f1fc8d5816fb5428bb441b6042763569e7081da1131b1;
  sd 0x196e277d6d54f007fe14ef4e919dad6dc82556de40e455798f881c82b55bb0ecdabf431477bf6fe5148f57f0d1ca8bca 0x40a3d6ca1c8b26b6f99104e43de0786a83acdc46e4f4afdb3f0435a57b8c96ea9c64f172682116180bb68c5e18433b;
  sa 0x9f0f2a05d58745c19e819e3188d4ed9f5fd88d4e3db7a40d55c9bf33ed39ec4e22703b91d196197be7898b268fb8136 0x11a41e54b06ab9aa3f5db761a778de3e5884f319cee5280508675d00d5673158613b2ddb1c4b1dd4cc5c06b437a8de64;
  sd 0x7340e2457d4c965792ba1d23c7a09cddbf9c2bea1191862e46fd10ee7d9a4079d0d3fdf5e1dfb248b511dde7ab1a038 0x1993fcc5c3c924cb3cbcb89c907fa1ffb56cc13180d6891005622384aa71aebca16f3c796642a38bdfe4c15af5087a58;
  sa 0x2e1caadb02fdb0d4fc7d6c4da6d0042dd15e0ad62598deaa274ae3cb63157e6a5491542e756ef0d73c859e17fe67e28 0x52d395b50c1a45785267bd6a09c1d1a1979b4221c275b5bab02042af7856a1a02d37033b8aeebec53aeccfd3345ef12;
  sd 0x1342e6713c82c9ffee243fff46d2a33634a75c56e505a92781015b0956afcad6217fdc358d317fe85fa18e196bacbfb6 0x4ceb4893aa973548ef1e0a6899ea27a5e1ea00e69cfc09eb17f4af36ffad9fada6b8e9eab2a1030a4a920d566e0bcbc;
  sd 0x3d5506eac9b0c532bfc2365429e01b4aa338dc46eafd228a8c1065ec04646a427658644a244e73d9d45ac6d4d3c71ab 0x1090af5ccf26bcb3de1fff56de83189deb40b878ad7eb60e4ecc15d3e6e00c9724112985b04ace006e0033afa4746e85;
  sa 0xf25e8ceba6aac3919929464e11944b0dc3155428e2b541e661bf5fea3e52d14a02498e0c48fac8bf3184a01ea20e395 0x6e881310f5837119dfc61f3784de3afe02610b6e21e17de6cdd627062680024f3a7af299d984a60fa8e43751a1b5869;
  sd 0x1411b5ce49bc65362343d59b5edb37f49f46334b32dd6de5238ab91f0c57a5efae2c27c8aa418dcfb293b5cd728296ae 0x3e00574e1763dbbfe8760d4bbf4bff6fee5972eaf501a3ed0c86a00855b961815fb397d3204945a8a66859019c7548e;
  sa 0x5036aa67ef5fa3c019da758cf765d16f1a08eadb99f6b7d410b58b876a203bc524c08cd536e11efa9a6b90a9a5740 0x4607b54956e9703b84c23c23f0903b96ed8e90391fc9c547ad0c96894737b2e110fc6bbd013279610862e81d44d176;
  sd 0x1321c9a3b88b43c7a860b70e889f14bf178a65a622c585c1f0c4b660e55f9d554044b7701f061ba4ba015c50cfb0cf48 0xdb841d94361bddde6c697042550c925cef5a559c922689c1d2de53efbbd3aedb4463154a429dca022625b32c1e1f4a4;
  sa 0x184185fdcbe0befab4aa324a4b2812a23bfda83a232f260d62501b8d6bd41bf008e1c58cbb852e3ca2b4a8662e3859ac 0x197a1ad2c34bc33108480358efcb0389ab3917d129ff7f4c7435987596dd5affacac9acf396abea0cf51eb167bb06f4f;
  sd 0x1407339d4fb723a9a3dfafa3bcacb6604dba92eef29f86e2920374b46351d3b387a28701d07a3cf617e5f4e32ac22e51 0x109e124ec83798426ff6ee2c90b51713db1172b58a070fc4dcf40b1bbdcbc863d82ec561c3f3f5363fe0bf10a8d1d9ea;
  sd 0x6320688d791a871820e74eb548548543b13c37410ecff72351cf3ef964323fd8f5244dbea864f0a164a8a52013c005b 0x3812c8a4f1f36cac67b31ed786b283eed9f5e42ed4c672f55d8922a8f953627b23f9822202fe3b980471883ba825aa2;
  sa 0x1d32002410ff065985cbceab29e2531dfbc21d5720fa6be2f0b7813d52f62e1689a273782a17ba3c9b8aacbb4472afc 0x580bee51467f96927de251806853776182eefeef8b53206898bcc830b9ac34cadb25a00d83f357d92bc1b304e32e24c;
  sd 0x97b4923b2cdd8a02487a2d00638f9ce23ee97c8b6bc8ba3ab56b53c0ec97de842a4f86ac4092f473ee8cc8ba1bc5f21 0xf550ff829bed500ac128c305b689955acaafb3c355b1dc41a304e8d78c255bebaed8bd3d333c5a4b753cbc0f116de1f;
  sa 0x220caea0e60ef7b2be501f339419579adadaef50b7a6e3e85e902f3e1b3a527061297fff4ec6b2ecd60d6b04590caec 0x6fee3caf4f2d6410e5d2f2d6439b0d1149a7307e486c5f5f9b4ceb7d8df66226e5736633f10966887a8f04395781d2d;
  sd 0x164b15d02f13b901e7daf6abf0f5e9233b327bd276beafaa9344716343141712910eff7609cd5ffa2f7d5836dc28581b 0x19ab8cb01b6ce8a757dfbba0a2fb7de5e4850acf61e4180ddf2c3ff040dccc5ae6fff4a69249a074efd0e2c689278c98;
  sa 0x9951e0d32cd1ff77ac41f91d2da082d29cb874c052abb902252be0c6531ae1e259b05005f175c9ad409ae11728313fb 0x77a5ab526e45cd2c6ca588c12f0e824c698c1607878612e133b819de9a274a33f962d854881cfc3439fa2555346d3e0;
  sd 0x18c26517117d27b9ab5b3980675f935d2a39ac1a3231336df50b0f7a2e61e915bb5fcbb1cd513c4bfe9f8c238a3c9364 0x10b5ce7e7187bbe328cd62cb96c7254c742eac06e9fdb5b3ace4bb93c2cf000d85e0a77b33659bd28395cff4b7d52801;
  sa 0xa2cc9e975ec09a9cea2ab0639cc63664ab4219ebaa28612cbf6f3ac02de9c4c36b8a065ee91f26318039e310eea11fb 0x7c9596f367dad1acccc131dac1a7dd5308c5d5222479b2f60ea345b3dfb2aace9f838f965b09955a1d749cd8f41f5b8;
  sd 0xb5e605e0b6281eaafefdb9de7099847bd11650b5c3bb0a4dbec1d33a7d7d8aad11bf720f06ecc947b4eb5301de8a8ac 0xdb5d6b52743fb0103b43fc39d25f38dfaacf12d476030245e2a3ab24020e5b883e4a0bee6aa5acec92dc223a2541bf9;
  sa 0xb53ed16a790d9b1d0a2c68e07adfd3761b7b6f81c06ae93aa5ead26a1350fc97558e3ee85e10355bd397b7a3cb425b0 0x15153d7b7023ff6b34de63ca116d0311afbd8d0283eef59c192197b5965c358de1278cd80d7675ab2aad10763d47f037;
  sd 0xba72254d6bb8d1eaf9b07c9dc88c748f245cc04f46a2a9858506f68ebdf753b0dd27f6bacf31e8ad8203a5b637605c9 0x1684b2410cf530b52a3ac0090ba9e28b7e362792faccef22a764745ee059e8c9937185934b07deb9dd5f09f32b278c6a;
  sd 0x114b50b1aee8fc72f51670731313ab8c039b5752c1a0ebd86c824aa38b0f981627ebe929e4f55eb81069d521698b69 0xee891e17cfdae1c093e739cb72731cba76cf9243e39ae6a1b766262f335a9c4db271661e297b07e9b429ae1d33ae00c;
  sa 0x6b552215dd0c4d66f9bbe43533a9c5f328e728369c44c17f12670e6220e3f92c079af55cdb9accd6f3f52066ddafee6 0x1805de58d70ecbb7a79a2d0dac06b9909566f43ff9e50df284554ff11bce8d731d45a515bdad8132633ea666d8aa5a9;
  sd 0xd5412e878bf843d3b938931cb406ccbe72b4f1092de95c929844337795773414135479013ec731f40b9f23253c31677 0x2d0fac0c7fe4e535976252a635f59c19ac326728ecdf7392b75e66ad8396a52d7d97676f00469e28fd4df9a55957017;
  sa 0x49be7aaa3a706cf8fc1f5a4ac915ae1f6498702d3c7940ea001ee3754e4f5f6673baba35eb92741f8e776b9e348d91 0x202ecd665c32fde77afa3c3ace511ad0cfb6399ad1c8242c4bc1217e751d651adac1347c4233f2cc868cf3a70e7e47c;
  sd 0x164e1f450460cc59dbe5ab80ac5dfba32d59a8814f0703a2345aac56fa4c8c33cb3292a77f4d4bb364967cdccb360574 0x85643c4e267a9126c2eb2d31672de8f375b05e56f9b737d39f3795f8ef08f169d11ea2e23a1b776fbe4cfbf0700ea5f;
  sd 0x99a644b0dd65c8d3f8ce2ee76ba69330198208141ba9fbdf5991ebd91ef52664254dade4ae27aaae7cfbf79a1c74e93 0xae4f8e8e432979ee2d7e5dc7971e6ae3a5e97d9bed9f12c645c1d091b301808fb6fa1231ef72d96b9e6ea4defaad6ba;
  sd 0x13898164758621034970cbd867e1293e18fdf54ae1ee06fd48f82d40d37ee67fc0a923888aca2c2aceb28ee93df302a 0x13113277148e217050366e788c3299dbc8d1b37dfbb301941032ad6319bffcc44cd5aad581195e2b31797b969aaebbbe;
  sd 0x17a2d34e7dc9b5cbb0b6a030d93928a8555a31f7965ac82c57339e7a8f7b3dcbd4de8e5c5bf0ea98e428f0d0538f625c 0x1749b47f6bb03ac75388f4394f75db120d708a272be069bc5fd2e6c856c1357f3c314123bb882f90713ebc39654e6af3;
  sd 0x4db16d050581e00a334216e9623003ba9e9be8aea4f9e575bf7d2d13fed14472e111f9a7750930683f0cf19d51fd651 0x173695c4f1427f7bb628a6e29c93ac155d4cce89a0aee565b9a394ae2804749a6defa6fb528ecefad9ba58dfd08295a8;
  sa 0x10be1f993c1329694ab94d31b649e70d66797d4037d44766c4e76f3cf16520821b6ea0c895e23498a6a4510088d8a0a4 0x167f7864a492e6cc2cfb1e8d560ef15998d7b0f2cc9d603fb7db8993d0d3f3ececf85863bebe95d60994a48295f7a855;
  sd 0xf5863cd825c61b0a412a6db2eec70d4b5b82a979318e9f8a395965c01edaf61d4c6fb6489e1d527c75272430837aa31 0x6269f7a12f20956c82ac3724a9df0567b60c305fc5df7712c572089cdae7a86af3f0d6f9bf2cb6a20c57855b8c81d2c;
  sa 0xf50bbc5779557f953441359691bfd7983953029c1d1560b3163b7b3a3b44c5592d814f8a6c34e353a51977c35ef89db 0x1734f620a14113540f1367b536db4592bc01bc68fa7064743a0c8612a9a35ec07e50a3e4876553d144a2b9deb49abc5f;
  sd 0xcf12300f2028eca1d780eadd77922996531a5a3a56ffc95d76fd3609d6dd830e25f42ba1c3f629c2a52ed7e936423be 0x369b85c24d4e98b20a83c1148c00e439c7c63ed24cea6a77b8611bdad33baa248802e65cef905eee1abca1e2381352c;
  sa 0x845d1f3fe00b5f69aa96dcaa84a9424cde3a006f7ee0b54f343f7be1f4ed00f03fc1de899424385579918aee3681202 0x1a1e6eff999e53f6e44fccd169b9d59355142396b2c752d3795781cbe7f69e53c28dd17808fb83a4a6cd2e8fc771ac1;
  sd 0xbaa1c6e674ca2644bdf784bdd7fc4f261915e8204e3a9487498d4a61c72adab7aaab5f7ca2273f593d66843b5d5f37e 0x9648d177e2fc04c3147b7419cec8f4f1fe78f47b2586b920f107b48b745ea4f2d6286ded897c2142d93f96d961d7f83;
  sd 0xac75853298299a9acb00bb03b3b6c492f7c2cad574e1aba623e5ac8e7261c0180c3834a1bad96732373b714f2b9dcf2 0x64f3154bf4292e093f561b9736fd961e806e67ff6f2a402212541646566a36daa4bd48d21febb20cfd744390652c198;
  sd 0xc668d8bfa3150aeb6fc63467b843610ceafedab59e94f341a32cde5b0544ac007167111f717ffc4de6b6e6d308b935 0x13b46d90aca6aa976e83a7ff3d5650d8f6cd5c1a1449abd62e6190d2aa064ad79bae1933bf710cd399cb257ccc79e7c3;
  sa 0x17829b93699fc35b29d3c8f150d1d5d4f87b70ceeafd861fdb4bf3ef8c2d02d6536e240938ba6ae60fc4abf847311718 0x9c2cc630ccffe7bd16888bb6a288bfcf6471a408e589bc3e14db6d31301811f292e2514d061e274bdf916ad4e8e270c;
  sd 0xe4cc7d074006b459b1b5f074064a24dccb2cfdbe9b549195926406cf9130c3fe7eda46201ba329caf21b51c5de45aa2 0x1273009897ac72d2070ab0876e618044e8656968e95c935e6c8f63a856ee949d79a2ca47dbe890b016943f480d4a55d5;
  sa 0x10e378277c1cf532a788f4b1c1843cba02c508bd0a79b774faec5d9d9cc216783af2b4247928a5be32d4319367c313cf 0x1262dafc790f66a47be1e0b7f52b8dd3ba90445e9e197527888ef0eccffadf82fce76468031418b2c7299752ffee8a0e;
  sd 0x1040e5132380f50953faa305391481b9144bc1f3b5c19e58b63e34aff0187287f93f17dfe0b3b261c4904f466658a3cb 0x241d088da10a83dfcdecafaa60a89b7ba90c59467738be3149a0193e5349fb2d33b1106712aad0d1bcb41d85792ba22;
  sa 0xf6148996670cdf9a4b66b249287f6f621eb6dd80bfaa4ab3e705b5b8fce6884fd83b7f5d5864ca8e49118d3b8a9bfbd 0x18944a583a0763864dc86b9985b9156d4da9986accfb9c60b995753175e83bfdfeab9265033414cabb489301517e4643;
  sd 0x1706482d8789537d139af24d80251b38ea1d5cad2a591e1ca53212feba60235ceaa5ac6b19630c29c7b75f072ca21fee 0x19498415cf21e32fb63124145872e7d2db77214c92eac4e2db50648a0ad1f9dad7b9f8dfb294fa4a1755baf41062ff6a;
  sd 0xbed9aa8046c7ac141b3430a006305d5c2142bb9a7f9b5e09b7885731e681e6d497d450f01242cd2175e90321093ab95 0x18f7339bb740a0e3856b3acaf1f5738fe75ce450f6b7557f9a36b6828da99c38039ea20e294473d6090f8d7a8ea619c1;
  sd 0xc80de445c52ea5af6097fe2dd72d7e01c93b67ddc0584c7b63aa7a2ae70bc3c2ecdfad91cd94b947ea01a0f7c6c54a6 0x9f074828b60c995ed7a3a5fd2195612f42dfcd53ecb75d3511f996da3f756f403c27d80502f4bd455047289c74c88de;
  sd 0x490a27e39ae8bd643fabdbdc64f09b96149ec905d8809ed30a55a2d670571cfe84b9be552ee0bdf688d8f08d9aee01f 0x161c3b91b4819b204f92576d11bf825f8122cbee6bc1ca2cb6f6f133d531ed8abd2b5a6276f90b7e2540bf350a32dcf0;
  sd 0x605bff1096d59d253fd97f3af4b6b867771326a0ba6d49bef098c4c456091aff9871d84c313535969ad212f7868cee5 0xe76f8a788e86fc50b35b11351676ab5d475fb0a48a10810d2505322544ceeae9019308a0182f35eb6be0a3e2fc8d73d;
  sa 0x198f10339fcc97cf1034711eb137779ad239fff3a73ee146840b94ab27017d7d4f0c183be8977fc3764e7901610c934d 0x1462b7d7993496665afa464994207cbc1e49e2813c5e25d8a0d1a201f87aa4b4091621c5f77a5aa7113c67fd579731cb;
  sd 0x1779b1c457b7865d58d464eca4ddd5bff845ba2aad8fe4faa4ccb8d99889863141b1576e93cd8e8e5bc5d4dca1ce575 0xc5b98fa06d4f9ce07edc17837f8298645fa4a81b4a952e8e8a33b3c580c2ef6751a9b56459297d955aa7fc47ae9668a;
  sd 0x99cf5eacfcfa88710d2f80ad89ace07afce51218d6459d4ca4d8306e9983738eeb8cfc83cf4bd43d5620e3c53193c1f 0x64a413a34bead5c589f18228989ff3adb8cd984646af8f1232e03e288e218981ce3b1283c980b5c187d8cfd30d5b84f;
  sd 0x9c0624e876795b5cb9f6fb1a653f8e96a53f3de65ac96a4a2ac00e534fe665d26559453518340231767e7309b360f32 0x160237c8b63ca031d9963ae72388bd83186e11b7e7d4f8401cea4a86957b8756ccd7f3a1727abdaadb7f1f1d4136b1d3;
  sa 0x5a9fade594daa46413731e8efb1435cb944d7a96872ca661b8862d4fa2124941e2104cde2ab78422e30b2cd776d1185 0xb26c9348703f599eaaa7b97df2e3da72aac6aadcd2a2c6db48cd07f6f41dfb5105da68aa9169d6a27a557dad4d2b7dd;
  sd 0x18b85f5010b33858ebca7b5acc8cb2d1ceef70ec66403dfaff27c752c42b45902e11411e7de2a7c9d79d8e9bdc34c082 0x10161bdf3ba776b0d4960e3be1ee6205d3931b4379fa70e54982295b2450a73e92775fba9ec1e9f72e38ca85342deef0;
  sa 0x1867343272767f095e7dd300262bb7cdf68864dfd790f14ba4fecb97d12b662a4053b382610bad0a009ad5cd2dffe098 0x184354ca5d7b2ba144a4f276debd45a9cfd44e1d5a7b433e5629028f064ffb0959ac41f503ee54c47031682f930ead4c;
  sd 0x139b786c4e49222fbbf5ced7fbb5a38b986570186812b959a8bad35394ba498e1b709fd616f26e10577e3f2323019052 0x7198652798a2f7f1009b4ced378d8da40177828f84a65fbb12a3ea7fd9bf3edfcf4d9bd038a2e5e856d14721aecb5be;
  sd 0xbf6c0d00b305d862a2d7ea8f580706772eaa55fa9a2f8aa0e8a0f298f30a122e147d029bdcdc19c91a261c1c2fe9cdf 0x34e22fb1252b24f469dc1847ea886e109b043b4ccba7cc5e8977e876bba4dbf110325d8f8b5dc8af7c442cf1bf85bd;
  sa 0x13913a30305b00bf71857458283f8c693242819e2a7b604577ef67f0ac716152920f014a5a5e12007cd60d7dc66ba0f0 0x8234e70ea29dc9b8d50da3c5f690b828307daee58ff727ba55ea016004b24f483823fd80afc77655c9fe3088a8202db;
  sd 0x24b319c1a13aedcafafcc340b8367442c2abfc364063dca3bf59b59b3401969d6b4a0d4d613c1ad96cfecbdfecc3a4e 0x52d64787b8bc4c5610b2d737c0b61a860c5385e9c0afa9a481f4e6d11361636c09c47d7f2bb3d0018dc314e4e3ba685;
  sd 0x1836b1c579a7ad54fd464d55e24b85e822cfd131d706a04753af409402dcd10c81068dc085f4899753b0b41403be5670 0x46b28db7a1e288e20c30eb3a36a94318b9e5dd78914a48e810bbd1c44240c09568834d759f146d65f1f6b966ac510;
  sd 0x178af3af35a026156a36ed97589d0de3c900a7a8c227db528fe591b451495dc87b8fb6b84965da571374e5bf8de9754d 0x16ec5dcd88fef69e7f9c5bdd25f402a03834cb63cc49c1b110c1cfb7695f95ad8b0abfa58955c81d4bef2c271d82f951;
  sd 0x9e8d72654dbeb616f9d855943f0995ad20a7dd9acea88c97a27838ee59a2f2c07a49f5ed4f03d6220780501fe907ea6 0x18b3435ee24abfe21f08edba37422397d9496f90fb9dbfdbf2a63499a8be88b8bee37c80b235d7de8c1acb52243ea7ab;
  sd 0x166dccee7b65316bbb00366bca18cbe24ad76e4c0fc1439a42e13da4cd5347341155d333dfaad54aad25f6e1c663c810 0xcd169ba0c337293f289a0a839b7b6699aa1f2218ac499cf17309e7907b0607bd14aaf559a51fc9423b02de503e4fb7f;
  sd 0x70e48552c727737d6ec46284d59169281d37d276aaeb675d1184f0ee22e779bb2f126af9c1a541a316c7a570138ac3c 0xebb3a94c91a2f138771e1c1afda99c1de0e23e4d041c8dc1f459fdfffc76294e8fdce4961fda4ea5741766eb3683d12;
  sd 0x1192aff96b134cd6a5dd9203fdd9ca6aeff204137e9d0ab613fedb8fda4c5bd9f18cde01a1f726fdac8356305ab84c7b 0x2437b911c4c77bd8ebcc55b1d23f7a46f5529c7ba143dd74d4909e36fec53ee7cea0bf46bf10b4f4d9fd2f2ed342600;
  sa 0x6495ed607f09a097ce7a040a9323aae42647cb78e1b289c2cf92b3371c9f5d852e8bae62ae7eaa63de1864c85a6320f 0x19cad7ce0347f85b115289d51681d66bb9c477a556e73d9da209bb5cf1099f89da65c9b62ba266512fabf063f8b5ec1b;
  sd 0x1363f3c4bf42e6003d1372ee89122579383ca0ca8296a9d2cd8dafdd75030e2aff40ba93f4dbb15a032c618028e8db42 0x5c9405b47bb137bea1db984443427f6b3ecb524b7fef7f935824a69ac7309baf3680def43c5ecb0aad78903c90b2550;
  sd 0xc6fff834a58937de2cdd7b12175e23100388900fa90fc3fb7e1914237c14e826e09f57a49808b263f2afc5ced7695b5 0x43f52a24f87e769adf48300e1aa9901e255dc7b00675cf0c4f75a434ed8c28e486edcb40c9fd99568906676f203c162;
  sd 0x1198d6d1e3abb1a938e6baf9912ccd6c67abacc3d03fbbd9b42fa0d2d637ffbdabda68987f4e473ca0bd3a3a0e67b6cc 0xa9cfee30dc5dbb39ea59f8971fa4c0c8321384fe0b6852d4ccf5325859aa650773fe7dc5a3d3beea625230600b6f480;
  sa 0x36de9f10048495bd8c7087edb764a461e4a18abc84f3c38ebe125540196509c7f90237f164057edf6c07188a6769c05 0x666d6b44c4b7e42c134685d88f2320d1811b92f2ff1b9c347324fdc9ef4f841cdf0414105fa437019827db3d6f34848;
  sd 0xda8a6f44c418f4a0847b777015dfd5fa39969244ace0ec3c4b28d1f3d355a0958bc53c26339047060693025c55d94a9 0x87c9c8ace74e4f1cba7a1ac3f0dc805e4efe0e0c78a4dab7d410eb4a3d19cd137c886774aad7e9b8ed5481fa228083c;
  sa 0xd13435b8341d1a29895096a4ade23fe835cdcd1cc36641c5b42d3b9b7942e156d2da5aac6a3b7fd7386e1300579571b 0x10c6f02c0449f842d039d44ea253391f04c94ec972f4dc257c683ef09f10cd7684deb07d39a14874a3eeb84ff659a0bf;
  sd 0xb7a476ea7b62cefa5bef3d39ca308255d6817f1299943685a191ae10d4cc20fb5ada5159ae5115a36c53e35ed93dbd5 0x8467f892cdc3c68b09409da958c203f7dc14752abfd5e4f37e4a94765fe1327087815cbf5eb1c7e99a9b2ed59d18553;
  sd 0xd481eea5859dcc4d62eee7a96ff3a56b4915a02abb64968415b10f21f354d72772e510cdba5d2553b10b22e99b254d2 0x12098f8e49538b7c1be76f8522589199daf12df1148c52320c96b3347fb95d7b1044631a13b3b8c4a26ace23d96e90d2;
  sa 0xf0e71968bd2a7baec97a390503c0e52169f4f295c7e3222f1a409d83401129130360873e7b02e87b9089d4a0d90107f 0x25e245fa9579add2289828e79493a6538f9039979cf35e7d5a06669da0c32c8da440963327eceea49272eaaee6fe15f;
  sd 0x44d91e74024db026db686b7e880beaa6a0d709835e0ad8f1a82b7621177e0a8544ea129e723df1f70f977249dfc40f4 0xf330ab4f14ce491356ec2959f4d8ea9b21b0f008f65b629599a7e4fc28e2f90b6e1235551d3b0caf495f6abed4ed96f;
  sa 0x65a9ff3c86b04b156633e301b6d1957e7f4a56c7aac34c3cd8bf72c6b11c0805af4d866015b6b655b001181e34594e3 0x174984ce36aa17c98999b8b0ca1e233fd733ff52f0b8388853f67c7b5c3116e023e1b91497866895877a9864170d666c;
  sd 0x15722413c06967ac5d577a81915975bc3a296913daa40463c6831a0b3f753c90a96167c4467a52e0f611b76c58ffc50b 0x22fb3cd06821ff2091c21ebf7861bedea03d3d017b4019fa9d9413d9a654481545e55cf72740389dacffee15d9337ef;
  sd 0xa87172d9f7123218cd5858fea49285671bafa2d2fc163a170a1209e239abcc924215c9d92967c59f502ad6503b7b406 0x17db17d314529bd7811e04630bf2413de39f6d914325c39a0cb7eb3edd2d85678a19fc2062ec63be937e0a514e8395e4;
  sd 0x1930abcbff3813252d158028e773b8252456023a2bdd4af5b8fd6a46ebda93151ba628db7ace0736a16be413cddfeb3d 0xed8d0990233bec739072336862b90e824470ed8b790599dd2d38fb0aee26025f0ee9c08df3efb7c46928d9cb13d5b0;
  sa 0x12cef1bdc85e555e229ac62f771b089d719110b01298d2278331b9661830c9c1e6e0cac84420f7c60c963625e29d9a0 0x21c4937aeb3f72ee92eaadba9878672f39b82bdbc18ee00a37a0a8f9cfbc79e75eb10741bb1326b8a30ffe2f5950717;
  sd 0xd68300e6ebdf4e4717fba26f8a0cbfb8b2fffadc59eb12ba95f0e3e9742a69d65fa8acf886a0bfb942fbcccef5ca6c9 0x14b09836d730d79ef468cadfe0953dc193dab166e95d9a02911a46790410cffbe6152cd5f08508a800aca51da0bc1007;
  sa 0x3d1c8a006c6b740a9e046b0c1f852b6860bd57dcb07a75b5aac6c7ea4de82fda1981742eaf15bcddf0ae53ccf75051b 0x17c681b85bafa3364e6b53c7b53492119f0f1cffaf6f09abcdd161678bd312d8f7ccdc6ed1bda43b162914d11a826936;
  sd 0x18c2e4320a4fe6c13aad06692dab530c4be1a3a0efb6eb79f3a7e6274b4f9b1722b934fc6cafd8e9c3eae13df23a63d5 0xd51bbdb9ad731a525e039809afd6a69e8e12d64a0dce76fda764baa9006f0db4599f61c0af8afe53abd96db091620b6;
  sd 0xaaac0549784500b452fa2b5c33987e840069ea49a01149b340424f66cef1c9d0299e930b1482439ea932875a77a07bb 0x10e7efda2c0012827f4a95e8ed7ba1c0d107c7264335d358a2f2768c17e1920eaa19a76e72ce37bea3f067c35a722020;
  sa 0x13504cdc8e5bedc273c24c397636aa4281c68820c554a769a6c2c5d93bd7675ee5f1f28b3f6409d774981cd8cd5db170 0xd665e09aa9e5d7b8fb3a64c1eea52f3c33cf6df71a3f557c6af2cf50928b215eec3aa89c4a3eb0acb6f4c2af41157a7;
  sd 0x342baacc4a53fa04179db30ca1bd1772e4e9e7ae4f2c40268bd083c7222d88869b8e095df5c4999276a44f62bdaf97a 0x198e3d417bc6326ed1cdb39c6edb480576acb2fd784ee4f61c8bfd44564f3eaebd706d5a6d26028c78d6abe12a0ee3be;
  sd 0x4259130a5903fbbb85e8b10440200ebcb278ac3192782f0d2ce39d3d93758af7608ab84dd2d826ddf7dbf3b01dc128b 0xfd73a503d3cb5acd9ae586a283ac7320dd98c186e67ad6645025a745171d54ccb83e266eef06ec65a1b08946f109409;
  sa 0x17852926e5390621f89ce4c5a8ffa7588442c75c756be36ab2fbb98ef65b348c4bc948c196d5ac98a7ccc01ed9e72a9a 0xc50c654dfd469ccd6fd896cdce696299ec8c6cdddff72f70b77acab11f6c5458e246b9782c4dc8a9d69145ece37140f;
  sd 0x19c26f2f4082379159c05beba8cec20b903354369224f6091a2d3fadf100aeb0568be12d1d86f92f47ff1e772e96c0aa 0x174ce485c34267ae1d6765581910c80ecdfed8095e0f8577d7ff1d6ca7f58f93efd3d70282e2a0dba12f3f97f2cb9dc4;
  sa 0x3f345150150c3454e4cdb6c6bc6729daf8e834c5e77ec21056e8ab86cdd8a81f2261de25656754b8eba85fdca50c7b2 0x1575bfb6ed32b687126d7301c75d7132305eb98645ac27e21b5dbac1947c2e9c7fac886db93f57781d48df9e507c91b6;
  sd 0x10f7078b9214bef75fa1cd96da520aae4b74464070151d4de3a21c77e988c011d611dcce7cd934d9a79834aa700bdbf5 0x176761af3f6b3d863c54c1f2bf289b135f6e7ba179b862c970b23d11bf431596aac7dfa2b62dabb1513b4737972e37ce;
  sa 0x6ad419878307770dd31b8313a5e63fe8e009e82205bd880f58c7cbf30139d9569492d475b413c57ca6451ddfc91105d 0x1ae1b2f61eebf29b08be5d6ca6b3480250712264f00ffbd4ed97379696c230e635624e040852090423d68b688a0abb1;
  sd 0x268807ab6d48583f10d3dec67491d0ab12356683adb5a08f0b274fc936bd146525ab2ce4bcebb69db3816a29e2356e7 0x9958be0f37fe9d018e6c35f384a0465b11ef0d4c78e5a4c335419f3c9abbe0ef1d7d55770c50b2ebb082411dd472daf;
  sd 0x14515c9cf81f605cccb2498c995dbdd770924b1b923ae651b29703882ccf1b572355d797c41c94ab60a2e69e83fdb48f 0xadb19787a01660bb8b3d11c90e18a0555b5390fcdd88415133f1cfbd1af1cfd09314992184bd91b493ae88186f90380;
  sd 0x89715973c5b27ea3abd1445856e6e7f3653cdf2df5990cd922b8a9e52c43405213069bf23acf3c21001b612a7cfe11b 0x13ac9100a713750689359045cefa320a358edcca0319eb23fe5cc695802d4e24e4b13282e6ba6fe586a41cacae35c05d;
  sa 0x3871e4454455e1bb8658d55e1461c5a8a6052d9a28e38091433474c49e30789c919257605f575fc3fb441868d36dba2 0x1370b546f66090a962d8107aace05904c4d3856fb574817d54e0c992a666ef9a9a0d62da8b62b97bd6277ad60e074e10;
  sd 0x8a3d9ea8de3e68e485da9c67c6b168ae0bb82d1d94f9c2646193044f09329cefce890b4b053b7514cba1c70a8eb13cc 0xf9f2bb3994c03a7663a73b10147e1d4fe935212a358608299af5cb59a7245a643540d12b56ed33e1aa97799d52fade7;
  sa 0x136113b41d3215d8048daba6537c4033b894d340016f80900db92039ea56c46749c127b20c7106f079256ba2162d8def 0x18e78dae83747a020debe3297588d03e76a016a2eba3190eef9589230945c1064ffd75f3fd13e1fee0f80be11588128;
  sd 0x6ce0a5a6cc8a66cf697a8c2260c4e0c2ee1886da0030e1acf3d27aa3feaac127dfe95686b6b14371d4f434df910efd8 0x1394613f2cc0571c1eb69de90afb2167220089f5560f77f378f22671eb63a319525ded7b2e7de5a6d517587fb5249d73;
  sa 0xd3bc1d84ee78a3753f178d33a165cb6987a7c70a3a77a2e92ffc73ddec85be2b451608eb4a24fd0c8439d5a02a8738a 0x7808ae0950f3b1126a20cc235a258b70efddaa24c31877c9119397b9ef6200c845da88b6ffd1767f0b48f3308515ab;
  sd 0x19bf4bc22edc9e80029809334f18575f22d2bb5784a3f8eb9f7fbab0568bbbf56a94d7290da1cdc9fc85f267aed02e10 0x146d1c5248fe082688dc1687871f3a56e64669ede28bd919749655c6ba94e93c0eac8ec4c7691ead1abef62374af7b11;
  sd 0x1272cf6af573c811e7dd9d1b31e4a9766be9449475b5a955b5f3dd662791313a56275ccd29f386368d0fd01313626bd 0x6a52e5bd79f6d275370bfd0fb4e9d80864f52fde5f89903b4320e58c25731bd64ca518c8408cf84dbb473a283b98849;
  sd 0x1c1dd76b5c1878edcfb681fcb0b60038959c0d44470bd3755ee482b8724760619fa9250546eb4372ae5a6fbc73b8555 0x19759d7b77034cc52cbb8d8d0e83fb1f151c6b71bb1a4ac2ab9d41087fc724cf95f7657058dde55111203956c26d453b;
  sd 0x6fa2ab55c1e140f423fd5b2a8133cd0cb2c6f6404fa2577701e19d53cb21f4596c71048d3f2c4e6d41c6451189ab4c3 0xb7d01aad1303d6842c3a533e433eb8f709ffd7706df97210a8d6d627cfd9b4d4078b2358329c7508a4bff9e84212af8;
  sd 0xb14190bfc39e804bdbec9d5681d438a855ef93b035e6e7d0ba68501d01c9f9f917307f54d76e7f644bdf849f86c0b9b 0xd80da80d9cdcc621fa5f403ebea0f12edf0669b602469b02f0ecedb54f448c94520f3ce93cf524d6fc30ba65f4ec8b3;
  sd 0x182adc0f49bf0c6e19ed03e92dd70d610bc06b3c67221c10eef5e025f10e0d6a86013db916bef2009e86624d6d429a8f 0x16515d60c41d02a3259a6edf304c714052a3c157ae10e9e3d84d567c503f79a2e3de1a297e5a74f682ea44688c224147;
  sa 0x13628372a7e8aba1d65b9678c0f7f345c0272f599db8f8d1c93d20b4198d850987501c4f4142d134e9919a69e37ee0d 0x35321071b72d12a8fce6b3b5dbed1b110ee2fc0e3062750d756771a12c610724ec07ce039f692ead70dbcf2d465c104;
  sd 0x107473b6c3fa204043da194cda02091accded1c07f68ea4198f16baf885f4a7879ba906defe8a032a7254966f5917bfa 0xe3e64fc2ee50760f4549e9e5feeec1159770e483c27cbea5ba84fdc65f2dec8caa5595381e8e9975390edc302cdf02f;
  sd 0x9d8b012c67a6caaeca7dbfd21671f879509bb39caa21eeac89ebed31b48751b74d864cd60ebea92eb78ade2c69a958e 0x128c47e189794a3029f41d23e15534f9c473a877602206b6527a0b1529286243013123eba6fc18259a88828d1b37042b;
  sd 0x1fe52a2d84ddcc20e815f4333ebab218e6734377af421090d48bd1639aebfc601b8c6e1d7d263cf878901964b5e27e 0xb430ed6429b9b6f1ff2847ae763472d0d4a19f0e31b2946f177477ae8c200b1b0e42469e03c3d789b6e2670217cdf96;
  sa 0x94c57307b3719cedf876fd453e772da2eadaaeef9f48d75a5c3a83b605fdce7b883fc8f8ec45006420444cd97e0b8d 0xf0769d435528735c65c5694da1c66612a611575da6b7546ef15090621dfafce74b7c7c430e796c329150ad3806efa44;
  sd 0x70a23360cb62080244baac3f46504943639d7f4d9f5adf7780c8a69d6079e7be1c0acc4a6dcc9957098516680f56e65 0x59d84fea4e086eee5c2f03efa065983d724841fe3f4d993fcf43142409fda643c2871fa9b033fe9063e5107b9408683;
  sa 0x11a9fb1819b0c49f81a14098cc8296007734b827302c0f94f69fbabe12f535994f3e6904a2644ffd40639edf4592f765 0x2477e97e6b9ca9324f8775a2b0ed8986fed5ad3f55728ef6a9c25177392305bb780635e4accd48a1ac56258bb2fa958;
  sd 0xe60081df6b17f37e3b602a401afcff43be2748ac1ced2acb10bcac4298e0b929416702c026f5d6a36dfe40e1cd7cb22 0x17b9965e36ac67c301a68016fdd08646b4fae09545b64a48a8534bb3f4b980e61908cf81eb2326e57e576bbdb406d025;
  sd 0x99ed2c607381d947758e338e789b033c8284318068743146fbc08a908129d441b2f774431794b1feedc421d4ba9a379 0x41a53d5c7b1cc03452769ad0c635610773a5c4d7a52c3fb4948db234d3b62c55e5033343e9188908ea0ee59ba0fee04;
  sa 0x2ffa312cd573a8dda49a65d63e8d7cc0179a77d4fca8b715bdfff0ba6ab511bd74e86776c476c671e48373f45c06fa3 0x16c15b84dc6238b40ac730b9b0a1cf4d9d482ca6585767a7240c10053c2de52901db29a28233fb10675444b5124ab782;
  sd 0x15e01ec2a8743436e04ee16e793cfaa12eb9571978f8e3a473326666ad97e9e2d803cd9bd246d830111505b47278eb61 0xe2fa6efdee1362d95e1aa1d0d0e1d09baa77a0b4fe987757d27335eb4de6b8a0cbbe768b5dace6b54ab7372fef9cc39;
  sa 0x136e6fd307f3d3cb25f7eb8c271eb05e6ea202e9b96b7e750f99e714ccca51bbf17cbb0077aa1af648415e4e5acc60f8 0x981d54414e10cbeb3b9b61b447f9f1c244b9b47a7246e5b2e71a4cff34ba9074611c7b552a9a29f3b040f4e12c71c25;
  sd 0x13b93bd4c188cc6d3f8c683e756376f663be15b04aee699641099e6758faf3e8ef2069885620c171d30b83d26c3c2020 0x17d5077d4c66840fe72497f60aa70353fbcdedd9ddbf26152e77e69738fe1b29519682c193baba2d8d6ad64ad02e4f78;
  sd 0x12ab1b5749e14a5d9bfc10c7d0a105d14d923adba37017e3bd4fcf8071e9165c017be2f26902f2315d459935885c771b 0x2cfcdf24f29bf91affee7676a328cf54f0b40601f6613d52d3e0d12976cd60efa735cd25afd6e09415626c1f93c9888;
  sa 0x2530fa14af49acc7c259bc6b8ea1daf0d255f72c1f6a349180eced8a9b70edb3573d7cc231e8f7fd401f37d1312cd3a 0x4a6634769a4cd85c5185ac5aeba35787ae350c54edb7d06021bb23789708408ef6965b5d232a2a4979fcd786f9a9642;
  sd 0x19b75c7ca0d6096e9eaef7cfbdc799c6e6cd4a8bcd77399d52fa68d8856cf67dfd73cc664da975e77fa565bd64df45e0 0x180907db60dda4ab859a91ba3ccafc5c45b31e8c86b6c326d7c049f6534e7263eca41ea938354aa07532dbdb7dae586f;
  sd 0x6f2ca74af1e2fc793f0ec12cd068ace6661302444108f00c36b1c1282494ca3412522f63aa10d06b8d61b340bdc53d1 0x8141acad0a7c462e64a782fd97d136293d879e982bc8b8ece55d20bc9a390e557ce175fd731f65c9475e157d6810273;
  sd 0x104a5f5530f225b966c5792dae71d29cfc6fade56c291d9f4b37f9defb1d8d43335c0bb12f548c85f09b2edb6e2bdb47 0xfe8862c8610dfc0f2242c95a6ae0177cfe3c6e1cae3863eb554f20bcd13a8ddef2265b652de9480aaac2a79004eba67;
  sd 0x101975b5a3d394f43772b71ddf920cd2e6792a0c6a65dad464c67412a24f94aeebcb19e7c28ec96718208469acfe82b4 0x707e7361c305e88e259942372ccfb2bb464ca2882e894ba27d38eb26cf9b9ed19ac68ac7b409a842526aca1944aa7bd;
  sa 0xa81c7b9c81befffe183e43efc6c7d0e69a6b2aad94ce9c6ffba7c5f4d0fb38c17e54ed66b5a626d29dddcbe10872048 0x1416889ce3d8b9fbe36221c54c4a68d04948e7b46187e0cb3d37486d9721173df433d6b4dc583dd024f74e9ed259dc0f;
  sd 0x1898fbb13cf7753333033607071d82692495d7110a26616da3760e68c86662dac85e020ab016ec949e3a20b36f81e96d 0x1590454dba5672dbceb9b00bd5b4e2df36d121f6dafe9855d4512dd33b9a67e3e99f2f7f32f6ab5ef5a34233cd40dfb3;
  sd 0x150ee9e8e30ced18aa9e806fb83e7359d5a2d409907a4aa3acb74e08033f0ffa2e341f45f24cb9f5dcb4b08538cb4fbd 0xf8e66edd0bfb7769806295c87c1a3ae6beb71905723a6d29aea6b26fc7fd5fad46357613599ebee41df239d21e03470;
  sa 0x76241deae7d546cb1c2d97e00965f712142209b049beaeff5f5f54838164d2e9a6295eb9d13ec43e61c27243b34b699 0x234ed62e7ccb84f9da37c34062bb62d01ed720e4ba90bce14d2c187a978b3b27e737e60da845f31a6901887463ef37;
  sd 0x17bf7f158f84c4e3c2061c046c8301fb1a1421262f5c4392246541696fbbabc2d6e70bdd824815d27d1e5a0964409d7b 0xa228553fc1c0a9936d9d8e140ca7d96e9685ebfd0a6e279a0d43b04be1a842b0401d1f98b16f60f672ba43242ea5215;
  sa 0x49466b9dad9eb0265bcb80dc74b5a82da2903cdbc9d0e0243ebd6be7d72017cc8293497db7ad03db6d461be8597e7c9 0xc86deebd7457ea60e9c4c9b9e00700d4f4b4abd787fe6c2bcac35eab7c93ce99c3f353e9c65a534da684e313f4c3281;
  sd 0x191edc6fdbd7c59132669559c3fc67fada75ad773900861d80aaeab399d4ea27e04a1594d2c3e48ca11f9848b3dd05dd 0xb875644106bc059bc02ec44a52f1f00bede488536f7b57ac0c4b0338b450c272979468e69eabdc24fc6ba84cd7c035a;
  sa 0x1b13c4779ee79a56da2dc72366802a97977c7e103df22886c918c4a4931a8faa0d1e29f89b2891fb00f462616c64a5f 0x14d5adb04d2242671f323a88466d4db64f818e7dc36ae463c0c9d42a092dde065e1f803e5410db183b56b97a0ae38c70;
  sd 0xee17cca5d7593173c976e3a0e230d3acd5323038f46c099b0104c897db30b6e305672488fc67c3d208b9f1cd673ced1 0x18ca951b38e99cac3037c5d10f62957dfd06ca1803e58a2cf427ca9809d7f49d40f30794b2cd070bb7ecd1de444aa48d;
  sd 0x936b0dda7140fe2788c81b611e223d25ebd9e05519ead1f35e154a0955b9da3e22acee78d690e82613b60b104985107 0x302aa55e5584ad0eaa123f80700e3e79d835481035bb63f54a0104bfb817d809669317942f6975eebde49de8946cc6e;
  sa 0x5580403aa3994a254b942194daa7e9ec06fed65e46bdcfa384fbe4a2a807c86c9dbc1dab8d06252e831fe6eab1f4844 0x18ac06394ae3ddf806e41cb69aba85044de8be473d360425ab0683199947c904a183db5e24b59c30766faf177a8393c7;
  sd 0x5dd23a942799717302d392f09ce84e159581f89ea710fa521b33dd91b12656a35aaacd0880ff3385f65c09d88983d6d 0x139e519d53f305436c1605f6f8ab4b6a2a20519adef0058729e60fdb81dd817069bcde8dd35e3059ebdad807005cb75c;
  sa 0xdcabfd40dc4b6b953524384586d7c2c33677d065eca28cfb455292356438059c276e228ec6ba28a3de7e701c506ea44 0xb2a733275b9239a9d975a015f15f6f54e7a22f7e7847432cc70f8850ed70520ab2e4e022243c3df6b1a65b69b1f0dc3;
  sd 0x11b7963fd376c2a0353587902d44d7d1ee8f95061853dbe15553a39445c9a3aa6e53a4e02e526c8b47ffc829f7240ad7 0x48c115f65b3af76076e75c14c2c98aa03a518524451ac6df4a50a61cdf6910da89b806744ca990d94957fd3a6bc866f;
  sa 0x149b82b42cda12af94bafda04deca357dc68018002f90758920043b4de037949c4a9a5a87175988cb4be61c1a5b8c8eb 0x1101e3de3400d396224eaa5c3af8cb500e7abc06ea2a455253333aae3f739b9d95a58c3ec6dbcf0025d3b68e216db45c;
  sd 0x257baaeeecd3261bba66c56f703d9cf7fbb70a364167bef585b54a5a2a89d436fef9a96634ce3023a00104f1e0d935f 0x2ee71543861a9de41f674c2a11b93e40e98636e06fd2e5c77c3fd08f5bea4ae02c5114398fa1c7e0f1c4b54a5393682;
  sd 0xbec6e1a75153d7887ef5bfd0fb9a433400ac2c29f25c7ecca23d55de289b78f7e7137928bf3e02c266e6663f91591e5 0x13aaa9c6f979dabbecdf91ea22d2a960ec8173c2e5a3f05c2e1ccf7bd332c51a722e10d656cd9e0a899b78f6e5576ac5;
  sd 0xe05e11d54fd6a431791a220d97e43881e4338ddddc907001cba1154b162cac6bb234f96e5d5327747baabc39a7322bb 0x1086920b0ad3dc72d2045ea759166ce8488dd1b4e66049b063ee6f4ce78f69053096e49c731e9acc2ddf7142f506c963;
  sa 0x110edb37d6b367e1ba957385f67fe6b44d502c8dc69985dc926cd3c07b087947ace5597cad555fe9de95ca1f256833c6 0x439550f8838d8f77e872b7d314f98e3747753813686f32ae3533b6a45b3cd58f6c33ccc6b6f9b29966908c693ea5736;
  sd 0x29c99b829ff90c33cfa9837d302f6a97bb7cf353a214bb712dcbcdc339e5f959d445c5c8e896c48af4fc036c184a1e5 0x16187a271fd39c80127036e11b110c5cbc5f271b660c2b85309faae06895da364c8d5e3fc0c874f321b1230787e67579;
  sd 0x2304b167f16ca8b2798dfd66859e4094b618d630692b60bac78f220b228b1dbe7b2c01baff3144c63910282f52a4d92 0x17c02484f8e58bd7a54027439f3ee6813ebab9a0dd74be0abbe9fbe4cf30ed17ed2c231dbe5a7a2962ab48fd17a7f342;
  sd 0x1165b99aabddfaac2df0b32adc32c3a608269dd45cffa0d321c4736c72e4edee532485f98e11e3977916ec2e8e7d036c 0x13112972cfc4db30511cbea167e3b850b5267528e5ab46eb7e55f2a59cb1e798b9403658b2d4145b60d3578add43d98;
  sd 0xac9e0a09f27512f59c215c01f672a768a236b15d8b45e93cc3cc28cd2380d88b3d48cea779075472b61e103e9ad75e7 0x18669b7322791a0833df942f5f9406f22f8f577cd26d2d6345ce4679de5fa9e85f47a56e3396ee0b77a503fa634ac587;
  sd 0x121ada8cd184b959e73a9886c1cfbebecb3623144dc0e2bde5f3b12657c91a3541f628eaf6b967354233c0a55f9d922c 0xcffd8d385b41534161bf7f98e09b5c09d7fe01f1243e887e43c466359b1c1d4c3c5402ef05be5fdb1cd903bd3793975;
  sd 0x15dd56f0839dca10d21e63af33ff4c0992b389ce263ae9e3117b2b6cb852407f843902827538bcdaf71345a96282353f 0x2fac17e76463e8caad635f13f7741a066ad086ce6a01eadd247827ac2836bc38b5b239c577159a6f04a2584b4fd8f92;
  sd 0x131f6fdc85ef9a21c5073c4a2af5e8d945b56fa5e6767eaa07209534ca44484906ecb942c7ce0db838dd519986921530 0x18c1e9c88fee4d2e791ae88cc934a150b04b098eaa478890ee59389da6acf3ae22e4895ed5a97b0bf7f053f349f307e9;
  sd 0x6a28380404af68ddf2ac10c8fa1ed51a10970cdc720d803a34e5f0fd9198fab5818d92427d25133c5c64276e8ca415f 0x1926243a72d520872de6d6f13b66c8317b14b219609c9ffb8ef30f8ac2a54ecf7795b539052d2fd63d626d56358da1ec;
  sd 0xa2a472af63ba6b54f1471fe4eb992708a4f85498740754e75ce30d4567fd224389fa3019fdf53ddcfa1fd074fc8b7c5 0xcf94f143ea6368a9004b932afe3edcb7c4c4e2e11c0046384b09a30a4c0a89fa9c5d510c3a5912b0ae53ed4fbb6a351;
  sd 0x107af9ba57e4755411d0fd7660fd8ea51e149ae842df211c9ac6056a389e403929c36d545b61b1295fe4b0c29770e179 0x875aa74c0aa79ae0b6ed35ec15d2235e7e946a77b0a901f49d2a49dfbf882cf7e3a0b8aae498137f58a14dee3da0f79;
  sa 0x369c4291a9789e1eb5d4ce7a6588a26b34796b08128c8a73223af608395774ae6841694105ab1f5bc36e78b408899 0x191e48f066c82c3a441a75c50f94d5d9dcfe14f0a1226a6ec54b2e1b294de15a7a099ab1e263ee5a4754e6f5b2033fe;
  sd 0x10bec70374c9f0f3865799596111233a1f99c8c685fd7a89eab57f6ae37fe61032064a1e6a349ba32541340d723d7b44 0x119e84b36a2f5d0f1d6c98fef68a2db53b4c46d20e747df1ae00dbf903d8a0d659baed5a04615f3472702da6eea420aa;
  sa 0x8eb3535f389d47dbbd4e52dca5c5490ed0ac8b918f5317dcd462234b229c74d8198faa68860f01c7ad9687ea2ed91f1 0xb6a7ac0bd66a58a2137af97a09f6f3fa7dfe2b3ee9d5d83108196478671e9dea6c4df5b1e17508a8a2d4065d2858c4;
  sd 0x14ba5ae1446a0f74d92fc00dff45f0046163887dcd28c5ba6bf07c268c1db4a58b16e2e304e83a72267617df85f8f522 0x10187adf43b39619011b66d4e293ad8f8a0cfa3a79a059f9303fa236965648fbc3297d19654350ea5a48b9a81af2a98c;
  sd 0x16ad9d638362eef3b5adcbd151cf24f492bc205f53c8d28a8b8fedb8c8e44290213b8754daf6a33df0bd1a18bdfc7d81 0x1580707e8f755ffb6d301b4e5355702d05e434c22d077b491fc951c4cc029e8fba8ff01d7ea35fae06856ecb266c9179;
  sd 0xf6ca6a9bfddba0d5034d2d0aca2394fdc4103529f2fce391b54c94130f87b72869464a8363fc144e86f2681f539f205 0xea0ec606c84a0378e209768768e33b6e217265e4465d9ed2c6dea1c5b7354749b07ea797313fcd1f1b0e42cee89978d;
  sd 0x122b229547480b90d1218995d4b07a4d04c9bf376d7d5211818c106800bac11a49bf7233a8f31f8bb295849d29f86f4f 0xea0cab48045173a93bdc81a580e2864d0090c5bffb736ddfb6f602358130f5e435f48f96956dc6aaa97c2da1d012f88;
  sd 0x8153ce36c00e0598781bdf87ced992fe3765ddee257050c89a5277d36a9a57a63b3ac6bfe3c1679e8adbe8acfa0e051 0x1022cbe5b7d161f4e3c51b247c9ebfcff2286820136b0709a36f9b47ef7f1130333ad20e91fe4c636d3aa4be66cab2f4;
  sd 0xe5cc9cc1f5cd2fa3dd794466949f8a9a64296990c7e7af913086cc601f082fbe056dc6c0c941c80ef2216d757eafd78 0x11899fb5a1a912dd08d61225ccea25aa51ca565ba86ff50dfc3c62a4cf27d323efd3c2a088eec97cbaf979cbf23f8f6b;
  sd 0xef0b542a48e0297ea651958b9e7acd10b147e6b3487f7c6d3da67adabb23316ad00f6719dac89ce2493ea5e2f114aef 0xaf89e722da947593117f85c5efe96cddb9af34b7d35da92184d012140c1691de9723f170d29e40445d993774f5d18f6;
  sa 0x15c804a0f40ba5c7fc0a5e8026166e5a245c0a76e771e814e870e32a0c28fdad809d28efbe30613fad1125204034b80c 0x727ddefa1bfb0fa8a80f95c68aca17f1c172bbe6af38e0fab66fc889843badafdebb6cf89a0caad810d0f0e756b4a5c;
  sd 0x19cc99c6aefc6eff69ecbf2815583ff500cc0974874c1869472cd857dbff1e618c15c39ebc84a1ba288310fe89f93269 0x84a242595428c775ac3a83802890d517c885ca0389764d495a5e92ba9fdb3c5ce6f0ff5c5a80f6539b27b12d5027cdc;
  sa 0x4a86ea03d42f0e1eaf97a5af5fe13a06cfa116dbddf7655b3d0b2e353ff1930a0927de6cf8154c36865f7d138749adc 0x150da63ae4ef9f5b72c95cfabff6579ebc6d9cf00daf6d0fa0686af65b70f0a468246b7948c832190261f195f9789016;
  sd 0x4fb01a2ebed838f0f11af21a260b5379620b1b2e41039bfd86d497d8795dad4daa7a9607a5efabcf282963852bb631e 0x909f074129e08567fbe2596268439f5ae897987f63424e91cbf085dcc4647c7c1084689d31def050db832f57939eb20;
  sd 0x3d29248eb78c007052ce1c10354b69afc4df43055223c8f1be1760229ca13f79cc0eb7b568d321b9fcb2d20e482ebd0 0x12ae7c3f97d94cf761706935f4127e7860eb0c8093fab1edb12fdaf20234031ab82826bc55a2489f180f1c516334875a;
  sa 0x100bd02e0e933d67719acd7d2894634ba67a26f489402344750d569342e27399b3a885300bb8917b56c65771620733a 0xafa180c9ed4bc94436466fa318b6de3183a95fd71810276e5019f462e003d8d67aa5878a14e197504ed0242325841e1;
  sd 0x16fec5e805a106b69d23251224758894d1e51f6bd74d1c39056c0b3ec8b1162eb3f5c291108fe19ea084cf1405bd4638 0x49be24fc4eec333b0e53544fd85085722fad5169403b2cbca378df645634a1a98709906a7139edac2cfa939a2acbbc7;
  sd 0xbaf7189922c08974c908ec7dc35ad322000886a9dad21d61f442e6e33160caf3fb3d25753483d5bf8d714f7fff28c7e 0x18c44c84cca4ed33000aafa427cffbf069eb7526c00e7f3302ebdd0831d7326ec3fcbf2b34533c0def853aebc2ea1aa9;
  sd 0x93f23967c6104d94c9e9e42bbe829d5b71ba431b851f75566b6386125838b0e1a1e9016d679f2335c1af6e19bea115d 0x933df551efa99aafc0f427062273c5240a9ddefacec43fa742846b3784cd6ebf96f64163a35b89583d9bb44be3629c0;
  sa 0x135790d9de69ca15c1bc11bc6aad0fbc77a347f1bf4b381f0024e02dea694309f787ba6f229df468a81c66296a1bc7b7 0x18336d8bed8412547d4f96ab844814ad933fe588df89e13ea86f23e893da62d306d675f8c44ae6b42d41ac09a864ebc;
  sd 0x40549ae1138f9debc1509f1ac0c0aad68466fb2c6920866d88f2496bef621b9f6f788a2a125d73cdc860ab3f7e4b990 0x158407443b014eb36dbcb1e5d411338645d2608f3f65bdf55a6893a04a8bbe6e550f8c7760830567630d7b4c099b8114;
  sa 0xc35f22f5b88f0bfeb52ebe3a3dcb62381fd1917336e8782fbd0a720e8395bf390e479abe70610126beec9e4a1f494e 0x19336b09e9aa6152062c2b3a2c2d9ac5ff3dbdf31f9ce35f50137fc0a831bee450755b65ebaa55330dcb7f13bdcd185c;
  sd 0x6af54c65cece11d1a0666fa1372043b5608715c17920d75bf99f309ddbf29a5dbefbffdab7670d997e06dc8697b6c11 0x15d02d59108108088a3cef4ad74109ba46259219e8c500d34ab61e9d45c8ba0f1f24e930fcdc916ec6a46f77abedb522;
  sa 0x18727e6d235d3947f100517409c6b3486748be7fb64703a1981c6d6de188a1b2cde43067933588c977f130a1afd064a1 0x1fea8d5453a2f4461738e5dc83cffe854f9da81cdbf06f0294e7d599674d48f433ae2c35428a195e87d36f6ca3c44fc;
  sd 0x187307a1db4fda7e30fba0b6fe6e1b567226cfeaef6b57fa3b364a414f08b049bfbbbc604e54c4930754955c21bcf7a9 0xf4564b4244dcf67ab14fde0f456c552eee458a3d4929f64c6d48c154949dbaecd446d7a19c84eaf42d5cac5cebae0ee;
  sd 0xb831003d0469340f566b85fe7463db135675d961114884e0d348430cdd977dffd5d61cc6353e04a3e8f0588ce66cde4 0xca1f77de71f29e26d08063264991430065d186c45f8b2eeb7cc700c5057a0114979c13b9838cf151519f6c92afa9946;
  sa 0x1a4d206ea7cb3146947a77f629cca3a17cc788691ac64e74a47580d3577309318f0207ef49b75c93cb7722c2c431d93 0x5589e63fbded608e60edbb8da828a37dbf3490a7f5e74398c9c54b88dfb25192c930027c2d7b9b8bf5584db6284d20;
  sd 0x123558c1107e5c71b6da443227a6086861903bf96202b0bdc6c66a10d794559143a88810d39e0e4d357e2411974f1c0a 0x11c6ac3752391c88df824fb7edd066b6cb3c4fb508c07d292507279fa55d5fdbf0b6ffe4ab40427f48d1e2597f5b2ea4;
  sa 0xa6dbd1bf68bcaf14cd40668902b45442012dd08f3640443510cbfe15507b99d9bd1f2dacd5aff5c8d0d36ef86ef4c27 0xad3a7abc7cfd7300aca3e80510a99b24dea00412509ad4844aeb6a2d8886b657d952294ad47457898f1d8b6deb8156d;
  sd 0x1934e7c07228c38e344852e5f28f5eab8646a57a989d78cf62b98c8c63c3f85b06c61f8df6708bebadfa775b11665c09 0x517020e05fb22f68dca95f9c2a31033fcbd7701633b472c663913bf38a826c0fbb9580dd621138e96f5e9211d80da8d;
  sd 0xe034f5efc42c6c2887a31f229b95b65a0d3bec88fd565d4c17b0979ab66fe2267bf558274404151fa4430ba54e164c0 0x3f4fefd21120b408f86f7108b33bfc2bc0c7ded9a1ad5f0af49f59c48145e5eedffdeb23dcc60d3161ad1121c2d940;
  sd 0x14708a69d8d69e05011404a837bed6e60e4224e36b289be9a837824039e6aa78b3235508e791e38323fab22d6b96e760 0x17807b19440f68acba5c4f02d1c85235469e1ba0c368ba64d8a49763fd01261bfd44808306d5adeaed0f185f8c29a67b;
  sd 0x2fbd69033bd71ea87008343e428e4607f5a7d84a28b0701802fc54facd8c680388a364f16fa41bae2f33254c3ec68cc 0xd8d77a8cf252bd201924c20fbbdd479734d6baaac7796feea85e6180e64cd6fc26eb7faba224febab9507ac2365b5d8].

Lemma sZ_on : g2on (Aff (e2Z sxZ) (e2Z syZ)).
Proof. unfold g2on, g2a, g2b. cbn [on_curve]. unfold e2Z, sxZ, syZ. cbn [fst snd]. fast_e2. Qed.
Lemma s_c : g2mul (Aff (e2Z sxZ) (e2Z syZ)) (qTW - 1) (Aff (e2Z sxZ) (e2Z nyZ)).
Proof.
  apply (slope_ok sxZ syZ sxZ nyZ sTab); [exact sZ_on | vm_cast_no_check (eq_refl true) | vm_cast_no_check (eq_refl (qTW - 1))].
Qed.
Lemma s_ny : e2Z syZ = E2_Neg (e2Z nyZ).
Proof. unfold e2Z, nyZ, syZ, E2_Neg. cbn [fst snd A0 A1]. fast_e2. Qed.
(** the point *)
Definition Stw : point E2 := Aff (e2Z sxZ) (e2Z syZ).
Theorem Stw_on : g2on Stw.
Proof. exact sZ_on. Qed.
Theorem Stw_order : g2mul Stw qTW Inf.
Proof.
  replace qTW with (qTW - 1 + 1) by lia. refine (g2_mul_add _ _ _ _ _ _ sZ_on s_c (g2_mul_1 _) _). unfold Stw. apply add_opp. exact s_ny.
Qed.
