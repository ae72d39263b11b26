(** The Miller loop on the generators of G1 and G2, and runs of the test
    circuits.  The slopes are generated; [fmiller] checks them. *)
From Coq Require Import ZArith NArith List Bool Lia Znumtheory Ring Field Uint63.
From Verif Require Import Params ZMod RingPow ZPow FastMod FastParams Circuit Api Emulated Tower TowerSpec FieldFacts FastTower TowerFacts ApiFacts TowerProofs CurveSpec Pairing Bls BlsSpec G2 G2Spec G2Jac G2Mul G2Order G2Gen MillerProofs FixedQ FixedLoop CycloFacts TorusFacts TorusFacts FinalExp FinalExpProofs FinalExpSpec PairProofs PairSpec SigSpec MillerTotal MillerNeg MillerFast G2Chain HashWitPts MillerWit Kappa EcGroup G1Group G1Order PairAdd PairMul PairSig PairNondeg FlowWit TestCirc TestSpec TestCircProofs.
Import ListNotations.
Open Scope Z_scope.
Add Field E2FTW : E2_ft.
Add Ring E6RTW : E6_rt.
Add Ring E12RTW : E12_rt.

Definition gh0 : Z2 * Z2 := (zz 0x15a76ee3d8d1c3451005d56067cd27cf7598a85f81c23cd926ad0ec05ad6440f1df034cf36701a5831c9fb39250e2ea9 0x16d96e785c797fb5d6afcb1400d7656829a6a71c42deb7ddce5cd2ccda4704dc0e4b92b69009367bbf6e6aa19488df66, zz 0x14b92565b748c30f253912c6cf3aaa45c2b370e810ea9361db7b84172cb1e68ddd09eb1296e0f84058018a4538d64e8b 0x3c50d0829bdc305ff694cc9bf914addbdcbe307142bf7cc7b8d9115b96656327dd7978009cdcddf4728a38086aebcd7).
Definition ghs : list (list Z2) := [
  h1 0x56ceab5d5d994dee0ca07fc0d41aa908b1a833b94e768d2dec05cffe4a869aed2a64ee86a72f085ee4e78bd4c2aef8e 0x39b596a976f556e5ea4016a3111e14b674a67295a242cf3b343a6878db6ec20bcac1275d23aad6cd3e84e398a4e7bc8;
  h2 0xd860767952ed2b694b64eeaa63e06c40964532a724817c3ec76fa31d0fd358f36ee756e7bd212f8f60967471e995a8e 0x1469d7cf50d58855fa523aa823fb8276293fac77c9a38c1b456cec057d45521c48d0b547d18f8b1de21e64c50d3c6fc2 0x15d60a0d6d8a2e4543194737592ecc7534e44983a06d755cd5be4b6e58ad74535311307384d7880d9c5ad98d07f1b961 0x1ad5bc82425c66f655a75dbdd28189a4a2e3a70f78a170ef84fa98d5f3742b3c571f4279ba63990e4f1ea4875173006;
  h1 0x75707a467e7543c28370330bea9b6e4adf41fa1060713eedb760c98b7aad959e5dfc28db5abe92a46d0ff04a4205803 0x14061839f139644bb20e864718cfc9c1ee8960c06ff2c240598a8a6da7ed2bcc091f594d8b0715d2f6a16be8d5828197;
  h1 0x1deabfaeb3374b50119ecb98148910d6004895792caa88dad948685eedfe9d3ac7315ff9bd8fa7a943e0e3a924e7492 0x7c9b05e8adef4de506459f7be98bf07cbd25fe6f4ac154f7c01f5d8a4b9368fc9cbb8ebfedf28954ae85d6e9f58c709;
  h2 0x140090a04158ea562a90ed59224181cd573d3836b141129c908fd45d36e147e8a3449eaa8af53d78f2fa38c6e213a84 0x9619ac570f151f7baaa7ae49f0985811804cda4142ca8c5f5e4c24465495ee0dcb305595e6526648a96a5a43488327 0x86553ec1cc3cc6a38436fbbf0add7baf8cfe1ddc30f07541437b2d93b1ecc564157059c9a29bb6c54b018b4ed75888b 0x4916e8c2d5820861e32013a8e468869d60b7ae7fc6004bdb182ffdb6110024a0018e3e7516be99929795e7ae5112f30;
  h1 0x15f5f0afe4eeb7545fb13eb055c6ad903c2a3e4b9f14a8dae81217db1696daa3753ccd844396189ffbd89d01fe27fa5b 0x1040f087e9a0b6633fa13692b8f5f46e2bd5fc15d81b368ac9d2464eda778b0051c1027ed3da9931ffbf361f326b7282;
  h1 0xf10733fed03fc5b7ae27fc457630dce3b4db45cbad696a6351c7771105a0a1096dd87f04527a34a70ec377ccd63a5b2 0x855b8b1eedbf578f7498f370324634590aee6093dd239d9306991a8af53fac94e1e9b5253a208df401e3d6bf657857c;
  h1 0x17900cb270764782b3eca3d2ec46a86181ef1ff2f83172010bc299acce5e8da96b6b932d6c92af226aa27e2cbe8fae21 0x1be7df7094ce56532653ce2da33c37fe337917d32826e1bd09104615d27b1dba405157c82358801a5440afa7826f03e;
  h1 0x15ed1256df8e5e5ca95b56c878630a1ca624fae6d5770503fc7cd3706f331af3de61fabf6cf96397e7b79f2fc8c8275d 0xf5886abb33616f07cfac605cd5194bd83d804f9da8e5cdaffa3eb442aaeb1342a8a3887ee76aa06cc2a711c9ed0f30e;
  h1 0x249a870907df1494e56fc219e01fde22386755f816c125f4c2cdefe8611811647fac337765ce308dd13ea9ec917f81d 0xa59546d0d9d0d18614e98790bdde01f23d77cc2219a64e16678659f6f9ca9e64f594e30c3cd52b28123518842661348;
  h1 0x3ca74026cf32fba56ec4ffaf56bfc4d589fd5479b90e9a3832640fbf5ff16fd5c8661358f86bbd730aa1df76e95257 0x16f491b5bd383da7e70c0012e06dce324741a7e96cd8fccf402fb94e1c54fc0073a49b0577775e0ba37cd47da598900;
  h1 0x9a76bae205af60fb63330d38d4d0d00c4d2739ae3a0b1763a9bcdec2fe60921bf629abd453bf5d35812bbf0123c972a 0x79042a88c84c694ffd3fa1257cfc1f1da9301aff5ef309c649bf53444907381a7d0f976a5e2fc320bd337a5e6bf6e59;
  h1 0x135ff64b4d73a3a2d0f886b2eb84e8fad6b7625c837aa2728eeaf2f380047dfe3a21b11ba36890bfc74afe64e9f3840c 0xcc7efdc19164223dbcb0b43e4ee3c4f4c650fbfe5a0a3700cd16a519987e4aabf6bd8d16fa3e40ac2853a97b01176dd;
  h2 0x4597ae1f4cfcdaacff3f6a46135ade487bf1a95a36590f35e17ec8a43244f4e0efb63b9289920fc29c178a0728467 0xcc420802c358e2dedfc71d4697fa3901ef0c0d6f4f0693b741390b7035f30b98e2dcd27e926fdfcdb55d8651b029bb7 0x7fac72373dec09eeaf6db37ecef959f527ae42bb1b2a0ed7c385a900f4614f62a38d2e7696c2443a8baa527eef5ec6e 0x1260f88b57dddd5bf01540db9f04cb828903af563a7ce9557ef2f6d8a1b0b82a86a8aea1c84aa165d81984cbd1d40498;
  h1 0x1137f470c8f7d00baa56e5c03e76ea8acb143c96671cbc65033e67ed9f2b5e180252357114e4f467f4709129c1d6d6d7 0xf23701cea5719c6d8b0d3f3bc8572953d8f42a55fe9970085a5304db0b3422f71d7ac93a2a95cfa92d0088ab1308e85;
  h1 0x373d7203575fda92e7b4b0239b7c7695d2524211d5341f332c9317a9c538a1808d10350e8ab375f9e79671f77c33b38 0x7b03ee28e327f04166f5075f657d148ed56fbf731787b28e9d5746328bce07da2a04f4154a74ef22bb2c45a0f0992be;
  h1 0x18b70eb629a79ff3f983498518b16faf0521c1c5a11c352341629374ff0d1ac17362c7944d2b6e4cdcfd83a0692003b0 0x11fa0abe9f21dc673b14d9174289133e7279c670978cd5690526f609b923d7ba3b37b63cf6dd615a649c30b33d8b88ac;
  h1 0x2fc21e36ad4d0da0a00add9bd428c9c44f9a83980265ddd5cac54906e73bae3b43599982d6310ed50636162786d1b75 0x2b70c4ecc512e5b7a263f208e2d6c8495568d22744ab3f376045a0b6f715c18ef69c37a80e8a4f63bb295c1f909c9f8;
  h1 0x10b916005fc2476498beed417afa88358fa085d4db1d9e6f864b49b4b96dc11dcb31a6b2f313b674fee5c83040549617 0x185827ff9e3c833ac46e1e1674a0ba0ae49290dd243bdc6145d1d4d76b0b03b8d7da125b0a5f1bacd2bc2f38d4e1a34d;
  h1 0x1274aa625858db0bb675b3bfaf508b2248a1fe6ffc5d18d0da3e0d01e0bbb52a301585cf3ce32e18da41a2016fbf41b1 0xcd9b76612194b440cbd9c67af3784151a3a1a7585c177cf0df8603dfa938bc22d0aa98e4cbc0be362614fff6f6d4898;
  h1 0x232f7c41bf2d0ca9a4a656040864a9ec51fc3fceddf7498e96b0c22d39fbbbe7f55d6bc35a50965750c7716c237772d 0x126b7366a9ba4cdc1648b905eb2d53ffa24eaa0527809305911e6efcf7cc8f0983f3a122ebd5d6880bc93e525c5283bd;
  h1 0x3c52126f27d2dd758ab077088f758a89df448c1dd45282d9c2237332a12d63f617991e090b1d3aaedd7ae3ae5ef62ec 0x19ee364564c01cbdf0bd4257877b0d7e053d12f91fa49c91b79fc38b4398e2af5a4ac3f48bf85f2a28b11ffbcc48f29d;
  h1 0x287b1e39767a3c2d102a8257d4c97a8e9d64c41cf2dffa1ce9896e5addb637375420be149369971c3fc33245bb7b9cb 0xdccc3a8b263abdc2c1112a2ba4e1537236425a49e10a76b09b6128f5e000427659557e16f6e6c10c2da68b535025ac5;
  h1 0xeba32ca0fdf04b16e700d02d09be055097f3f4285b74b299e633711f24267eeff96b84c9658e94dff575b044fd12535 0x1853f7c388088cef95618ee7fc016b0e19f5a9dafe6150af099ff3b68fe53867aeee330edac31a776bf2f2a7eb8d07b1;
  h1 0x10e5f821e745ef290f77339938e8c939bcfc597914fa0bc4ea7d0b2339e762ea1d7417bc1393c1940f25665663934fc8 0x14df29fafe098da44c7fd336e97eb8687dab2a2a640c57f41257c93b17f3e38108e6f373fb68057499c7406aa1ace48;
  h1 0x10ff70c91cbb8869a0659bf2337805ebca15d19f40277942937c0d4560eae2eee4b7ce1e54863ab6d50bc9ff4874b6e6 0x1951ff3142b9a208e5e69e5942f145b0f85554ee195ae299cddbe3decddda92adfd9039a7b3cfe640c29faece9a85e53;
  h1 0x15d2f6b35415870ddc7054f2e32a1465866e01898f1f3b142c02b4ccd505fbbb8d8bd06421805f763874894483dc214c 0x183abed5b2d1d128fa596426b89ca852d2ba8b3590cd530181c4e72fdd8802ef73ab15eff6749d4bc9865ee9e261110a;
  h1 0xab36c91eeeaabb24820b390406d92af351a91a43b294110a69e73a9a0f2894ad32c28d81f078a90be515d55a39025dd 0x1029fa62305109a4d20176b9533e34319846e866ad7ddd36f64973cbec18695bfc945495873b5a72e8ea0e7d255b970a;
  h1 0x8bda1d762c986632aeaca1e09c08bb4fe0abcaefc921a404b66f01a40c86e83fded68478deb02d48f2ee3be7ae899ed 0x6d4fe75b0153bdec12dba827c67f5884f061f219cb8ff55faddee2a55b5154b35e2696672be08cacb4795f5ddd8497f;
  h1 0x5a79df85b0a96adf6e2dab8a322ce58631513aed92ce0df838145c7842da8419fcaba0e89eec90cedffb5559d9f7cd6 0x11b7c924610a8268c34b8259fb3d98acbbe375c161f9d2a8712f911d31ea73387b467687f36133a552f9211634fe2feb;
  h1 0x1971f0b4a71e609b35922e78337b308d7d37a5e715e2c6a7544aef13d7757e76ac4a6a2ca05df784a5a683833d2e1464 0x503aa962b29d72a5d9f6cf2771a45a92c45f43bb070b7fd3fe5162dcc95efeedb645acb9afd8643829c2749745e919d;
  h1 0x1657a4b33e1400ef6e296282ea313e60d4b8240679b0175efcbc9d2df3136cbd1a372ac4bb42fc51b2f0d50a3d7a6796 0x10992497f5f8bf44511213229f6a20404576105e15a4930cab44b72c1fc2f89b5eaa0345af91b402ecc6cf1a742796cf;
  h1 0x16691c1bdf57ba041abb3d97c8d34c6b4580edfc55e023b1234a9695204bd44f55ea4de60e51e461db9c85f42519fea6 0xcfbf5ccb325675b1a3becefdee4fe1d3c64b3fedec5632647f7df16fff0877b21676607a81022cb0b3b0c523ae71819;
  h1 0xe743528ce0c94e1a76f2f6006448cecfde912a7d2029dbcc74774ca1af660eaed4d832930d36077b6d0262e218111c1 0x133d21c52017365921207d63c8fb346621601764fa91b40acd681358d077b827cc148be2e1f8a574cee0dad622d6fead;
  h1 0x1902b1e10713c8d95829b014d6b5d3a93563b2103c29cec1e7983befc104f7bd4886ad3a08f8bf2310745715d8e60675 0x142c2105c569b0e7aee457f14605027ef09f9b7d03fcc1c2c81c0dc22eff61dca36ea27f392c934ad398e9471a2a3e6f;
  h1 0x27b1b3c904791e3fa942dcd803b24ff12a9cd7524a26b87c8dd9dfb56ea54ca5c9d26e68acd42eff277e12a1c665cd8 0x162f5c264c2d2728aaa1f652ee6cbf6da2000115b0cca0d89754d630e027f9217dd0fba67a880435688221e820d4164e;
  h1 0x13a3cf500109646aac4d69e33e86b7943ceda2cc678e671964192efc9a09299ad173b34e4a074239eac7dc93b8113ddd 0x12f734fc3463dc7adb90dccbbaeda04445ec73fe1fd859d6076071bd0d45623a4cfe964789c20af4b5a694d4d6d9d45d;
  h1 0x65c82633f9d4d20c07f6ad4f79c2172e21b91ba79a5ea2dd1453a4587d6c2ca2341043e1ed40e3c2cfcc055cd4958d6 0x18a18bd0be954bbff600c7c1403276e7635ed1cd34473d3d086bc2e62775af5eae61d9aac8398341fc07277f183c17d5;
  h1 0x31ae02e34d7d21957899dbef96a7955cf8a3345e89477c101ffc8c27a2046327376e250e6882416d7bc0be138e4eeb2 0x1900bee131450e7d7a914ea489fb49e1a36591a6b189f964d0a0095db108dfd24e92848f148232d34a8da37b7adc99a7;
  h1 0x141accc8970ace156fe95a366883383b5a445ca79fc407ee3f3bd12ca9ef48ef6199a7f46231a3597b09b6d5fda5c712 0x18b35a8fd65ba4cbd734a0eea368fc9a21efabd91ace37d98ff3e0c3028ea8f24ee6fb30e0c805067330b20430c585c8;
  h1 0xaaafef3c4298542248b3a58135c684f9ac0e0a34315e044a7d66db543d3c6a626f79dea7ee6a5f3ce669de80b52ba42 0x13d96385b510deff2f4d1d32ee0060a937926e9b6d6adb90abac56946f0699334fa765e60e0b267ea1f8e8dc2b83d62e;
  h1 0xfc955cb99bde258d876019716b9fdec9340c8f3aefa561ca412df73ae5febbec296a5fb95db0469c00d953ee476c048 0x8fd02881a5331dfb0922a3b31368cfad1bcb8ef19b9d382fb88180286d20648b40806c083c7d7a804031b10c844d0cb;
  h1 0x5b8f08ef767ca4cf5f36622b89e509fc5decaef9cb221f15b64b681867d0f5505b9f13931f476324f857ca9daa71d3f 0xa3b4aea7c32a8fc4d9a662b03710c6daa7cac50a8ca6de8554f99004f5b1f2a21b026098f44b24a23750c8f0fa6270d;
  h1 0x9a64184b516425353d3342b7f1e2595a7bf3cb9644dc3a23ae401e3a2c43950dd3e14a5813cf8d46ec722731cb2e790 0xaf426e78303a8cf5a43520e362a12402d4cd3c50c5a5bc14b9c5ee3da9ae172d5612c391be4ad4c913b7f23ef8afc45;
  h1 0xdd9144f8c45e6091a6714d772bf4739ae7b1a8652c823a2aca6cfb5457ca1adc99138fe3c31209a4897e0f66a542078 0xda6ef8b0ede3a09d1a5c00b21acf101ca7ff6cd9129e67a30ff4bdf679bd4a2b87fa34cc8942e9d5abaeec4938f2308;
  h2 0x831ad8b93ffed9245877b44ab10fb803ca53103ce99fc2822e8fa738389a0378352e2d2abb764ac8036eb503e39861f 0x17707d0e47e7a1044a4fd9c6590ec1d6f3abfbdb3f9f8b0d71c18646ef565689efc545c0f721e83ab0eb9fa28b5d9349 0x17b55cffc9c559918a9ffbca8d7fa056d5bff703455219b91189e835406150f7fbe047cd84bef2ae28f4fb378ec1eeb6 0xfd6b167fe3d1476b5da9dfe073dbd0a4863e8634338c4c3fddd35b7f062ea97fa82612fbcd55d1a045238c11947faae;
  h1 0xa0bad126c265d46d51689b72d7dd2e4d3d0945ac3d9cb888b9250b2bed82359a757e1269c4a4d3c7bb2576aeac0337b 0x133a4335f59c0259f1a3ff195a51b1c4671888accdca74afa50259b7484098611c2cb9fdf65a98dff64d2a0fc947454f;
  h1 0xfb69c6a2cbfc9dfb9b0142745ea7f0421cb2dd4e5b4ed7b1142cd575c788d8d19a24ba9dd3830612c58d544327ca0f0 0x10635d3a601f92ab21801ab8e85be88d689d67e6e9835268f7cee1313a095fe9e31b7072875ab3c75d3a4e43d10b2503;
  h1 0x28a36f542a28f6997a811fc2ce6cbed2508c5d828082677745110cbba12e028cd54150ccc1f58585e1d7b5bd45c4c1f 0xac2c40f46751f043fe2833bd583e9bfd967becef21bf75f65d407bf06f076619981fe2e541d567dcc7fbea97520cd94;
  h1 0x125e8f976f7536a2e85ea3cfefd8d2d0063990aea5570748e35370c03766b0439ba9bc0cf8c9e8b4405badfa94226735 0xc0299d504b8b7bb5ff23b7fce15918bb8dbd901b96858640d5946aef2f36a4cb42aee9b8f2d3d1bd687824c71ce27fa;
  h1 0x182115eb42220d34f08e487de33ed175b6d1a029dda7c9aa05a1ef8d1d2c315dd8bc62125863cf017f4f31c0054a3612 0xfc2db9cb25d08faf7c8327f5daebc21a409de8913242d73b8d9e10bc6022a0994e39a0b90bfad204b39a3cbcac7b4;
  h1 0x159ff2806d40ff15099d52045de59d8956f5a84da299063ef6c216059e7a2a6b1a09d23cd53473f5ac7b5e99de412ea4 0x69a7d5ac5a38cce584e0b0f05b60b25f325eb68e4cbd45d0014e4ca22ebdbc559a20177fdccb0d7c9716c23df3ced8f;
  h1 0x142182d337d4bdd0a9dc0152289c80bcf75761bc030bda9dcfd112580006deba5077fd8a5edf9450f71e9104f1c374e9 0x113f465ca312058e0cd541d6b90435a9e7260873c34a0cd455f40359611c687f96c91dbee3f1affdcbbd3809a6881f8e;
  h1 0x10933118bcf1940615957a6c1c7bca0054ff60c0db1566767322d2c5cd33e33d6fd2e0ca2639eca99f5b1f6e6d095faa 0x14ef91f0b47d2bf1313ba159c090bf9a071c2af83528b3613d49af8c8914a7628366761443e0d74cf14359d83cc60326;
  h1 0x5cf357e8473bba00386d2380ef2bbb3e118498031e2471fae5017af4c09ed67c5c2e5257a3deb7872768f839060087e 0x82938f41814229b1224b32b425aed5972aa5f4b4d21ffc7a3913baa2c3f8f7499ac76a63b373a0d0a649113f5c7b2fe;
  h1 0x13847679c97ef8978b3f64c9ba622ef466154b88c6206dc00a65c7c83d9e863106be2e6e6acbdd11b2e3bf3c4e9a8fc7 0x5c65be3c6a8b37e95aaa4725d46595304e94133e1524dc41b86d1ea5e2cb0e5656952930a29270a27fe8eff7ff52747;
  h1 0x78af2f8549231aa92bba1b374d54bf4748e38d3b2c782b3c9d8a7b7d87389e25b856b97ee48f089c7a4594a201092eb 0x157a7e87571314c4eeffcc641151b627d67176b268c6b18bf425406455688e07fe496eb261acc46ca422be84be4fee75;
  h1 0x8f022244af0b719146e8cfb7409e84a31ef57e217e3d45daa059fc26f53a4b15d861e5d1b9ff207335fcb7b28f48654 0x72c117c18b8dfa89321c27cec88b9f86c99799b380ebac98fde2d5c9ef41c16128658961fa9d79eb0320e586c2d096a;
  h1 0x86675ec3781ecc255b9b8f657bd72dc32622552c01c3a14efa70797ab04d5777f18cae0d8934218abbe5eda42e0374 0x99b7b955ea60c02306dd0199067fb6cb2810aa19e5e838d4d7d18f24dc5139d8829c6be0db3cdd784259d6f00a05188;
  h1 0xf16056dd2e8b5f8240d4ac75aac0cfc9b43343826136afbd4f0931c31459109811008d17464425eeb75a1d3a3486fba 0x134957b7abe963c5d074abc911c5cbb3ae17332e06f5b415438805278ea9e18b001cf7daee0993ef125a22747400b5ea;
  h1 0x2d6c8112234d7f18ea478ea7df5eabb84672fab4d4a6e1014e0585cd696c72e9adb4736ed72eccb4e30eeaf3b992446 0x444323d14c7a3549b9f6b2738ce286aeea4511ddcb23d59ff0488c63a739029f85aec2295586dac212579b39f39df97;
  h1 0x65fb0c0d47de8795557bd2f9f4eb741ac78b510ccf452abbc66726ddee31b37d058d7e5bdda2d3c31051f4071ae2945 0x7f9fda3fa03c5295720441d73a813ffff40ee810a12214b0d4ee64da91ea67b8a4525b4b9c37518dd4a05df7a4d6dc1
].

Lemma gcheck_true : fchk (fmiller (l2Z gxZ, l2Z gyZ) wxyL wyiL gh0 ghs) = true.
Proof. vm_cast_no_check (eq_refl true). Qed.
Lemma gen_stands : standsG (l2Z gxZ, l2Z gyZ) (mkG2 (e2Z gxZ) (e2Z gyZ)). Proof. split; apply st2_Z. Qed.
Lemma gen_Z : mkG2 (e2Z gxZ) (e2Z gyZ) = G2gen. Proof. reflexivity. Qed.
Theorem g_miller : exists f, determ (MillerLoop [G1gen] [G2gen]) f /\ B0 (norm6 f) <> E2_Zero.
Proof.
  pose proof (fnorm_gen (l2Z gxZ, l2Z gyZ) (mkG2 (e2Z gxZ) (e2Z gyZ)) wG wxyL wyiL wyi gh0 ghs wG_y wyi_ok gen_stands (st_real (fmul g1GenX wyi)) (st_real wyi) gcheck_true) as H.
  rewrite gen_Z in H. exact H.
Qed.
(** TestFinalExponentiationSafeCircuit: pairing_test.go:186-202 *)
Theorem safe_test : run (FinalExponentiationSafeCircuit G1gen (negG1 G1gen) G2gen G2gen) = Some tt.
Proof.
  destruct g_miller as (f & D & N). apply (proj1 (safe_opposite G1gen G2gen f G1gen_on gen_in_G2 (run_sat _ _ (proj1 D)))). intros (H & _). exact (N H).
Qed.

(** *** the square of an element of Fp6 *)
Lemma xi_not_cube t : E2_Mul (E2_Mul t t) t <> E2_NonResidue.
Proof.
  intros H. set (v := mkE6 E2_Zero E2_One E2_Zero). set (c := e6_of t).
  assert (V : E6_Mul (E6_Mul v v) v = E6_Mul (E6_Mul c c) c).
  { unfold v, c, e6_of. apply E6_ext; cbn [B0 B1 B2 E6_Mul E6_MulByNonResidue]; e2_norm; [transitivity E2_NonResidue; [ring | rewrite <- H; ring] | ring | ring]. }
  assert (P : E6_Mul (E6_Sub v c) (E6_Add (E6_Mul v v) (E6_Add (E6_Mul v c) (E6_Mul c c))) = E6_Zero).
  { transitivity (E6_Sub (E6_Mul (E6_Mul v v) v) (E6_Mul (E6_Mul c c) c)); [ring | rewrite V; ring]. }
  destruct (E6_integral _ _ P) as [Z|Z].
  - apply (f_equal B1) in Z. unfold v, c, e6_of in Z. cbn [B0 B1 B2 E6_Sub E6_Zero] in Z. apply E2_1_neq_0. rewrite <- Z. ring.
  - apply (f_equal B2) in Z. unfold v, c, e6_of in Z. cbn [B0 B1 B2 E6_Sub E6_Add E6_Mul E6_MulByNonResidue E6_Zero] in Z. apply E2_1_neq_0. rewrite <- Z. e2_norm. ring.
Qed.
Lemma sq6 n : B0 (E6_Mul n n) = E2_Zero /\ B1 (E6_Mul n n) = E2_Zero -> B0 n = E2_Zero.
Proof.
  intros (H0 & H1). destruct n as [a b c]. cbn [B0 B1 B2 E6_Mul] in *.
  assert (F0 : E2_Mul a a = E2_Neg (E2_Mul E2_NonResidue (E2_Mul (E2_Add b b) c))).
  { transitivity (E2_Sub E2_Zero (E2_Mul E2_NonResidue (E2_Mul (E2_Add b b) c))); [|ring]. rewrite <- H0. e2_norm. ring. }
  assert (F1 : E2_Mul (E2_Add a a) b = E2_Neg (E2_Mul E2_NonResidue (E2_Mul c c))).
  { transitivity (E2_Sub E2_Zero (E2_Mul E2_NonResidue (E2_Mul c c))); [|ring]. rewrite <- H1. e2_norm. ring. }
  clear H0 H1. destruct (E2_eq_dec c E2_Zero) as [Z|Nc].
  { rewrite Z in F0. assert (A : E2_Mul a a = E2_Zero) by (rewrite F0; ring). destruct (E2_integral _ _ A); assumption. }
  exfalso. assert (NX : E2_NonResidue <> E2_Zero) by (intros H; apply (f_equal A0) in H; revert H; discriminate).
  assert (K : E2_Mul (E2_Mul c E2_NonResidue) (E2_Add (E2_Mul (E2_Mul (E2_Add b b) (E2_Add b b)) (E2_Add b b)) (E2_Mul E2_NonResidue (E2_Mul (E2_Mul c c) c))) = E2_Zero).
  { transitivity (E2_Sub (E2_Mul (E2_Neg (E2_Mul E2_NonResidue (E2_Mul c c))) (E2_Neg (E2_Mul E2_NonResidue (E2_Mul c c))))
      (E2_Mul (E2_Mul (E2_Add b b) (E2_Add b b)) (E2_Neg (E2_Mul E2_NonResidue (E2_Mul (E2_Add b b) c))))); [ring|]. rewrite <- F0, <- F1. ring. }
  destruct (E2_integral _ _ K) as [Z|Z]; [destruct (E2_integral _ _ Z) as [Z'|Z']; [exact (Nc Z') | exact (NX Z')]|].
  apply (xi_not_cube (E2_Neg (E2_Mul (E2_Add b b) (E2_inv c)))). pose proof (E2_inv_l c Nc) as I. set (i := E2_inv c) in *.
  transitivity (E2_Neg (E2_Mul (E2_Mul (E2_Mul (E2_Add b b) (E2_Add b b)) (E2_Add b b)) (E2_Mul (E2_Mul i i) i))); [ring|].
  transitivity (E2_Mul E2_NonResidue (E2_Mul (E2_Mul (E2_Mul i c) (E2_Mul i c)) (E2_Mul i c))); [|rewrite I; ring].
  transitivity (E2_Sub (E2_Mul E2_NonResidue (E2_Mul (E2_Mul (E2_Mul i c) (E2_Mul i c)) (E2_Mul i c)))
    (E2_Mul (E2_Mul (E2_Mul i i) i) (E2_Add (E2_Mul (E2_Mul (E2_Add b b) (E2_Add b b)) (E2_Add b b)) (E2_Mul E2_NonResidue (E2_Mul (E2_Mul c c) c))))); [ring|].
  rewrite Z. ring.
Qed.
Lemma norm6_mul f g : norm6 (E12_Mul f g) = E6_Mul (norm6 f) (norm6 g).
Proof.
  assert (H : e12_of (norm6 (E12_Mul f g)) = e12_of (E6_Mul (norm6 f) (norm6 g))).
  { rewrite <- norm6_conj, E12_Conj_mul. transitivity (E12_Mul (E12_Mul f (E12_Conjugate f)) (E12_Mul g (E12_Conjugate g))); [ring|]. rewrite !norm6_conj.
    generalize (norm6 f) (norm6 g). intros [x0 x1 x2] [y0 y1 y2]. unfold e12_of. apply E12_ext; cbn [C0 C1 E12_Mul];
    apply E6_ext; cbn [B0 B1 B2 E6_Add E6_Mul E6_Sub E6_MulByNonResidue E6_Zero]; e2_norm; ring. }
  exact (f_equal C0 H).
Qed.
(** one run of TestPairingCheckTestSolve, with both G2 points the generator *)
Theorem check_test : run (PairingCheckCircuit G1gen (negG1 G1gen) G2gen G2gen) = Some tt.
Proof.
  destruct g_miller as (f & D & N). pose proof (run_sat _ _ (proj1 D)) as S.
  apply (proj1 (check_opposite G1gen G2gen G2gen f f G1gen_on gen_in_G2 gen_in_G2 S S)). rewrite norm6_mul. intros H. exact (N (sq6 _ H)).
Qed.

(** *** products of powers of the value at the generators *)
Lemma gen_pow k : ~ (rBLS | k) -> forall m, sat (MillerLoop [G1gen] [G2gen]) m -> z12 (kap m) k <> E12_One.
Proof.
  intros Nk m S E. assert (V : pval G2gen (g1aff G1gen) (kap m)) by (exists m; split; [exact S | exact eq_refl]).
  pose proof (order_coprime _ _ (pval_neq0 _ _ _ V) (pval_order _ _ _ V) E Nk) as E1.
  apply (nondeg G1gen G2gen G1gen_on G1gen_order gen_in_G2). apply value_kap. exists m. split; [exact S|]. rewrite E1. reflexivity.
Qed.
Lemma not_r k : 0 < k < rBLS -> ~ (rBLS | k).
Proof. intros H D. apply Z.divide_pos_le in D; lia. Qed.
Theorem multi_test : exists r : E12, pairing_product [G1gen; G1gen; G1gen; G1gen] [G2gen; G2gen; G2gen; G2gen] (rep12 r) /\ run (MultiPairCircuit G1gen G1gen G2gen G2gen r) = Some tt.
Proof.
  destruct g_miller as (f & D & _). pose proof (run_sat _ _ (proj1 D)) as S.
  pose proof (good4 G1gen G1gen G2gen G2gen G1gen_on G1gen_on gen_in_G2 gen_in_G2) as G.
  assert (F : Forall2 (fun pq r => determ (MillerLoop [fst pq] [snd pq]) r) (combine [G1gen; G1gen; G1gen; G1gen] [G2gen; G2gen; G2gen; G2gen]) [f; f; f; f]).
  { cbn [combine]. constructor; [cbn [fst snd]; exact D|]. constructor; [cbn [fst snd]; exact D|]. constructor; [cbn [fst snd]; exact D|]. constructor; [cbn [fst snd]; exact D | constructor]. }
  pose proof (proj2 (product_kap _ _ _ _ F) eq_refl) as HP. exists (kap (Pr [f; f; f; f])). split; [exact HP|].
  apply (proj1 (multi_circuit G1gen G1gen G2gen G2gen _ G1gen_on G1gen_on gen_in_G2 gen_in_G2)). split; [exact HP|].
  refine (product_nontrivial _ _ _ G _ HP _); [discriminate|]. rewrite (kap_Pr _ (millers_nz _ _ F)). rewrite <- rep12_one. apply rep12_neq.
  intros E. apply (gen_pow 4 (not_r 4 (conj eq_refl eq_refl)) f S). refine (eq_trans _ E). unfold Pr. cbn [map fold_right]. rewrite E12_1_r.
  change (z12 (kap f) 4) with (E12_Mul (E12_Mul (kap f) (kap f)) (E12_Mul (kap f) (kap f))). ring.
Qed.
Theorem double_test : exists r : E12, pairing_product [G1gen; G1gen] [G2gen; G2gen] (rep12 r) /\ run (DoublePairFixedCircuit G1gen G1gen G2gen r) = Some tt.
Proof.
  destruct g_miller as (f & D & _). pose proof (run_sat _ _ (proj1 D)) as S.
  pose proof (good2 G1gen G1gen G2gen G2gen G1gen_on G1gen_on gen_in_G2 gen_in_G2) as G.
  assert (F : Forall2 (fun pq r => determ (MillerLoop [fst pq] [snd pq]) r) (combine [G1gen; G1gen] [G2gen; G2gen]) [f; f]).
  { cbn [combine]. constructor; [cbn [fst snd]; exact D|]. constructor; [cbn [fst snd]; exact D | constructor]. }
  pose proof (proj2 (product_kap _ _ _ _ F) eq_refl) as HP. exists (kap (Pr [f; f])). split; [exact HP|].
  apply (proj1 (double_circuit G1gen G1gen G2gen _ G1gen_on G1gen_on gen_in_G2)). split; [exact HP|].
  refine (product_nontrivial _ _ _ G _ HP _); [discriminate|]. rewrite (kap_Pr _ (millers_nz _ _ F)). rewrite <- rep12_one. apply rep12_neq.
  intros E. apply (gen_pow 2 (not_r 2 (conj eq_refl eq_refl)) f S). refine (eq_trans _ E). unfold Pr. cbn [map fold_right]. rewrite E12_1_r. reflexivity.
Qed.
Theorem pair_test : exists r : E12, pairing_value G1gen G2gen (rep12 r) /\ run (PairCircuit G1gen G2gen r) = Some tt /\ run (PairFixedCircuit G1gen r) = Some tt.
Proof.
  destruct g_miller as (f & D & _). pose proof (run_sat _ _ (proj1 D)) as S.
  assert (V : pairing_value G1gen G2gen (rep12 (kap f))) by (apply value_kap; exists f; split; [exact S | exact eq_refl]).
  exists (kap f). split; [exact V|]. split; [exact (proj2 (proj1 (pair_circuit _ _ _ G1gen_on G1gen_order gen_in_G2)) V) | exact (proj2 (proj1 (fixed_circuit _ _ G1gen_on G1gen_order)) V)].
Qed.
(** a Miller value has a nonzero second half, so it is a run of the first test *)
Theorem finexp_test : exists e r, run (FinalExponentiationCircuit e r) = Some tt.
Proof.
  destruct g_miller as (f & D & _). pose proof (run_sat _ _ (proj1 D)) as S. pose proof (miller_neq0 _ _ _ S) as Nf.
  assert (N : kap f <> E12_One) by (intros E; apply (gen_pow 1 (not_r 1 (conj eq_refl eq_refl)) f S); rewrite E; apply zpow_one).
  exists f, (kap f). apply (proj1 (finexp_circuit _ _)). split; [intros Z; apply N; exact (kap_6 f Nf Z)|].
  split; [rewrite kap_def, rep12_pow; reflexivity|]. rewrite <- rep12_one. apply rep12_neq. exact N.
Qed.
