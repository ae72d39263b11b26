(** A concrete hash: the field elements (1, 0) and (2, 0), their points on E',
    their images on the twist, the sum and the cleared sum.  The tables of
    slopes and points are generated; [chainOk] checks them. *)
From Coq Require Import ZArith List Bool Lia Uint63.
From Verif Require Import Params ZMod RingPow FastMod FastParams Emulated Tower FieldFacts TowerFacts FastTower Pairing CurveSpec G2 G2Spec HashSpec EcGroup G2Jac G2Mul G2Cof G2Psi G2Clear G2Order G2Chain G2ClearFacts.
Import ListNotations.
Open Scope Z_scope.

Definition zz (a b : Z) : Z2 := (a, b).
Definition wu0 : Z2 := zz 0x1 0x0.
Definition wx0 : Z2 := zz 0x696752daefe44a8cb58ed0c0a38b7bbafa35765f2992db59bd92b1e8996a4c1786903697b6e06d38eb13d70a3d6f49c 0xe79c4da4742ee72e74008e131686b4ef11972928af902c19674c72b85e955d18bf43a061953740d8048d47ae1477e9a.
Definition wy0 : Z2 := zz 0x324f02f20e4f3fd31d923f16df657c71de50e8697594bc0cdc7ede08b84b1b6b563c643768c230919a6c07aa916cc09 0x19625ae3896f4aabd41ff3488ff0cb7f5708627ef294275f91e00b121e9e3edd3fc19fe9d783957710cb095c061fd76a.
Definition wu1 : Z2 := zz 0x2 0x0.
Definition wa1 : Z2 := zz 0x14b47a85ccedcbbed28c0691b201291c5614beac66d9ca8bb270f743694f6d55f724392b551a011d73b74b461ac7cef2 0x21bd1f1ed322a939169df91a6c511df403012d77fb9f8699cf66baa194162ba8f4984442920d26120652b91b91b8ad2.
Definition wx1 : Z2 := zz 0x18d2f100dfd99a8fbf08dfb4e21cb87e0f5d669d70bd1084b2a7b6f3d960db375ab847acd4ff4096f9d354160e2d5e65 0x453ce0248b716d156ef88050f017ff238099ca634dd5d81eb4c10256b7b0d6423d2f92c27e1688015f57659cc031854.
Definition wy1 : Z2 := zz 0x5a00f5b81a26272e0cde4ee70b1f5c1dd0ff5b6cb44e1d52ba7f9d85bf6c0019e52c9d924d28cd9f6ae04aa38fad0a0 0x19fbdc05ccf0518060905b71e089393245e9185a7d7fc91749315b1472f3a0d0ed9d106a82a439609a5fb726d3855e4c.
Definition wq0x : Z2 := zz 0x3e1b8c765baef609443db4bba1edfa68bf60259b287426bfe6796d2545fb1c9470ea9f47ad363add11ed7087dca4b27 0x18149bb59a31b4a2358c0e5481a44d3df1048dcd9abbe16ce555f381158f776ecda8d437ffb3dbc0f231b4f3dea15fc6.
Definition wq0y : Z2 := zz 0x16a155d04ee9cbaa6739b281d4d514eb0752c0550a3c3628d74748302364fc9aa9fec2c433725e855d4406637c5c53a1 0xbe9a8f9433c3cdc846c84bd19c23c04fafa82d8512b0d247b955037430640ba4fd58c5d0e135507342d9761d2d20004.
Definition wq1x : Z2 := zz 0xf177354b5875b2bb844e608437e9fe1c0f721fb338807f55292c2ba4c1901f64dfec60ae32b14afbee1ae3fd1426b3f 0x16b7eb2a021bf498ffa0574c1743e6475039e716c1c1049b37ef5e03a97856f296b3fc77cf03522231551bb7b45b3241.
Definition wq1y : Z2 := zz 0x147494be080529741cdb5156567837e87d3130eee3fe793c182750ee92dfbdd716a089f6f37b3202ef190c17aa977d5b 0x112bb9ff284282bc57d468127175d698d2af12349142612d40aa78a6311cea0a08ebf4f1d988070b4d87d15411985d70.
Definition wSl : Z2 := zz 0x14c56602a5a14006f015b1ab4d3f7b582a20e09c6807c687029336b4a1a03e219c18eb883dae1a2f7e2b54c1bd08831b 0x4c1476791c05b96ff8c51c7bf691004ca35df1067d174100a00cc1d5e8f764cc5d62503de2819ef6d3f9423996565ba.
Definition wSx : Z2 := zz 0xb256963f87c04f4f09c07106a5270ea41043d03aa78165958c215749480f7508305237f6dc8ef00429aa46b503648af 0x11ae54a614eb33d25a49e42c1ac16b32778f50e8bebb2f675d9bd2cc0d97825f065fdafc24f5ac606fd1612527e62f6b.
Definition wSy : Z2 := zz 0x165f7541ed951b04926c47f708ba73cc31ef372379d511f57989b3347617e6ee9a397b50a975a10b817278f42782cae 0x3fc92e69b310ab5219b94bff9b1775ed7757a137b64ed781cda7aa148e55c82febe290c3ca068894476381c359e7cce.
Definition wAx : Z2 := zz 0x13e165310ec0c7c4640d04527e08dc0e18408a204b92e7ea6f724b85975cf86834be795cb22f5886c8032c8136146764 0xd4c6889c49dd40c7430199425befc191cb2474af8b548e781f2a2e44293a4aa0789b43ea57e4b884d4bf3ac06582bcf.
Definition wAy : Z2 := zz 0x5b298647b670c0cc437aec5e849c0e648ac04566f08d27026d12d402d62db9e7c32886dd08037f7e2c63904b2e7661 0x7d172bd81788a01c7802992997bea74880dda9329104ce38cbfd56d548ccbe3cda0556b11e8abd284c5e6ae549643a9.
Definition wDx : Z2 := zz 0x9bb3d887d858b6d00eb69529f83710211e29a1335a6cdf93f97c11ed1f696cbb820a650670f200b704e5db54261cb0d 0x4e49f48cdd34bddb611bc739c17826e89f80a5c1cafb8b3c1965a0d7e49af95bbf3d25247c905a9978241f6f0c1e21b.
Definition wDy : Z2 := zz 0x10d9ccb711ab91d92a54052332e4835d37bc76118d1015a6b7c53b2249e3deae3f47df1ea5f081884d972b7065ab2beb 0x58de8e4e506db88560f17f42aa6a351050321429bcbe4adf21d4dd006abdd4572022b1864e0938cd6a9c2a2aedc6029.
Definition wCl : Z2 := zz 0x16cdd34de32223087f94890052b0a51aaa9a7b6afe9cb93c66c7d88e738f671bf6effe6e18a16096b0d08365e708ae8c 0x93ff802e0d59c42744f09f9cb1e244e87ef98ce41126c7616859b3a6b19ef77ad5e07ea7577d5cd280f63d69c58d84e.
Definition wC0x : Z2 := zz 0x4bc6ebd40a3e363346cde20f51ea0651b12f5f6d849a695570c1c30e34055728a9a301b150022717af7ca223365f3d 0x145ff302a3f588f989b57950cabffafed572222336e589ae07090767b5a32b37701419e09322aa124b619b392de0d749.
Definition wC0y : Z2 := zz 0x19125799fc8fa2cda8c3046214ea6c1b187644409fb62c0b41125b2a5721eea69177a124b14953aad3dfb251657bbaf5 0x17103d0b0e1b5ef7369e995dc322d655bf7641c61aabed2c279ab0be0cfc11f02acc9d442a01bcf3d216932294798acd.
Definition wBx : Z2 := zz 0x1c9e66642d844da9c80b1bcb789252aa9d93ba0d281b060a6d49d2816b5cce59ac3dea4e62caf29dd8d6eb691ed50de 0xb5b776c5671e1274643dbeec03d11f20ac1300e82a8d4b9079e50a78002b25fd1be12a4c7f49cb9c9f0734b95c94c83.
Definition wBy : Z2 := zz 0x739ce06e8c40c999c348038527576490cfbb142660f015cbf26dc06f37d2e272e72c544bfbe8297646026c2cc01081f 0x1b101aa5aaa79b0fd35ed0018abb49bb5e84ff69bc7ff0e2b1e922b5211e381e37d8dfcf521c58d493a03f03b475f27.
Definition wCx : Z2 := zz 0xd41654d5fcd52491e69965282635529ee5817dd6ba204242df369597ceb9f3dc95e2e21e9520c3bd820adbaae235dbd 0x1353dafbfcdd0d3a79ae43f01e725592920cd2068f21442793c1f6e0bb481efc3dfb99b273caaac62fa7e94814f7410f.
Definition wCy : Z2 := zz 0xeeba503cf043cca258a3542e6140bc4c01074453cee6b4261e77769f8f077d8d345eda000aac54e61f4dae9a83efb6 0x2f0d4df2b6487a3147d0e588028d681a50109bed8d925933f9621e2e9b4e433f3df62ba8752430be7e86cdd6b861fde.
Definition wUl : Z2 := zz 0xb66c3c850f2d2d0b2c19eff053babf2f54e9e55679c3aa05effce3ea1229c4489d2dc90a4bb59db11a04bb003a34ae6 0x179270f7ed4a70f3dedc850c4770193e717f70e3c40636e817623fd3abe8e18f9d21f3eccf343c85647b0fd7fa6b1b5a.
Definition wUx : Z2 := zz 0x17a8d08a42b756d1e91735a50441f616b1b951455d393830afc171b9fc7c5a2867ca2ce59cef081ad54d7a2aad19f67e 0x3f65fc023cd2ec74d8c6c7ef5d52a1609315e07da65b5786c3b5f5fed3c8d18dd7d091e601ba4998a31968d19ff9c1e.
Definition wUy : Z2 := zz 0x119ef2b8095a4b5bd6ce52121478e45b90f0131c5e129ae6cf9953427c65ac87ebc84cbdc2bc41dc028fecfd71a36882 0x1f0e757022cb0001dffb619109df6c326c44c05b2d56d9ff6089d3fa0b91c13a176a28e4001e8f32a7390d54b09e2de.
Definition wRl : Z2 := zz 0x4bdb1bcf7e3499d4953c1ed3402808a2436c2089a0230a15f3e0bfce79f837b5c0c1d555f27c21e7b0b64edc647905e 0x5c1a7d8ce72d2bb86cbe3a993b10275745d1435d59834129ace77431f700296dbd09fe6e99db6eec9b5f962bd071599.
Definition wRx : Z2 := zz 0x17a0caec1caabb553f1bbc279b5680adfce88c45221fc51bf14e71d0986591945ef7c3278f6246af534aa64dad455e4 0x71f5c32d577466fe3597b5c3d18aac8ff9060a81b0052ec232f922c6eab2cf8ef85f7c3f03eda5232486b3dbd4cf09.
Definition wRy : Z2 := zz 0x179bbed9334e88b43a3ad8bed2638b5da870a2741bcaa4f468e2c77d1c1dc96fb880564f44d5c4f23c84f2cc0768943f 0x14663346cfaed30ad14880b98346c92a25f6671c33a34f2099148b6e6914d457ebf7a37be3a3675ed12b4e352496c52b.
Definition wKx : Z2 := zz 0x6d6a15c6abdd2b27b3143d6087696afe9db4261864fac6550e9d7ada773b87b282b2c66d42f9f171815dccd28484559 0x661ffdf7c29f81b44b28fe19e4f2207a02170debf9ce124c91bc3ce59d187c14660b18c49f73618cfb79db4b40f6cdf.
Definition wKy : Z2 := zz 0xae357eb01c574ee4dfc583d868bfedc397e63d4b303b653496e862df318bf3fc75c324e399361e77e4023e632342f48 0x1870064d1d5b70a62e43fd755a84b2fe5f5528d94292c375fe34aa5538d7f32c4f9d22efae261960ebc26c5ef6a6abbd.
Definition wTabA : list cstep := [
  cs false 0x16cdd34de32223087f94890052b0a51aaa9a7b6afe9cb93c66c7d88e738f671bf6effe6e18a16096b0d08365e708ae8c 0x93ff802e0d59c42744f09f9cb1e244e87ef98ce41126c7616859b3a6b19ef77ad5e07ea7577d5cd280f63d69c58d84e 0x4bc6ebd40a3e363346cde20f51ea0651b12f5f6d849a695570c1c30e34055728a9a301b150022717af7ca223365f3d 0x145ff302a3f588f989b57950cabffafed572222336e589ae07090767b5a32b37701419e09322aa124b619b392de0d749 0x19125799fc8fa2cda8c3046214ea6c1b187644409fb62c0b41125b2a5721eea69177a124b14953aad3dfb251657bbaf5 0x17103d0b0e1b5ef7369e995dc322d655bf7641c61aabed2c279ab0be0cfc11f02acc9d442a01bcf3d216932294798acd;
  cs false 0xc04c6467b6f47395ae10d3982b68b7e8d0458d14e940aca1d774a43ef956fce591fab6daa274dab264faa73058b268a 0x70c5c4df08d971506eda275295dcd8bdbda6361d44e3b7d0e24729967fdeda4af361036db8f67563642ba5a94d0acb5 0xc7ff8e61d0e5ecf838f8b03cc341fd9250668720ff6d50f88ae79e8b3ac2b6263e353046feb43e4c7c6beaa1c26cff 0x5f3529fb860a3dde6f25902d8a1e1b399db2e4c7248efea8ad4d2fc69a8c8d22875a3a7fc3a208cfb28bb7bdcdd38 0x11971074d7ae6825b42502fe7214989cfc299c5965ab96923e2062f2120dfedb7f877e54f40ff5f94e67e2522de0c034 0x146c48b2634d90ca96b043b74026db0b494e6c1e17813ded8693f01e632505f225b35d5f621440f48112646e64aa81dc;
  cs true 0x546b6fa62ddf230579ba197ee9098bab17f1d9a0d875baaa8a0c47e5660e355f496f05153a70dfee4760bbfbdf466c6 0x869dc83041dffd485af80fc33ceddfe5c154d12f0f73b8ec533cee80402a46e126648917a23a41d8633bc9d7f99dff 0x3ca534785bd45665ffdf41073a41bd7f60be5199bba31c1c9b6399807913cefb937e77c3190ae099946c96ffbaba802 0x110cbb092e76b3922867c3e508b59cd10590ff352b0fc43ab6c2a4b931bc92f9efd572b311ef2c9c5046cb00db16d32b 0xcf0a39d7460fdab759c00aaa581489ae9e4c6668fc005437d9ba092015174f62a7f8201bc60ceb03f345ce6b5feee40 0xe844e28850a98f4af28386351eb2afcbaf6e31532640a498dadfacb554c4caa4cc7e8de12d6ff6dc658c3f97e68cad5;
  cs false 0x18502d8c2784976fb1b5fdc419befb3126b00e5e337960a1388371ef458416c0ae1e0782cff667ae0507f78746752033 0xd54b72d9cfbf941a78656d310cdb5c58e6cc6edca779b3c061bff1db954a3dce964c30cfcf98e49d6790b4caa21dba7 0x5f548280f0d020b1ae66ed05cf609adc11297478f98d04f8f87ba328b1ec171a7517952aaa7bd439957a82644941c92 0xe8759d3e14c3aec12e6e712d96d7929df9f767d11e2b3523fc9dee735f608a6df03d049d8e4b1cf3a739c5e451d5131 0x17d6205f6076bc3fdbddb0c16d950562a40eeb8a87286d6f621c05daf3218ae42e5982056a6b85fcc12e7362e1c52c87 0x130c2a03143cdd49ed8c28a0766023d0fa7b6ecaeaf28a4e6c5046a27365778541cadb75b7c0093a55d0bcd13e2ba5ac;
  cs false 0x91a29a63cbdb1c70ede61abf4911e1937502f6ab165b3b07d02493a7edacdf73f8af12253e7b0b4474b26f6e6aeafbc 0xa71e34eb9944927efc30c1f9bc7c19ae76803380ee1d19a561eb7e5e0cf016883e7f9aec4578d899655442e7bc37a4d 0x17eeed5a53f34abf1b40793bde111c83dd4b11a4c3118d450ae94c73ab5f489e49208db0557d88a6df5d8a2a600f6401 0xcee2084ad95f166c05ba6b11985abb2abf941a8964e1ba58df6104472c7bf86c937dd80c28e9f07318939e6f6ddae54 0x1312ac3533372ac87ddb098749182103139425c58a953093435c388af26d60f3f30396181256812d7b9d728efe84e632 0x1263984bcf7456ba72d7a0a3e9ffb88a56f5c7a9f1ce802c8aa8e769bef354564da246547e744960dab346ae8e330ed6;
  cs true 0x9a744f2518503c9e4e49e34f59e55742d17ce2b1a3b6f38f6121c981d581de3d07ed18dcf47da50b592415bf11aa1f6 0xc6740310e144605a26cab12cf3a3e03ed67e3e75f40cdf888b7bae68e52842194332836abaa6cb8578ffe5b8459d736 0x16f699a0c920ed7a426ee65c4102ba70f1bf60a05e21f1d16ebfb00ffbace30184cf233e638de5759953548836a4f916 0xa6a1d833ca91a84ee5f446a28e66cf2e7c08887370f36041c8be841ba80a91c2958047a217d3a03758d153646be1b81 0x52259d95c7ca8bf52629a7f209e5cf3cdc17cebe56ec700cb11dedc84d1867af5814a9bb3cf10455aa4373d7533c65f 0x99f7efb9c6a28320791fd4a33a434714da95f97a587073abc19808d464678d2180a612ac6ab5b4e98ad167637ae8013;
  cs false 0x2dd1fbd75f49ed330ea3a1b0b3c4310b18a75e0df8912397e027ab3880f57edb038750995915cbab1f666fdfd8511b7 0x18a896350c34d084b17e11aa009d543227bceb9e54efd80362631a931edd057c5242da758fc2a2f7f7adbd22d1963f74 0x88a82316c9151bb2c2cb9d2c0274c43187bf65c8cb77954c9e489ae5ca2c7f326945754cb576093f6d4ca74277350f9 0xa6c59aab756bcd8e709578a90af9738a01af056df8105a5570030f3ac0bd44a6653a0178aac09325a935e3ba4988fce 0x11edf440554987324fac874b06dcbe5e56ea4c79f1f00c958ceb10eb7c0bc8cf0fa11f94b23ba2c6d5a38ea8a21cb1e5 0x5c346bb15243699bf916f7d7e7089e89aa112ed65d83e7aa4293fefaa220a07df39bd11b93ce2ed3372ff3f55c7c508;
  cs true 0x18798a030e396098ea4cde24c191cb5c8054e8bfea382a533687a8ff819efb13eaebcee814caaf530b9f22894de2f23 0xd6575c6ffb3300bcfe3dbfaaf6e38038adc776a011c7cc5ce83a518b636da238cd90c059689dbb18100dd176ade4371 0x22596fe8b7487c2f61daf6fbb8b69ce1bdd5d1a40d83d1d7cf5408d763521e2c3a9d39bf4a3d4d443f3aa7e6c9a1a3d 0xb77f2d5eae602c1e9929629431e3cb759c836229e1ace4518b614752c01560963e92e9444a3e72830ef19d54675edfc 0x54dfd315c91e4e677884f0654e1222d24b296fe30e42d48210d34c0b317340f06a2ddaeb61df08be86901d53833b6f2 0xd5ad32bd0c86072532aa06a05d9c6fea70b48d61738c84ba74340f362eedee50710ca3af2b2c270bde689be76d48b1f;
  cs false 0x16d41c843e726efcd52daf7099c5692aeefc8e773ddefad7457b72bb85f125d53672daa3a66e90ae1bb05c398a5d00f9 0x18f8460d49ecf6a8889cf0cea38190de9ea77d29428f611e544baf304316c7a3534ae659ad11210a9c2829a8c072f952 0x1612e461f19fcd36a513db4f2eb2af29dd951447b055e9331a4777982f16e044be07872ac40ec43410423ce45f5eca7 0x15ca1d3c2aada8cdfbf00070a5f334b430446040d58e24208adad7f22e0720d5019293ed145fc876ac8ab797d425ede7 0x7684bc964a54cf20992734c3779c78182dedac8c550364a9119b18087a515fa4bfc73b18be195f3abff37d5267ca0ff 0x3c52bf234b0a64c8e983f99b2fee0123be04e6afcc68c377198c2ef04067b8ac50cf320c83be905fdf5fc6115aae9de;
  cs false 0x11aa39d2716f99e53098a808c946142e2027a36f65462433211faecfeae5df736da806a9b1b13550b0ca24406a8997de 0xf3a5bf517712cf4f86b0d2cb9810080575b7ff6a18a7a2326f8259ee5f627d0066651a7bd9d9eefddfe1fae6e5b51ff 0x8d6ca067fabf7a97593e70f7f0c41f917ebb5fa43ad5ef7fb2943d6ba37fb1fc59f782cd677245f3f71e4e29e45d092 0xf39293a77aa68e88a7e03d60bfa42b696a088e382837ad8bb6cfc1c853076f5093bfbe405cb66a9cd920d14fe303346 0x8fc6ba40a35be1e6ab9ada41df02e0963ae7e96c05acf9291c18b98749ec75a23bda63f13cb0cc3405a33ce6495d85f 0x1087c09d1e3e76bae94443587ada522892f7b7ef34615d881d28e718c10a935c827dd119ca096b87a1922d010100ce0e;
  cs false 0xebd645a7093ec48d0b6c958279a8df4203e23eb2e26cd60741bcc8ee6595c1fec77aaf84d46b68b1b8da908add34de6 0x1725b9c2a9db19455c52bdf5fece41e4de9fd7c31a0abfc5a3612d6ddd103814d777bda3959cc11d659d5bac2fd1fbaf 0x1725f10a83718ae4fbcd68a5e06d6506d01800c3abb9fab982530bd67ce382d0edec9b23c3faa0d873ebe2113733a8b4 0xbf682b427a24959b13f3731817381e3644399230b2bea312c92762ab2883761420f52ffe614dd6c6eabf7f370ee24dc 0xc08a9923f05445cb9743aa02f1dba5ce7431c7edb03154eb9030e8e59951e65d9926b2c89f53924a5536bda356e63a4 0xbe1d7cc9aec093d516fce488a80d29d695ed1b50bad2685d3baacbb27c3d466006a325a42740aeba850ccef0179d01f;
  cs false 0xdb922871d971a3540dbb7f893a276694989f1db7de620e1b6d1eeb2dcd7016bd146372322e69740ac3753c1c8a95eb 0xea0bad689d70716af3ade0c08f5bac05221990687cbd74412d1d504fb929a1b999135d01a5c7eba56c3fe94e9c93b15 0xe20bdb3d5fc0bc88e74fbece4c85c99a2bfb10c8fcc828ec6813b12521bd54f57de30b8ef9d6102cac876f8821e24d8 0xcb5bdf583a507959f72385b133c40d7fca42f1b730da5ab7b3b043cdba90ace5a615013452ffa1f3ac400b9ea6f495a 0xc2469081811d1f09586fab3064c1d62e88b5a00755905842c8d0da905051a58dc202e329c17ff9ccb91618f11ac83c6 0x18c17b9f522226ab9d3a65b087a53ad9524f98bc5f308e992041b098e0e5f96b7677871f9243e8d51b3f641f8f65fb32;
  cs true 0x5e3fb0d1d2db1ee8fd708555e6f7bc8d74eefa2969c47db00e933d265edf90977ec933a0b3ad44d0053f9372fa0b6f7 0xb4d7615cdfd4ad715ee8e136ad665905f912ad7edeb2fe1b49714ea7d7551f51b70356561ca68aad256fedc915c9f6a 0x106720fc1efdbe4f9c3d48f1d83f0843abd7acc179e3b26b08d5b18aeb9bf31ea82e6ac9a17fb1e02034dea990610268 0xb45ba08c33dfbc21b6300a6cfff692ef428d3844834ea699640e14b525548db743322a3e660a459fa71a9c4a3ca70b7 0xa02fb95f6ad08d15b1cebb16e2bcdf962d3518e8f1e2342fbd107900a0f108305cffe883f7434f29a271e9264644349 0x19775b0aba8fbf8c935a025489aab31d40bc6c40cb4551575860606ad8e46c4c445f3c93b5d961981bc40acc3f6749e8;
  cs false 0x1503ea8ae060ec8945515d720edd8d19808934141a44cf9f616109297ab9dbcd9cd67f36d5c23134d7a286676fd14a1a 0x139e66848e5630811ac242b69ab67b271e375ecdb8b655b49242fbcf69d6adb78ca3b07ed6d1ebb25beef540b83c06c 0x178cfe4aab85a03d74531fb4cb19ff2695e42a702feb9e8e6ecd769bf4026fcc4b566388fa5785b67950d70062570432 0x8bb44064dd237e92bdf6572c2a2f28d0058f272bfd7b23c0203661fa4f20972e9b63f62da77ca04b32a56c2fa72afcb 0x2559eff9e85c50b1367971488fbbd6f16fcbdfdf40ceb27c4370ebb0f53bbd566d1137e4b69f6b3e30e9410d56a4cf6 0xaa7eed090f05038b284d4d738483acdb114427eecc287c1e0e29e50c718c58d953bcb790aea801f9f9c001e2b9ac198;
  cs false 0x4a725ee6e985d240c4adbc75ee319b716b1a0d55a81ee19a923f2c2da2b77792ed651cfc7d2003ced2f6adaeba5601b 0x1705e47b601b59dab03cc0c15d6762ef709728c9971395702db870838acb5fa92b2996bf7a72846d261df410ccbe3aed 0x1867061d71ef76e97b119e1817f345f3c23d4d0ec4a28924bbb754e22fbe2417eccc5325f52b27b18ad33bdef21e6857 0xa6b232fa53d2ce65105d8a9fcb72820936e3de55230e9243eda314c3c1dbee75015c01ee56e3bec5bb64bc4db7866a0 0x758fb63466027d045da5a92551229715b9f9e203ee356574a6bbd22b925c962bd51d57df4197e08c9f5fc75ad99c124 0xfc464ad3997401909151d7ebf1efb4318b063261b3347366c7729687e45b93d73a4d3a54600addca6e9c1810a2b5578;
  cs false 0x565b7f19330f2284d08a55f1e2ef14770c7c4e38d2750372d46d181bd35d135e5e0443dfa58409c093fabe601b19411 0x31653b25d44a59b3c9813ae0e589bbd324d71b42732b4882f1e8d12164013a6b8ed3c5104e8dd52edcd86bb13097d88 0x13a2f1667bfa1403473b95d48fb7822733a6daed217981b6dbd3174c54cda1d68a478b900ad3a7edb788085948a0866 0xa85ce2f9392f2f7825707fcaa01d3d3f4db9d97addec45328873e1089ac8df6939c87b2c0aedae3e3d92cf781fba825 0x41f4d2fb431db2b03182714d4375cdf82793a95352302da2b80675c18bf878b23af120f87c030830cc0ec252687fda7 0xeb5dfcc2a13de81a10bb6044362d9d7596dad7688bde4d2a6e377387737e6ba7909e081d35bcc93cecc8aeab1071ad4;
  cs false 0xe47adf5c77c31810a2b6b513fc2d633d899d1c5f2ca4f308dbd5cf323d49e4f1b6ff85afcd68d349c25b137e059a474 0x14966aa2cf9fd40e4e75fd9c6d84151e7fada6559b892198dbf19727eb3fb0d5705e195e7241f1ee1193e3bcd13cc636 0x19b7f558849bb0696bd0075a86b3646fee3bc2f9851676ff81861d0b2e4bca3e5bd4cd7a406e7f7ca3503b1151fb3cbf 0x2b7488a1c910ccf567f867b8a3d026b6acbc88f3075455a1c5d9f38976190a4b38c2f0760a5a9b0c819b139826b413d 0x6058d47ce712410d5ff9f348baf2ff43472f5e46ceb6f2525e59bfc159cff27c2a38eddca598b4e61dcd5faadf0d93f 0x2fa24c3936a392f32a4fc0da4afeda5cece657bd445e3d10e13f0744c5cc8bdee61cf8b269a53837b47b27aaa9bf108;
  cs true 0x43dc0d57a1db7c70bb46a7f3bbdbb1fe6569d1c6acef01da8929e59be7a053b380235d3cd2dca21ba1bf8776f2eab4b 0x508f623125bdc79e98d4cf52e149627f65d1cba9ce4723f30cd79d84010ea644d328198277fda4b4c40e536f1d6b8e0 0x25e319f8241ba1083c3d265b869c8eb6a8413608f83ed3fc7e9789af5eee084535edc95358eeea0d217e18dcf6b1a6 0xc87b2d778367dfe7bf06e78df9459aeb437b6cda08c8598e2f53444d1ae33e786ee556f8237df202f0e6fffbc65c12 0x11d56e322a76d84ea9b02c1a3db3de335d4b62ab7cdce81a5da3d214c1bff22a19c3b798da50dcaa5d2ac70364ff4de 0x116922d27461d6f57ef4862f1fb2523a62aa9ab572e2f6c9f00c8c6b9718581c73a9c0b5e4d480b46a153935f92a1faf;
  cs false 0xcf937c73141139ba99b04f264d6224f8fa0b41fb91484f96d7ba7bcbcce68a7940d4deaf1e6acf8a344e9231a481a9 0xc63ef1de2a9736e6bbcf573152015e0f8efa3045e0ec75f3515bc81d76d7cc044df9fbacf87418b2ac8a8147c74a3c3 0x15e8d51745e354768af6a99836638f496e75dba2bd2b86906ff7bf260674918c3aa5ec7ae5407e90721244d9ddef4327 0xc0eacea2a7218981301b79e94a3e9e5db92afe9e106b9215bd11294553e80f3cd19d18d52532db7d800316192450a77 0x5ca66a8f16d7f2b19424ceb2215d0f0396fa790a41747143eeea765850df2e1cd0754545e222257f67693ad9246f547 0xce2263f81ead706a852f860ca85553b25d6c218872bef181acf3c461673278cb33b50788c35bcf607e338f57528ff54;
  cs false 0xae6a7279e8f07bfb6cbca8868be1c9b1ba2ee2796c379499500e8ec8eb43fa46dee37a2ec5f178a87f29dd965fc4020 0xaed92a2c3d8667e222b1f1dd1c870cfb762513688493a50a392f6af3405e8c692cd25e2707e91ff1b16ad7b62f73663 0x88fec9f7bee471a629d9da67eef7234311845349c2c911010ed6534cb94a9d42cc08b0cabb20f21f2fd5ab8914f88ba 0x4c6fde75035e7872bed46c262952ffcf4439ffcb7303d4c0c19314aa901b1e8dd9db542383331edc972ce732d33c96c 0xb4c12199852106e353bf889245ba7e593a70e3c5879a38aa49d5daa378c6181bd501028ac262d0e27791f6c10399ad8 0x5acfbdbc7eefec544f025957a73de36ecff83a5c12473ea94024e3f36186d93434f347c0c6b27b4a44174c8ba8ca5f3;
  cs true 0x11b95b9d7bebc2a342aa20d2ee90e4657907c0bdb0f986a0c7404393740459f5f5c0af0456e2d5b2882c6080ee9736d0 0x322b232e3cdca23e1fad9874f2ca3433272137b72a7e13be4e7cbd9e3afcd86bd7dd261975748521b02d897be294617 0x73f73b27217af8d5855fb0fecb9f65dfadd6f17bde9d946d48eff914dc703f617c1604c2384def20de1ac716bdf7051 0x1906db588b2b7840c00b2b22cd582723fe381b859c159c2387d2fe9ae4bbe605e3724435b59f5f4c9d3c74db13b05752 0xeaba793d5246621411e5224d1db84ea0f224db16615cb5fe3f07d0935967da051130a84f23054c6928f24d551798c90 0x167b89b11b8f3aa700cf7993318241f6cc360b8d89a849c35e153dc7b267090a1c84e17d7a68e2602bb83d6e2ea1fccb;
  cs false 0x32fb0e685c6d04bf9235f16f0ea1afdfb2ed6db24e30bb54d4c355e7de892cdd177fd2288b1e10f84e49e38aa0cff6e 0x1201fd7307862e5f227e0ab68aaf1f986367e226053d85d78a06b0c87ad1241b2625526a91f80ff9b9ff3ed0bc1d4e2f 0xbd05f3bc547ee9f9a810ce07299138cb44efa12e2b380b2ed35d065643e826709b09734310079064c7b660bca74942b 0x137ee1d8116a9cd543d2f773362d392bdd8bb4affb988324e0b206050b1debc1290b0e724a9714a871850fe3455907d9 0x181f5cdb6938e99f0126b5cd3a30ab96e7c70f0c18038c7acbc537a4b4afaa4ea7213aa7f690f50fbf342011b9422eb0 0xbfed7742c0cbbc361439e67399701f004a00d5d728d286487ad5a953b83ff3ea74b3fc5a1045fef4121d1a96eb53eeb;
  cs true 0x437fefbf6d25fc2dc7ed11732c088e1fe9d67dc66367ba45594b67bd03327204a3ab062a51394b32f851963c405b2df 0x8068f97f6e754e1208cb09ed4bf5009fc83916d7a52f6cc6c8503d8ebc3b01d3cf311e93149c66d15c4239b5873d3b0 0xf6d1aeaec65eb7b45e5c2d616ae8165ed858927286a58dd376ef6378966042e7af0b8f8a71fdf9230943c2ff2e19b61 0x5b3f75ed0fa06960f9d9ccae8ff04d55126c5a9936e6c0c303ebd025b371b4688a355b2ce38a6f47a9c583ef1b99fbd 0x452262b813f2017694f8f35912fa039a8cf17e3718fafed92280a8eb876e1730157935aefb64d307271d63ad3ee7c53 0x3550365aedf42a622a9b0232e51a81a13bb17e9dc2981a4672813554da17f827ebb3f1eff6827df101e664f67c8c6;
  cs false 0xd9c43ab2ee25ab7277da876f56ac5271ed8bb0574764cfb0504a446935f3ab5de9f3bae43cd509711d425dbdd57c7fc 0x18ac5ad32c0e6c7e473f282ca80684f04ca28e7328a6ec6d8b52c82b0fc56d3678f51da37669e88a767059fde48cbc40 0x797c9bfb60fc08dcb7f1f3713441d585543aab80f95cec9682559b7d80664b42376074b2ee8a566ec5422f49b628eeb 0x1a7fa9d771d8513dd7beab3a8e7764fd9902fd2709462497fc28a94b15dce09218725708d01a985d8ac001543740f78 0xaa566ebec120a677c37f660d7d4edf334d97a91657497ffb75fd14e7b73599b7707a578dfab02e3dcdd7676fb2a8b97 0xd84a1e173da6e6450bd12aee32cea8ec9665dcf803f557e5721709db5242c25d87bdae66816d1ea92b2b455be68c2e3;
  cs false 0x178667e45222b78b0ddccb4c8dadbdf80db9601b5f2856cbc04fb57deb3e8d05c8673c14bd33a31ce18fbb21c25066df 0x1709d67af007425500d46053d95ae06b1aa929680a02cb14dbdcb488d9aaee1fb61cd1a9822b88671e748d624706a243 0x60fbd23cbadd395df14611337763c5fc957b3265fbea3bf4cec10add5bb8f707ee93be16151c8dc916b5430707b4631 0x9135f945dbd859146790357002f3aefebacbcd82fb59367bc8c02bdb165495bfb4724c36f20d6a5f3549913c04b6d93 0x1a998367d4512c9547b77b51c8f6917b3d389fcb84aac1eae682ef0bec01084e0815cbb5217a126d780ebece0082a9e 0xca74a0093fbaee7d91887cc47081df5784236a338223ab9407848b1c0fdde86700b2beb07a748c22dfee78f2887e94d;
  cs true 0x1004faf8c1b5000bf742323a707f745c99edf1b06df1a6adfa3018a21fd9aa40464a990730b58fd3b5e140cee8829971 0xc96854f2a248a377fbf4710e2e12a35c8ebf659ce991f2dda1519b96045cf7599a3fd5c45243c75b92b224049d3cd4b 0x19a011e15f3421581df3125dcbf56aa99cfd0cf014bce79684217c7a4ea4ffbab203633a91d2381d0ef18ee8e6465b13 0x714999bf43f061d5aa240a560db17f05bd27d66d02685c6389391e29f3e87da04dff5d0f8b735763b761b3db3a1c2e3 0xb69cafaec10663b9202c529a619fdae4f703820eb53783921550c6a452f76de31f79434a11d49f8b235707dea01f442 0x14734832c1fc37b4396719bab4a6caea751b6ea94fd3d2d1f39067da574a66e5077be0088077b2f3a42fbb3c29dcfe93;
  cs false 0xf44ba164f7bf842264567bbbed255e1f76039823f61d7f93101a45026f5a6def7b293f14821239a5dd26f6f1528339f 0x56b371cea65c1f878ec705b76c5f9f045b79ca389d1db84f1b5e81f9cb4e4379a22837ebeadcef778afee4496244630 0x2f35208922488c4c11be2908bd72bde05b1b31f39ad5ad20e5f0e4d0f058a0fe25dee69d2f39cea70ceb28cb3a082b0 0x13b213c94163edbd6edffbf8b5d0a565b9f4dcf074517183b840d3415253589afeac486c7ff0eec8489a07235f0dc6d8 0x1369b6d595ed2dcb92a6a9d9ac80628fe52133642b1986d5412a3a45e54f5db97fef663c1bfec154ccd68eaba0664587 0x4791ab6796a9886d8d1d7ecbaed012b3130026260bc0153b52761fab6603c9f13f37da60b57ed57a06c074618093a9e;
  cs false 0x47cbe0145d6692014d6efb3bb5eefdbc9ad39118c205734e3455101ea67db05b18ef49e5ac149f199b6992933d89b48 0xf67d7ff95f4c5e923e7846aa915d1541b6344c61de034139df9ef78c6551df4715da4079211fec377917fc98062469 0x32aedc674666fcd8a562ead16d7dae2f78fecdd27d9de0393f12f6b77be9b278b27ab49a898f0fa374f5fee15ce26c 0x7fe9004999e9d5f63ecc72dea4c2f0bac93b0dde8d963e5c7c97d0a21a341bef17a00d66242734494750cee4be6c7da 0xb4b312cfeb8b0b21c6710d86fd141b413e1f9a4f6d357ef579c5836709d966e41b216feee857de9c897b37d8571c6a8 0x12285f90967ee8c187ac746e4dd1700150644119a9c31cb37c52e54fae82cfbfbfdb71c78b676382de921fdc66fa9f25;
  cs false 0xe7580fef57ee77dceaf48da586582bfa7dc7ef3c563570815633612491477305e88d256546e2dcf0474be27a72b40df 0x1996d91c3d24460d57c8b563f0713e3d0db824f8d7c3b636783496a0baedf84f04ed738953fd6243bb3a346c043c8a99 0x6c140925b1d784185dd34aee65e029ef625090a90c91853c89ac1a4bcc23d258aee82f86f02db770a5a832aea1e0de5 0x16e05131eb56b6ce645d31a6c7fb6180d0be5831b3d5a5cac1da77e947b308227bf85af8737346e81940631bb765e129 0x1948f7ef572a551475fdae76be5981bb3853d1193cc3cc649ff0816d89620e479ff85228d193197c5403a516bc645fef 0x3e0222e9bcc4eb98e67e5a17d1766b7b23d2291440899b4b5c1ac903ea11e180a718c20e5e6d74d79554fdeb78e0a00;
  cs true 0x19eb4493c3b6ce9243810d136351983af701a8f1a97c8dc7fd9d4c59d11860a6e6a0126cb7faf14119106b068f8ff453 0xa6cbb84431c04a5b191aa18765bca9a1a3ba5d8e1fba24bad173f4b1407dd2e64c925546cd1e9a15c4817090914095a 0xcf35d1ba9b839cfffbe2e2558ee371ca309c1dce33e529893d571cfdb6ee83b29f52f30d1b740542e76d38687f22aa7 0xaf868b0b196a5357bc75f12fb9a416575f3c311524cfa620d4c5dcff23917294cd5476c829f73359befbe1916fc15c6 0x19129bd849066bfb8a12690ee84c4bcb9be0d7eba0d2deea86de9ade16f9f13698054486953a25007834a2ae80edab23 0x173a920f3d19e8b9fd53126a31e957d6985bc7e9a5fc04009c989625a18146317a8c94f24155422b2339bf553496f06c;
  cs false 0xf9311ff299592ee27e3e98304bcb2d392e1c3fb82cd8da7d16571ed444943fbf2faaba8f85095d248b0df150def6f32 0x1599a9f321ada9cab275dca449c8bbaf93364b154985ec3016ae3656482f232a46412106ec91a1cd08b7617ef6ce03d3 0x105c070c63cef87ffe4ee3b32a11fbc3116e4b7ac95755835866c58e24512cfa72700bfa0c227b061d74b3dce0761a2d 0x5f068180d484de7481e2dd5308021743bfde0a3e18d67dba0b0359b6aa71a6d42568bf7ac258437314bbeee1107da8e 0x69037a40be7a8efa22a5c77244c2c24d7ddb4864eac01e6997e1435892d71bbff5a3e768b47d48e39d91186302fe079 0x7262cca277b6f8417cd40442235424d68bab0de144d3b7242f04aac58a77e540accee29bab11b3b805e6022dd8adb4;
  cs false 0x986016fd2808c4f0ca3f2c1fd0cafe339c5f7d4d657660cb0e385335d1ab4294171ccf4bb4ee30443964cca52ed89ae 0x184618846d34f229ce6c47c586df3a55fd2f76160e12b944f52f18a06f4c095516556971fbe1c47f3446f4eca88ec1a8 0xde9cb06ddf496b23eae384de9c9805c0b5a85aca41fda4873414d521fbc1dad68ddd8bab3d2a383da247c3a0712b42d 0xcf7a6459422f963d55d7f13e647c41ab202e0fff99128f6d5eda3c0c7d0af795c9449875e7772e71849c3935d540575 0xe5fc36f12ed13a404e9978626077f890e12f2580bbb88dbedf80db80956fd57de35f50a0cb7c2db8c0c365a630c110 0xdbec27034154b1c6727544ed01be0dc79feda98c3af8c8effaf88ca93e2f43012b99d0bd2dcc52c183b0eda57395a80;
  cs false 0xdaa6835059a116cbd6b0c635d3e5959fbd073933ea6ebba9fb896538c3f18ec1cc6ad09d4a309f339565b28dbf0317e 0x1635ddb8799b6f026622ee1e6e2a1ac22005910931ad0bc43ae3b0f0ec4433a89aa5e72776dd05f983b8d97c9587c029 0x132d226167db56c4b04083c821d09a879b3ac89c1f8380913c6c797edb25bd8a23cc0be0f58107c5788d72f87a75a556 0x1859ded7c91bb25d2045314ef159a6d2b30fb9b22c4ca2d0fefd8630da8ea0cc7abbde1fbec2bcf81c82fc9f28fb215f 0x19c5e8090ab25c0db2d89355a64e74ad06110245428388ebf7a6ab00e3798907a20ab11f4042eb4a796b9fe4016d5ea7 0x158f71d7599c2e392bd9fd3e78efac490c6799899f0805753b2bd42b5f03828c58fe955b3acf911050fd98c6ec5dd7f6;
  cs false 0xdf329173dd79d96779e6edaf99edacfd8d91ea77411e3b8af0c511ba56d3bb8f31d13885f6586025192de19ffbedb21 0xbefaaf7d002a2632d2db6afc3ef345e70c13a834f9548c2b40e263ea1dd2e1149eadfaeacda3fbb1ba61aff18e9850a 0x15be72d04efe44b71171f6b92c5730265fd2b438370c6d8dee565a510cef58c31dff724a9372d7a6b6d1bead06602957 0x26c22aa89d1a78519451732ed150643d4b2de2ea16e3de71cf6cb4a9839d3f58cca49f1c39fa2c94cf40d3b7c4bf156 0xea4f5b85d17a4f2cfadcdef40d5ae14690ad64ecfd6b2ad7bd000dfd0b2c3d5ac47d31b7fd313631f2180ec63f23809 0x10242b275b462055af75e66b9e7fed51d8bfcdb0eff0682f9eb2904a6ab71e58a91340769e09bac72bf89f5e8ee4175e;
  cs false 0x4141f04cef36ccb9f592cb9db6b9654be1485eb11d27a13e590a9c99f8971075f0ab6ba4a1357993895d46e7be074a4 0x6432e87870334c668296690953978d2635848b6e77625385adde9de12f52894498209c08cc341ff132ee539aa67f398 0xf5ceb7d43c64b1c292ffe0410bb261c3e83438cb996db649ac7ea763a95702794daf3c3b391b1335c87aca9e10e7e27 0x1816f69d2b83b46eabb3132c4879bfa61670a830258ddbf4896997a1684f5d858408ebb2ca05314e0804cd45e4cd1cb2 0x6b0286a2e940c33ad4bc1b2546615ccd39af2a48c03d7499fcfa8b46d17bbde696bc96a1e7bf2dde44303eb3f8ad981 0x9c8d515b77958741c70c08d334fafc30093bb25f6be36ec79e7cbfbfc54a31d67db95312069219d946fbfdb1b0570ec;
  cs false 0xa22464cc29d111f8bf2db7eb41e230035d4c2ff52d6a93ccbab19a4e8fac6dd039f5d99da7adc5a9d468eed6fcd190b 0x406a125bea1353da8a78edacba62864a563d8a2642e20ac74055341a57a877291c105a95c3b1cb5cbd297d5d76553e9 0x1938b94313624f884029b3aa49b2818b63c285a0311dd21df3cf02b53b05fc2d08bce78809fdf6dbb3144822a7bbc658 0x113ae07ceac4d2a43307fee3ea8c920e6720d13990603b40d8e238992ba5a0475c67ccce175f9e996dd8742f339401dd 0x136dcdd589bbb6cc8d01de29bedd53713067a766c84a534cf3d971007f5d946aed8dd4553aebc09581d8a781b2907aa7 0x12c58f9200049c8b5047fa3528398ab17ec5213c976cd9bc5294051fc8a92bda3e4ce0a239391a1737ccc034db142e73;
  cs false 0xf6856f8a978b5f919741b8ea627f134a5687bf9223e939d0de60e4635542b6246a66d45c5836f055f552da5455340cd 0x19b078d63dd91770b04efe37c8a82cc8900a1580631f88767432c119d36c14c691910667a600843796b61f5886f3b1f0 0xdacebe60ed5a668c80cb2b169c3ce87b5c5543859fec80babe949b845100bb958c08cac785f219a952f9d05c0feb7ca 0x12b88f49e87798c58ce445c8a7f091a5fab846e59ab898843417583dc0c151fd2bd89998ebb80d42904440b6f218a2d2 0x7ebdee8e18c8444d7efc2e8a32d7a98acb9f4b38514ddf4741af87d0691800c6808edce4d0147570983bfcf86caabac 0xa8187a7ea46b8dbeed39402e0741240a71fe5179f6d926bca6c94d1d5b62ca810583e2842a3e71ed52707dd9945dc2c;
  cs false 0x145623aaf090a2442fee4f0390ecbf890ca2a624a3f37039cf018044548dc71b12f40ea5f07ad0e4f22c7b342790b271 0x6218e9e4120bb593efc1f6c5c8883a8b87866203cfc236ebe6466bb7b7db42e4a8baaf8a2a075379c74c9273f164ba4 0x248f1e9bca02ea5337047646f73d8e33d8b0f84e0f71f22fa4e7c05f8dfcecb4772bee0ee90f729c7a332ee1338ab98 0x10a725b7f0673fa3b1cb963c960e8a3784d2e1a2f4bcaf0a5fa12885d9ab34d23ddb973fade7a57792af52cc98735d9 0xf8b816b9f8c1d8c0c5f0b1d6f359cc44a686866ad2c3de4a770943533c61f5268dd31496c46c317b3d06efb0059358b 0x2fe305eaafb787fa76fa620692148b60dc697b0c5b78d643f4fa288fd23bc69aa4e6732df926b2113d404dc0f2a396b;
  cs false 0xf1bd483a935703f2252baa9d8906e5f6c90fc434dd844de089ece407ad01908ef42c596413ee90a4ce7832a34688f6 0xed0d39f5457d04e94a7f3fc1071d4219c6b242f2d701de76b96246a0eb1f8c8a98860e5b15426f95fa62a70920e7216 0xa74e989a5131939167b87c8d082235632f144c534e526c1427992c25f17e5515cf6903773070f040ef45af61edf3a92 0x1831bd9e5e2ceb916012efa558fe727f05ac4c27add9201b160d4ef5cbb79448b97a0ed4156dbcba9dba6a031234e2e9 0x1055bca2aeac533503055df9cd3edb9eca4d79d7e02521e21830c32afbf7167945c16654617293fb92dc5cb6a317fa4f 0x5fede8d35a190bc6b34e8cc700c9cb7410564251174cd4efd48c8255f553cacbaa06a89f4a66b66a9e7b2ff69af0fc;
  cs false 0x5146ddeded8a5b4709f475c703abb6a99611fd9580b9f4accaf7f8c4b0243ed109d7cd225f710cc2cfd0345b16e09b8 0x8fffa4c53224012f791e367fe0875f262f1bed9d575cab0c85a0e2c601889d489b541f9bdcefbb95593ce46747254f5 0xf4b1c49ff2ea5dbf0082e1b7773b9923a4ca9b4a932d1f9cd5b0ab2b2fbba0e2e1f200d270c936245040e531e2ca3f6 0x170bad992cef68b28da6da45039257718f5c104fc9dc1ffcf6367ea8cb50115f4860001e801b9c3b063d54f23622fbb1 0xaf1c50ac7487a7bed89730a88f60291bdf4118132f4c66d40a87aa36a9b1a15103461fe78442c6f7329cf20764f348c 0x14f33993f30bd135e6ecf01ddeefe7ad72846b9d36e3557c87fc2021ee20b1957fe141f90ff02dfae66f1415eb8fb3;
  cs true 0x60cd456661430a564ba023213629bd7271380b42b6acbce9b005b1c62a0379868cbd1732bad19ecadd85f4d8148c649 0x130d0d0e356627459ef7152447d556db08773e02cf6b14deb6986629a7c9c6c7df7bcdc5b45f688b9bb09d78dced4b53 0xaf2a20c8807576b6bece4ae4c641e2de8b24151eef23163f8cfe4ed09d728ff4585f603d42545a0dcde39939cd0dac6 0x1269293bb94c4477db9ef2a993417c56a661acd96fab54fac74c4ced5c871065fd730c5206c6f5e5347a29de9615b292 0x9b495caff5cf1be3937fa96b2d0cd7e4055ff5e56d7e2bcb3746685deffcb44259247bf4ea2bcb96e12ec16dc31db71 0x10c57594c310a42a2d0464e21723a274bf7a37f3197e91fc28457a0070b1bce6482694c192d983bb0ae379dc2b7977d2;
  cs false 0x30a938c42eb5a56987009cf84a3b5a907787bc03e2220fc56203c1528b4a048ab52eef6a5b25af7269fa37e02a1deb9 0xfb013b58a595e5d05094c80f4c4d26e9150bcb9f1a1e275f11147094fe97964546ebef829e19a989c8f2da5062373ff 0x145e55a8e11822540a30cdda9cf64df4b18a49b820f1ea06bf29ad249b84615feec21dedbdd5bebaecd2ff1960cced24 0x15bcdc41d8c5e5ba37cb93f946bedfb92de1f194bbf40f180e5feb63dfd831dd2b04e3e6394aeea6a12cf9dfb7143e54 0x13e5e19f787f20c952e938e61779ca34cab3560a347b54533e4efe334ca1487c09be4deb295a190e00e7e21aa878afa5 0x1126a6c11e898a4018968752bcc17fd2381d64977c31cf5b77a2362ce4841e74aaff316b961d6f3fb61255a03b0465f;
  cs false 0x19c288939950cb840f17b9c52e6faf5ba915639e35d3a3ceb012a70c846cd658ebe35b5f4a2b1c398ee6ed4b7163b53c 0x1482a579e9c9f0e3f4bea11c875f8647cc4d25807293da086794ea654fcbf31baeaad2434473b1ab3435ef5522048b36 0x12e513c23afa8466288ab2af3dac80413956f43b6f959f54246f4df4f61bac0fa9d379e6732d48db946802834e5851e1 0x13785089d644439cd7fa86fe08fc0386c3bde01294a4525b8b94ce1c3955cb7980eaac926d7ff0ab49342f3be33f672f 0xdd7260c0ff3f2d9dc0a7d237e8469810f679e90adb1848b9a300e6b5a2fad2fcaa4614b84e7f8b63eda66b8b12b81fa 0x35492705c0d59188fc52785978f676b46f8512189cc1d9eb3a4a7583f338e65516fd156882a64aa93bde756d7ca91a7;
  cs false 0x45b73da1b68ae8344520e3f5560489b9614666c964c93a60af9db70e5168a07704c3ad0c2dd44f31e6bc036c4ecace5 0xd423ac7107d0d7fec01de1af56c1f5917e7a2b18ebf9656453e344e0920b8d9a6d7e7154bbd32277a6a401eaafee471 0x826585077374f12bd5dd940610477db989db1a62e7a6bc0cb36aea4c3dd393c02bfd6131050966b8bdc7458cf2622fa 0x4a0d46ba1a8cbc0448bc102ff3f10ba7d9174bb56327b386d928758891613560dcc5bcd79543befab3b05e214ce2c7a 0x31cf8cf32ffec60cb792b15e63afe081b32cda16383d7bcda94b87684ac9703de703e818cf6719249f12b70ed338a34 0x10e33170a0693054e0ef6951ae1219aeb59d31607d63e6ca96c005a4957c3db79ec3e86470c9125556e39e6bef187fff;
  cs false 0x106ce4c10057a286cbffdae1873cb93501b4dd05d26a57dcef2b8af998fed2a21d7d1b3f11556d02f10d94d9d71b9a8 0x10105b6e64ce8e1e45d42b4d4a47bfb395eef140a9d43204dfe65657e28747393ee2c737fc909b8d4bd0625d231848af 0x3a27a86219e60bdac25cc88054d8479bd4ea6e741743e484290686b98bb17ca55643c87d36e3de81590321a5e74a6b 0x172ac527638807d7c17bcc660fdddc107cb53c345f26adaa38c680f8622d2967d5349163fd05ad9b424ac3d27e0ab2d0 0x13c7953d7924fcb6a313cd0bd617f3cba1505aa06444d5d7f6861f9179579a864fb9c82d8b9422f1a98269aa36c39acc 0x292568332950b2a0e40cb422527725dfd3cacdbe61c0fd76f32ff0c3a558efd51ece306fb5c1577eb97e3565c6a8811;
  cs false 0x6e432b51be05b81d77d29f82473f27f46ac56696aebcb569681d7fc6a16584e05324fbab8476b04763d5a0084858a81 0x172178f5ae2676afeef0c50ab1ba622039b60d740717fb14b9d3271c43207307992ee76eba8396849d815f0d20bd1e7c 0x7ecb793143fd0412d8153a2b1a6422d99c54455ed9c6fdb09d706a9c67d80bbf5edb2814fef43bb84342af1e15034ee 0x10a6368c6e5bde1b39fa481f2248e9a7937263c55dd84cd0f8d258afe5425dbb84f4d426b0fa4d0ada8ee92235ca9407 0x10c6db759862e93695941b0d5f85e456623c59ed59cd2c2cf612d84b406c2ef1d5d309ba0327f979edce6ae297d5b0e5 0x770aa81e9937214a9c526ce2e8c57f25a8ab1914209e5d4b4e2515388bfb1eeef8c49200ed99fc36cc9aa74c681e41d;
  cs false 0xbca5c1ac550d1d7b130f4604fbb0228e765d878c36da9c2f5ca47b037b2d2807df74c6f54d204bfba82ed918110810f 0x161c7c5274607420fa5da075da1de606a3decbfe4ce5cb279d23a680a4352c44934f28e73323c1beccc76c44a786952a 0xb6484181668578430d716469184d672209f6cc1b0814b171b435458275d6c09cb0d2c5a15c6e8c5e05d1b589a558be7 0x3296c1d5c18e56a5b1237fdb930f41fd4350545e4378ce1434293ab2b0df7a3003f18db9c888a44e7c9a27eb524ea2c 0x92068aefbdacf0559c2cd008d996f0de058ce3dcaf3eba60c3af7eb724b052c1785b88bee4accd29220691deccfe34c 0x19740db9c0339e64cd42504e3af4782221b035cc791764c2ffb413bacbc4ef4243c60e6e80925132a853476b2193ef15;
  cs false 0x6c15684600631e27f059ce1b0ec300c0bb634f5e4a5cf5a12aaebfcef874f713a2c29d21493c1399435b24568105ffb 0x1646b64d77077ce9084fd1d3423ff7572bc2b5e6a336a8cc2e6bdad77f15a30fcd423537ebe10aa8cf3bdcc0e8106d48 0x15da4a5590f805d45c108ba8c69d658adee98515fc2f07879d919775e765aad2c6be85f64afe68e3b3f6d5fb40b6e343 0x80d79e114ddde5d83ee9ef01d6dc204411d5f8616d37602b6e9cb39de36d1cee7f46b12749498cbd0b834e3aaed9076 0x3c6fc5d9140901c75bb15a859ae94590ae1ed38cee30a4062230dfd38c83da74b5d745a6be9322838db3517abea29f9 0xaa169b3ae9cfe5d42ee5e3d0d42d4317c7c6578228bb6425cc8a8a345b80fe97a4f02efa0f59e3cd062741e2eae1188;
  cs false 0x63b37cfa97ec81c4f16a91dcc41f2260f0b6762a7ffaaddb41c914d987ddf0792c4e813f8ae83f724ddad75d686418b 0x7b4b4e0401c4af85514ede02392b789ae3259e4214980271442eb609dfe5063b47ebf40dbd761c411da064fbeff7ecc 0x26ea1c4e23987b886bfd99ebe6c6ed06791afd3dcfbd0810c9b6fa9fcfae22c6b88d6b3f155a63ea1c07fcb63f2b9cd 0x168760f7bfbc46e066a816fefc55bb6500af65fbfc959231ee4f3b26ae1cb320ef9043b1900aa24371ca804fcdbf5427 0x15757d9c9ba926a1682241cf1b0685ec9cc73cf7bbe46b043b25e59e802f11bdd2a78273d183daab18f203bf82b674b9 0x368fa9651ceb7a12d7f5f1b42f636d11c210a243e5613a2410031be84d52eed1f44815ae553ad9bfa09501a508a43b7;
  cs false 0xe070b633891ece1eb4341d9fb93731913d358bdb656c6c103f7e524f6dc2af0dabe64845428702f45463817691e155f 0x8f752e8059dbb6c5818c2ab7930b172b110d9094c67fe252c27b8080e29e8e343c014978b8c4eb7c93ae0e697b949d9 0xa0c0bc60738fae5884233848e31605472885519501456cb6080957140911c0dc2848168168614e539caeb0eec0705e9 0x12f6de0bd70d6ba7373be8f4c0634553ff73b567e8080f4babbb5430508cd608fd4e1d05e21e0842c38e43c3d8900ccc 0x19e8e5656a15a8c924eb96f81855b3a768a8f9279ade483a8ed9667d283c4871f8726c0536169407a785016b84c4674e 0xd8faef4774a6415b88729f08434d88aaf1e940ae8fc9954f6475b287a5319000709dc15ff4713fd6833ae1c8cb33f4e;
  cs false 0x26049510624f643e5a85cc697c1be55d6387d53abd05c206d17302f71f9e33738045e78d4fa0f4268c79446c6d08925 0x1401b219b12f7a338c9d8158a6903f26fe9dd2c66d8aeaaaf5a385b28e757ef56569757a4b46d4aa29bc849d9fea05b7 0x53ce0d78513af1448a61028fb654629fda22e1e3809883f02ddd2c600438a12450548beb96f3f0fdd685b9692652f38 0x6a9ebb5d1ca7a32cf619ec786e050869029eb3715799a010a87e165ab2a8e4ad9918c6797c86ad4e8b165ce9ddbfb46 0x2177827c93d479dd71704a25aea39a8f62bdd3db0eb3bcacfecfe4e35d59e06254064f83025616617e5194e43e6ed14 0x12e868824c748a9d37ae4e9c564e591ee214b56318cecf68f3a04dec562e273c7d0bdb7abbd2d874976baf75f06179da;
  cs false 0x4fb74beb124c54cecc9dc612b0f4541c86fcc14ebf06c3565a789dfe4b5153f91bbc50eb7422d1c4f8ae928471eca71 0x12d9b47eda1e83653ac01bfd8acd8e3e58a656e590dc1ae22cddb03744e6c204e92470207af4c3826501651c932c0103 0x556201684c68eb5572b7988dd5d96bb9e61d0b97d8b0d0a2b9ce30ada67fad148b991154608bbc80ff9dc52e076c527 0x4a1b5f7a1a06ffcc93e4a10efb5dc816b64232bf726989dd911dc98460542d778f72e28bd58f2ec6abd84d37708c587 0x91bc8ccf5d35a3e6ae03dc152fbefda7b8b520c8866735f495baeac59ec89887360a87f188ab8159068cbcf5784cdf7 0x86043ddf8dc0323404515bac5b7d1cbec3b26653117777cd555fa2fe4e0befe1066eb3a0ef48e036c32f2a58840ac06;
  cs false 0x4b26df8e8940b850205faa97e46fe8637faca04f73228f014bcd297b1d9d1220a3413f450d25e4c8c5d1a8f3176e662 0x356983d7db5102fc86f8f6afcccdca82277cbde7292d39cd3bbebe2ba81f48fd4acba45683e60d1caf83a42dcfca58f 0xc0e6fe1cb654582d0e0d6b3372ec7318a3be0ea6afd7dc120e7dbc3d67cb430193e4a3e1043bfa2d0a8f3899f324dc1 0x1230433c004536e46a0d47c433c5765a9a92777507f60f93a64e73e819c28feac802d28bc1e1423b129ae01e40b21e39 0xf9bc85808ec7dfa7b05cac581ff7578da89c73786504f848604affc2342654eb0be6a9631276da9cd2f46e62dff4e5b 0x47b2d4260a7beeb2f743626dd1fc03d37b5fdb56a25b83e562dc6cb304511d31f5a0fffb9eecf52a324f1c6da0b368d;
  cs false 0xf4dc81e1a48d03d117ab936d3b9fc09a3e0b8636f966db7a96c6fa82a33a1807320156ae70f1b1dc5a870d7cd50ff56 0xda8add1e4b086d10b9233fe3fde3aaa0461a73492c577cff8493bf9465801f4364777602de9e9ff166b97665ad5e3c6 0x8835c3620055387dc65464d514dc45be9a3b2244b1bdadba599b40edb24ad8bdadebc4ca98134b3e79ec0846397f3c9 0x11008842cbf85f4d4b0ef7b1061290a054ca333dcc94eae3a16ea2e51b497f36efd98300135852f0b03009d5d0a32381 0xde4836362af304d58b15f0b3c8e5bed35fd819dde43c3ab89db7e4ea135c49e40e765ab4ca26797af0f856153d77b2b 0x17c97bcd50016e64ee8d352cd8996fa5ac3f82a6c12044f09a646bfda0addb2d8a6e01515e6966846d836251fb0539f8;
  cs false 0x39fed006042d1b0750cf65e484356bce13bb785caeb9ff830d4b46baad58e537881ad475d73bff4301f5f4e02172227 0xdad1d65de99ba2ac4ae470c4c328224f91dd650a81bf3f8b9243d5fbfffb76b18c80ae2fba0caabe05fee387c7ff7a 0x16ba089bcce7003abf280f0bdefd25713778a1396e74b86daf0840794bef3d6cf1a12a27222024971e4bba25e1c99af4 0x34e006e1f25efe89ff4b8c0cb9d9a58f2e41b47609680dc85f321abe4b198287bad2f63e291eb3836df3cac50fad95d 0x1432bfe4c6dabed170b82bcbbff394f051716d6eefbcbbf338090b7630db2bf4128c65474e8bf09c95d818a0abe49986 0xe1d0f5c40012c3273f4b2693f6f87e90a7a8c85a9c9514cc7ee06a0f2ba51e77fa7267a9fb56d9bdee4b3f154f63752;
  cs false 0x191111b3d622f557f55fd63cc578d3dfa67a88d31566edfe0ea5d5e3da6355e4825cd93bb4dec31249da6ee1afbd70c2 0x107517f22ac515733ba473909049921787679eb3db77614a6dafcc2b76ddc484b65b0d30ae0bce8177953912b59a8146 0x18e517e655a54ff13ac2e437b2c7b80fd904d914468918376c36ebcfc38bdc5c824bd0ce0acf6b6907045d427ee9f8de 0x1b16ee6d8f730d2709d46a8aba32f82764817188f692940d333846fb0ee77f39079f79464acf10e92c422abd40d37de 0x11de140fed7bfab4f2147f7b197b8526a8eb2b5ce3b19c916a1e4d5a9e46738c9ae1d57b7c12fb330f8ecdf9b1976fe0 0x8dccf2a5b4cad6d79381c6046697317ed9eeaa039836ecba5933b9353ef2d96c4643bacffeede1d9f83f4ee37fa1b51;
  cs false 0xe032c0e48a6d2ac48c4609f56bf52e6b50ad44f94e6a3498ad77e856f25d47f51cb593167f98264686ad2d0183d4383 0xb465b8ab775cd399eb335cc7f02c05586b2c12be0f392fa35e7987f63e37f6456e589438bd1bdfa852cf8a7ea43c5d9 0x174e0d293bea9c7fef6462538f1429f9bb9cf0a894611c22dd023fb2aa0e6609ee2675d45d8574fb08cb9f36f98bc762 0x11a2beb183b1c3c624477cd7758aa6b9f1510a5029a3735ddcd82b648c847f332d04d5033f811c3a747c2adadb242c79 0x193a27bd45ff96b635eb5c9e9817c3dcf12bdc60157423ed1dcd0f8d67fdbb884911fc08843bcd442143379d157145d8 0xdb14ca3c80e5116547fdb7163c57a694731a1787c614a152332489edf48f22efe74cdabbbf441e4311d2869c795f63c;
  cs true 0x195c8be433a3157c634f658fdd0341bb8fc34a81e474a6b25dcbb870b2ce11d38b7276c43e12894a04fd5ae65c0237fb 0x1685a36b700cb53519b73692c2821353f07dd8d09668c9a0fcaf43e64ff85e2b8fd5abbd0a7d282981a2c8dda6c20c 0x3b9ec610baa1161c257f705ff66026e5a66fb2a3a6b76ed916f3f1e1521dd1762ae369208bbd9e00facdbdf800a234d 0x158cc1c88646a744e3f2e28c5083e2c9bd2e77ab8d33e5dac0f5746960fd34d0f55f8ebe85162316f70317c5bd2ac55e 0x1600b7fa429d0d0c32b56c88ea4d557aed620aabacc85ed942f5ddfa414264e76117797e46111759e2c9f0eb2a0d6a4 0x6f3cf09ec3059e5bcaf2854046032f8bdda31290854c21f5c7dd88c50362c6e01b6e16daabc5e1f3785a68d99a0107a;
  cs false 0x3939d4fd090d628e85a3f19dac879b9069431e9f65bd6037aff80057c1fc7728a199ce190a204ee83b3fcf295dcc809 0x105cfde5d61720f450756fc5258cd624a7273c6dbe1dce52515d795913ddf6c2a2c016a5fb659428a5dd2cc8d15aefc9 0x4bbdfce7835f515a09ca777adf61cb1d5985cf85ae867ddc9715e103db93d9f479509a2a58d9c55c5603698a0d3e9a5 0xa6f1ea3f020e6bd929d4ded475f2dcdb1a16c61e242ea5f98ef6cad5c60f94ce53d82ed42106c8d4c0f8c813709e02d 0xaf8c3ca498bf6571433e44530b85f0fc4b8bef23e97c74feba899b69ef987c4cba14f560927e30080403e55e3c4b00c 0x5163c1f24e7724f2165cccc9ad0dca574e8726afce6446714e0f6adfeb9d8122c6cc34ebfaf1bd7422c7b4aec7d3680;
  cs true 0x17694fdb0a5ac2c6636a16c00ed0c455538b3061c1ff01e2da5565940d0fc93ba40e85003208c4463e9f94315a22d4ff 0x128d9f3abdffb434a8758f373c4732c7871c699fdb6394bb0c0b45310ef351c047ded47f76eed6e3950ecfa15923d8f9 0x12599c3bdbe513e3c0c0086ce2600863b6f63a82ca2317246b25adf32efda143f5047c708907b96175150ac3826c1cb 0x10ac519bbb7639b3032f862b33ca3370aff7c129b58acb88d6eb7a08dc8741059e87fbcdeb051c053e80b8208721ed80 0x6c2cc27127483135e60adbdd48a8a5ed4dbda26f6437db1ea945ca6805d05a784d0a85e16aa010fac146f2600d6b6e2 0x16864cd81971da2c728289a5395b5adfc0dfe31c5d3fc6128a09cf8a09a37ba0445e024038e452a039531b5000a0dce;
  cs false 0x9c08e1d47bbb449fa2b7be98e6b9c0fce50a6dc8a82ea026d4c72852db39d6919e57bdf2f9c6806c4b0bace5a5f40c2 0x4ab99a6af41d0efbca7456fd07d2630532b99b691f906003cf0bffb1e6a513aeb05e4db83b64a6351975cdded0b5b54 0x1769ddab8d6a0c1a9db9b71ce1e672ee56fc42992c8e3953a5f64f73167302dcaa7c931f1d6aa530ea00f99785d784a1 0x1276bd28156726b488fa22aa125fac2144f086a7cc8a361f5b7d0def796accd3d531bc6214514e2aa9e8039d37122e3 0xef1a9384aa3e74a791d79c81e6764ee4ee99ac98816c267b5efca55118779bcd77362716cea903c474b9f3e4c2c342b 0x3e6b264c39a6419a0f4bc22fccd4985a0daf6cdec2ccaa72f308e9ff8255f74f49e4adaec90e906be0375cfd2760609;
  cs false 0x88e033bc98de70f2d956bb9d3bd16e8774154c985c5ffa6258372a445fc7794703e47bc8ebb405a4c1f49f6eac7017 0x155aa17e7fc6667188c6fea1dcb8091f037ed44ff87f1cb087a9d845f2d55c7c56b499fd5b9d2737a10958789093eeac 0x5f3b6261bebae23e8b5c21904c9eec559df32aa4e679f45698583b9ef3dee2c861ed007c34f1e5526612bbe0a425c96 0x9e23cb093f4815687abbed68223d3c264f95523d2215a61ce36873961e676df1034f91ee87f804aeb6415025d4d3841 0xefc6f7086c7baacc8eaf2931989a751e75342f7c351193bd298efe9a6756b92a146ce0e534abf73944f84a6e5c4c350 0x179cc8d8de85c748feb4832aede59fa9c0b81e67b0271b559f99d7567a5ee2bfa2bcfbcbab1a12bc1786a62a909c575d;
  cs true 0x11701abdc4455846efdea47e5ea6775dd69aef464d6bc53b364cb44dabc480c9826aa9aeb244281bace234c77f68d5f7 0x80ce01febe8c3f1bee1ddabc2336738ec4fd27554b25f48eec37b0d1db3907959f33912ebd3b26afe47f64e4a762bca 0xe8aa345e2a0bea9578f4737ebb9e16b7f1496983aaa2a6c2b8a71cf0cf4e0e394fc5f1ef7589474b8acb9c60ef98c3d 0x190abbf719336e31acb8953f00fa5f8a4784b663df210b0c06e747a9452816d9a4250543582bfa6e8fc455b7779e0ea4 0x17f3543ca502ede01f8ab9a8e6536ce19016a0013428b4bbd81c84d76fb39810a41cd05cc37888b3b41d4b84b3f4d5a3 0x12af5d83d7896c91adb594567c6dd6e898817d201ebae37e5464982fe6e8104a05051b68318b198d377b22704240a27d;
  cs false 0x8f9ccf7d3ab8e7d53cfb4eb4a2b2d32ef83b9bc3804aa1a2049b7cd2416b36866333f9be515126479961ab8f57c075a 0x14211563ed6bda2529873f49da8b192cfd23e1855b8b17799d9fc5aa0af795bd6f59c6c9ab11fa2381af616672f70b37 0xd72f7f04f2652b4a1b0eed26daa103e71501bd723f359c0e8075eb19d7bdce14641c87ccc5aad708bef92bf17f07ee1 0x65c8d589d8b7bf11332ca2df211f3c288b7bf9fb44f9551f1287d29f0b16a6712c15b2151849908b042a05c1cc14e05 0x150a8923be98a3b4c7605891679c8b98df37b1dfd3be9caeaa2e40f477c2a3a2dea6b820231c6b30b82f76504847a16f 0x93f2a9989350cfcfab027e5e218ab5a3e4e092366a704c11fb480d5bbbf1544f2264b7e804cff3fd35e122a4800a061;
  cs false 0x9bff9985f343bb05d993e918463252c6635cb8183764d866900786bec88b0bf44c945ddbfdf221204241313f2921baa 0x10ae0eca4615811fd35e93d7dfe3328d2490b53f8979ee3265a69792f9b7e05a0fe5974fb2c6af939faef4a9c4bc563e 0xde056998f004b9c93ff504132a599c8f91510bf5aa134946454f09639ea974c3e8e8d98b4ede0e49abdc8f2392060e4 0xb22bc7d932c671c62fc3f5666b545b0f42d08b512d4f2bc916dff1f904affcd15bc8e8b14aa91b460817334e57e3a8c 0x15d9732d8c1c190ba7f85834bf9cb83301a55bd6ed0c9eaffa1c2469c26e92fc087465ffd01a0eb0f71e0a0a5db3de3c 0x11d7ece6ecbd4ba5dc8035bf51b530c7281c16d3625c4e8ce8bccec3cc024df290d0036bbbffee2fbc37964b277359e6;
  cs false 0x80ebb826f6bfa8354478f3f361c4ac3ca9fd1895a6ece828f7b76da19c8de60b7fa10d7795206ed63456a3f904e13f5 0xe45c8c8e1752667277b8d22c77a89d675a01a9f4b648cf1539ed6cca7037e7b9792ae5e50c83385a0ba5ba01ecf0173 0x509f248eda30b84ff3011e5e52fe61adffd42b47b95390445f0ec4270ab4ce8d4ad8653c5d38efaacf976ba8ff2e830 0x18205d3caf9397b443c19546c9b85f07811507e084e559aad4e6a2aeb0f5e20458e31174ecd6300662a20497ce7ebbd9 0x1339fe814108ffcdaccde2237713d94405174dabf402be1031a5441b4b163f05fd97967825260b13b9a602530065f323 0x11bc24111002d85a329c6fcc5663958ad70fcc54ecc738361ff1d69896643cbe73c0256105cfa3fab4dd5e06e470a5bb;
  cs true 0x12ff3128ff6da3fe238590127cc402cc0bd1ad0b1f02c02cf46d78ff0076d0e5afdb493bae3667e59ba2bc8d92c527c5 0x136e2c3b6e5de0d8e35a46af18d3dafb9ebc4e7aa2992f151fcc3d7ca8ac53693f9b0e9472d0123d7285cfb740158e98 0x5c6ae65dc48d0dc274b4b047d580764ab6303abad9e2ef4d29fda0d96239f02db2a13898c72ae6d8b18dc9b7293d0bc 0x46b4fd193c4820ff4ff0ac0bb9fc3b26b4097a03c5f42408f1456ec2b433ca5158ef55ee66b5bcb9989d191546999c 0x1947b5b6c3fe685b69ba79194c033d9d3c4e1fcd28d7ebd895beff17783426ff9cf83de5687854ad04662e48b1fac432 0x1055076f39ab19abcc075cbcb6a6774ad424be58622b0d1c04db043cc290f3b2b130cdfeda8b5e63c2fd1e5e5ded7a1e;
  cs false 0x16e6df7554c86e70016c2e7888c57c1d1a4e7d6763e372cf7836bf747f4bec8fcd1ce165659d2d0ff4cc209f8986b9bb 0x1156bfc0170998679162a5429b6bdf9e47fe34bca44c0f2c69a8ac12c69e551f11d0087212f9d64995e846fa64d75191 0x19fae01736767bfa3c4a56e94027f50f4c47428846f2a4061bdb6d24c4233dc847d714666bf7824015dfabe661935578 0x133bfde575f75985a30140bc46c657b28298902505c299e42ac00208263e2fcdc51dda98aedd73fc70faf9b8b2c66690 0x63e2ca34180f6f1bc174a8c49060c4ef8a8d68f33e8c7b6d21281e9ede596ed43a58b15db1a75f3aac24ff8b9b73bab 0x212fdcbb68747265c80f6c7c104ee8d7c40c91eb0103a7190977caa7ae134bec6769e4a40070d5d544b06f6f5f9ba4f;
  cs false 0xfb6d9684eedc4c700b74607998d01da07cd847ec676535922542932dc85879dfda4d2748d9cde02844c32f2f9bbe304 0x41a625ff203c73906cf27950a757077d6f4c43dde79ced80eb8560ada433bccaa051dda015989e83129d5c5e3d74376 0xd5cafdedddebfcb13c779e2b6cde535ebb1612e6d170d1cb6a324892f943a012fb98af460eb644f216b7f5e361ae10d 0x17ae6c1ddf0fdf87f3cc5b2923ba75a2fae790ad5987e612bb28423804dcade51605c2b7d81d494fcbfb0fb1150209f7 0x13c4abaf6cfcf1ad44876fed5c025ffe44f559020929d997cb5a6d0d1825b5961dbdf558e7ba23db2c2b52ba4a46201c 0x17989c508ba8510dbef7e1b74c2d4459b266646a9df67e228958aa657f64186298ae3394039e458a138667ca94329a38;
  cs false 0xb583a13db08f1f28d9ef6676acccff490c62667d001198c5d31055335c79c1c6eaefde3e32389b8138185f03977a92c 0xc1528c5a79ba23b1859bf57db4c15d7fdfd83ca147000fc07464340d9c50452c4345690b598a1a8e3d435039f1edec6 0xe53690ea3ea87423f0458b1937fe1a51732cd58a16490913eaac56df951694778536fd097fd6624fb4680e312efd0b6 0x1071cb9455a72cac9aa7ca7a801c286bac66a616b3aa783cd5dbfc96593eb0bb4b5acbe4994b8c38523a3fc58f5ec2f 0x3d3e46fcc7b6bd60057dcd57e100c4d74f6a01d4a84ba1d852d8f326c79e2f8435cf45b10b7648a40370d00844f465a 0xd6813015863b22e735b2aeacfe456270a896ed86a3bab7c31fe3a20047d9805c41d283bf8fe97390cde8d7e52551b55;
  cs false 0xe7bca900e272538bf42dc970838c062d3e77f3fbd0b6e6c7350956b1f6ce3fd1d376fc5cdba6c749332e8258e0cce01 0x3401c8e39c4a8c1c085152d994e138dc82d5ac28b04d99972095296556b4c03a9fa780ffd43fc4634e3445f04141be7 0x888f4ddea26570e57cfc9ed1025dc1772d94d8b16cc57159afb79f79644911408d51338e04cc7c26b6c5a216862dd91 0x2027e79ff2d4386f2fd17e5c551143b60cfef9719766ac49766280178960df0726446ea44db381d8151b65ceccbdf84 0xb5e5e10b3e96900abf8db734c183ad7ba00948209e1dbd999ff3963fbc376a1f547548c4ab30768ebf24c8621880faf 0x82e7446dc4b7e7d0c53da48ebf257076f2d6ca96f5eaafcebadeae112eb22c6a07fb2eadc6b0b347a433cd70e76fdfe;
  cs false 0xc1dddad7cbfdaf894700ac59c863631a57a8f1722df244effcbbc03beba19511116535d804df6b317a338a6bf3b84b2 0xaeddd1b77079d724c4dcf01564624346edf85fb4ccdff1391113f024f634cdbb166012497d831ba2c07b6efdb1993ba 0x1663815009ecf8bd08d93068742efcc5f7bc05908f793051fe8f14bf85885e99eafcc8f6449b801c3567c74d17e28ea0 0xff7bb6924bd79f7ca7eed4eb290327689c8aeb2c104875cc6010c9569f2e2c365128b7822641500f91911e347236204 0xfa47948df9f38200cc49f52e6c54370be3f0351cea47a2baebc5ebb11d4dc5c8ff2a5bd59e177ce01949597eccc7027 0x55022cc5e03029e5d99e1f5521dcaddac116b09723fbe5c28dce3cae777440c02af8745d920aa449871c4fedd6b5b03;
  cs false 0x32a74a954482f94900628beef3a7be871e6e58b57c5885d18f2f0da3dad58da118c132a303b0bfdde39e2738cb2f530 0x626cbd0e74527d94d2195b2cc1de90a282e477ec981dbf3ddc4fc9f2be85d54ea41a75fc659166e6294108bef199985 0x792a9ef1ab023c9f54f9bfc9082f3b096cb875ef0127ea996e7405dc280472d847b3ea708f2a49a0675dcaf664085de 0x2d1256a42bca0eb43b093f4f141ab527c166935a19741e0a03a813abe9809323a25f4a132c1067b18b448f97fa5bd8e 0x18743a54f48ae2e9861abd5c05c66f6ebe1edc159839b25f5661f5d9224b8eb54183d60ac0bb5599fa5dd16d4cda233e 0xdd250831947e010593db5ead27ca9f1b1e1a1c0fcd120daba9862f12b4d751eb417eea841fd8f8e807dda15cb1f129a;
  cs false 0x2f711f7b88506943acee666f1f93a845938cd0d12a4e8cb00ed5f8a682be03475b4c89b3848f3b85ba2f38b66c390fd 0x57025dc7a86cb80a5b737b4567a429773f54d8aa152a9ead58eec2587d38fa9756b1d413c02668298d4b9780f4190d 0x10720b6bccfd469961989df6cecbd6d05334d980d45d5d29991c81232517e702dc9effd18175cea10c4ec1f5248e4975 0xfdd6b56537edebaa1a681a126b2782af94cf9d8e148c0dabd64f9c835a8eaffbaacbc314d7af8e25885f577a4dd41c7 0xb034dae10491f7b7e49e9cb06b014a0a77c86c4bd4dd14fc738909827e436eae7ed14629dcadcd8e23cd58a1f7a4904 0x6cf6d5b631eec7875e493a04e39c771cb370bf2300d829340ec649ff207edf91530498a76a3e515d5a37353859d0e8a;
  cs false 0x96f187e282a76823a23f7b8add430081520e42e2d9426672182490dab4ee04725241564c45c394ff6a5a514e380455a 0x76939c0fc7816b64963172e2bc54fb61cc617d6a41821f920e0d5e59d940833013103dc376f0f9b329d9d7fa94d454a 0x152d8a5dbea511536ac94264b10d3adee81cc14946fa8912b9d05084f526c94958758c6453a468c1348230d77b23ca66 0x16dc7beb370f0ba2948659e7ff40f65ca7e5804dbe6d2248baf04f3593ff0f377668558fc9087117b9eb48c61ee1526a 0x11fae7e32721c6c09d09101fdef8aacfbc7cf34c36614463a3b86176e9a0a71414cfa6100d09b52a9e9ee5d9e3296e6e 0x7627de1fa57a8055ed1f20b903b133e6e50deb7995f9f5a83e8fb1ac7345941efd6a1f7e5e2f0b27270d588c59c5bec;
  cs false 0xa092b10bd0cf8b450da08c8320257847d59248406001e1a46484fe43a5301779e6c125c730dc69e993550e55b0e407d 0x7ecdda333296e811a6e2658a363b7a4c593f83dd18610b598465cd24f69489f095c29e06be1d1e0e258a1d2c042c19a 0x11ee1ba633fa31c32b52642b64cfdcc9b209db7c272eb4462ca15de1524350f2b1f73d0d805ba683c610458fbe33814 0x142621a01444a8cd03ee34fa2c97da623871afecd144e1e3fb8f06966c0e8e1991be53e6394988c39a36aae2e9415ac 0xa3d900672cee0924201cfccdc4baf365fdcf0a1e4c95e068ca14f2ad132334bd76775f06b26734608d6bb3843514483 0x1536aaefe91aa11147f4f35314de0b7c07fe303c9816e1590d3c5931206c912429c2a585d051e66a9aec46bc4e2af258;
  cs true 0x1051aadc3b3ad9059bcea4e355ec98b129a9a84917673d6901ffbdf97c27bf1332099cd8316f0c4494b7167df6873f01 0x145e960c629d0148436152d214f58fcb5399dda5094c11908a9996dd6b30e5ff7a2b76dcb9faac4feb8b7512c6f30614 0xbe129b311411766bbf1923e98efa01b836c1e532c33a25025ce11774181da7a0065bc9636bec68f2f6f765a20e81e55 0x444275deb21f80d2f9ec04541b450f02b8f45adc0a58301c030fd26d220dd9f45562ff475615cf2c3da7e238ea12887 0xace1ad058cfc2214ad8fc8de03955d7827eb1808cf33d643b063902877d602c365550904a3adbdd1c364182622811d0 0x8809335ce4f7efb355ad90e552ca1d2df8be8065ac38eb8c7e75e239388a9fa3f17180b682ddef31f7b943f488becb;
  cs false 0x340a7e1541eabd00c9a40727936bac33196fe580ff7087e0cac31843c3319c6fb1a20a5010cda50a098ba39daa216c9 0x9202e618cbe6bcb49ab515bb30d53dc6f760e9c542a0e333d6d17699c90298f22f2ae6de6b392940577ff816a1312f7 0x62186938aacab9e3e5fa9d4a29f8ff26ba8763da876e6210255b9758da2df704387be4a3c6a9833e3ad14ca336c32bb 0x1391d14d29deac0e4096e86fa6b5e7770e265c9bfc7202c65e31f06856c1e1a259fc0c65198d70fb5a340f4e7faf3035 0x14b31494b75e0667550e0c900a5a36e5d6917a8d8425e5377bb122281228e6b237410f7c4a04541d72e54f98eb3054a7 0x8a229294e5d14b367fce7f477b18665eacfb820779329701a41c7decd4b75ea1d6921001d61e0935496d006e4fca284;
  cs false 0xa48a83c92b98f1d55c760432a3cedeb3ab7631ed57cf646c8f76d38c1222595d4f63a3b04b8a901a89ee4bd0a722c66 0x17f2d75e545e1127f2a54e9f7cce14700b80d37fd526122d39eaad31d743f95f015d89ee09d540581c71406cdbf0054c 0x1357bef9a6b3bdecb62018b88959a4ac9436179b1621bb5cb118bfb19742099487f4bb703fb303f6352c42a79c49473a 0x13bcdf5037f157426c2a5f8337cb7ca9635a0c896ee3d9ab9253c2be3cb37ca5c2f49f7fde8e4a26cc9ea572a4ff6c33 0x32bfd77a9071a4a29f196a5620e9eac0ee1edc0b146fded12380922333babb5585c07fad7ceeec058f448e59c4f40e8 0x13631c2c3100016d7c01bbae2a1b4ffc5bf2a397e11410e9774c37397b1045f82cd0d9d680cc65626286dc4fb03810ba;
  cs true 0xd38077bf5975d1702283e0024908d161e5aa7a7a9e970f088b24263121b2763bdb8cd57abc0cf1bf7cf8a11a491ca87 0x115029edc86ee45546dacf40969fe1b6b93a5ae7b7120034e9f42ee3e4431665d3cab502f15587c642e258e97144de82 0x190cf957a03dca18ab656bb18288702c665a8e4678bcad761d9243b8b3712216155d921cc302ff00315f2ac76ea45354 0x10bd1d5265c6a75c9ad1ff2d640a3cb32e1850d24c1c39b123973605852c90fcb02e70cefca07625c262606476ac9b3e 0xb27247aca08ffd661cb3e3711cfa60360e8f5c0c3768aeda7f5ef8d1363f99cec8d488d3f5338869e34a62f84134154 0x105c8f14578bf6b57569e1b4d9ff967b332e6d0cc72f23aa801699f06a8922e2402705018769c311800c82e386f5cb5d;
  cs false 0x649549839d8fdb81c9983863e735410280a435964620bb0da5334fe1b03be18a3be7f6b2a66b69b7605208e9a9e0b81 0x134dd7604533966e9bf5a3af3cf1377902d54ad6fc2e69ce7490bc47cbd97154153a2a736e3db43c2179106920fdb6ce 0x118fe28038c4d058a9999d72a8df4165597299d45f771bb86bfe37852844dbaeacf5a8e1ae67c85f8881ad65604056e2 0x3f9ba0c4bbd012e270273b5fe08dfb1d593967a4aa440273b7818f7d024ee0750cfcdbaee3ea51657989acc7ecfa27b 0xc60b25a9896f21da86460ccb817aa47f0b4fb2b811d58ae2615185344e26579d80edb200f1f19d9c34456cec718f4ef 0xb4c101f08f80eed948eec2ab363006d4586423a15ec5c37d46b70d89f3e269a100609ff2df7292106115d16714cf423;
  cs true 0x13e6f518b4a7f1ba95dbbd45a165573eae3e6bb20a54aa3f6df55184d1322a18b4abf7e56d08e4c3e180a28fa084be7c 0x125e1d9b7633a360bc74ca0dd3a9e2614b7e871078122d58d75b0268c48c3a1148427a88cc60452e4f617acdf828df12 0x4c1a3802dc21a63df3b9a766fa0238b4df1a0c8f2cb76b93b458aff40fac11b0316aaf9eac3f7f7721604dc2d9a379e 0xf7ed7ffb5f0a746c77f6c5ca358ac73a9a497e5cc7e0e3f890449755bf326900846a3a50aef5a9746e732335ed8e69b 0x143b725105502a78d2898d4fdfc726ccc652fb8796ae1075cc36bf6c4a86c4037def1b96f4ff633ab360f8caaced84f2 0xa786e7674358e3f68ee2d23cf8ae94fff8b9e7e23bd04ff6eb0b7d01dd7521e6d92755fc3b0e4e4f0e3820ecf721fcc;
  cs false 0xa680a9a564cb7e8aa07c43fadcfcd5347b11cfc7b1fdedc3350eb77b65516fbf514dc06e23df22c3cbc9c392be4087d 0xfad1f01517a397e4112d362823ee53539ddeede8a55ef16e70f43f7b3d732c0e0ab11e27f095e99c1c74791bea9eaf1 0x10bd274613bd539936f44777e172010c19eda074c2af66fb4476915bd6a5efc51ee6002e224a0564621813f22f13d535 0x6170a50aa3254fa507826f2d6a9f6d053a47405ccaa86d6c8ba7a9baeebf2ef8fbfaf55b8056d9d184f0b85432fcca4 0x1630cdb1e33e142f057da8d72ccbcf36d38a9ca2ae21bb8eab1e14cfaa49705bc56d163780f3c0c3fc85eb3aeca14f12 0x10185bf46018f6584bbd80a06873b7804c3a7163e89e988f2f788975fc0a6d777f4163dda2ef9839179ce1c0352509c3;
  cs false 0x6ae38b84dc76caba48b97c0cb41e416c10baa91f536b3d7843277ad2aaed6ca77cb2192bcaa2d588a7e8cfa7906faf7 0x19a419a37d008f1f817e8ba5b544bde51537d17b8a3f276d49298b948957f80ff49415f4dce14313cb7a2f2f01408a7a 0xa75abc661edda45a7e05c9aff4f111ac4f66f39b473ed690c178c8d697666c5d39a4351e7313f825a94d071592d1c0e 0x143e799b7b1282731e4a1406653eaa8ca9e3c445c2b3cd33ac1743732e97341b4b48d436b03c427c029b0563fc738952 0x197c0e337d18883e000ca35da3c7f65a89ba03fbe27ba03e48339ab83a06f17ab1c908a61c5f56fdabb27ea29f6018c6 0x812539b4e431b837a8c8a307354aabcb6d22a28e2de15213497a006df6bbd004ae63526fef7ba6bfb44a3b25db1e9bf;
  cs true 0x18d079732fb3d973e1ad7cd90148f9a5c0c1cdc3b1f33fbfd8b73a4318a9a7433a3f8608476ccf2ada0c6c867ce2c00e 0x5345c1ef9dfa30a13593ca22f5bf9fd00188cb340979014a072bbcc6dee8c92212da3b7afadc6a6769bfb7e040fe6cc 0x12a30ddc7a1030b23b5d0dfec2ddd90c50c0787e7ee7757330a5a14d55403ed4ad21c933ff9012b2734c92e86bc47f2d 0xd7e7185bcb531af2e0e11293d3605aef6edf77978e22a7c21d0f2b443c1480c40dde30d4ae6020912dc215efbd5c6ad 0x7cc51b9b52990fb93899ed97d5c5d4a048d0655dfcb3c782d4945d7bba96323a1833b24297723f6cf13ce51bf2868f4 0xd7260881462160b2b1a6e379f8b36f4d17f9e6d2e20366f1e0c04111de8b5a3d89c2d7c4de0223e3472df1a3a0a9ffc;
  cs false 0x594d807b3e89f156a523d155bb3949a0562413155badef095a6360ca18bc06c6d0fb25f78b4baeb13d0fc819f6fe768 0xe7002890a72629ecc87f7650ab10b38154dfd4fbccb16466b0add4b1b4b7860f12359d37b7874f568e33e1eae2e113 0x6ccfa94c474dc00824d6e597482337cdf8526d5f998c2679d1a56f086053fd785c510d4d56ce91e801d641c19723197 0xf20b7bb3cd7b09069f04cc89c053eaef705f97466fa17480236eec5ec2937b2ad79746e286a556f566968ac49de5386 0x6f65c2e1714f725670ba352735e5f34f60408802f514519a40a05ca8a65609cbb60fbfaabfbb4680244352ef596a18b 0x8183c132c31a3f1d9d528e067984aa23f9f95f9509998d507137d876e3d4bb1f64513914ec2ddb505b6bdbdb8fa4e6b;
  cs false 0x381ac181d6f088a5cadce674166d2c4a55d195a586e7c42ac9c2317f2e3e2017fb107a72dec375d2ef62ca545648c27 0xba046a430d789f2531014b3e4782d19a4cf9d02001e799376cb5202bfe629e9e998617d6ee384440e6461d11752c407 0x11719e4bedacc50fbe2b6faa82dc348d3bcf0c28363d72acf315df01d1692a3750fd2d803f28fa95e0e4f7df5dfb50f9 0x19f49a178a04a49bf4e4305e1e00be6b2887839696c5877a54604ae1cad6de59b196c83112b3fe0c79f38a80182180e8 0xb4823b70811a7ba0983d3fcd981c23a655808ac210823ef1d9664d99a990132f3395b24acaa8c772ed9e7376fc5e9dd 0x1166398dbe348f39661990c9c857bd3978962fc3803b8a18c2d89c3fcf2790aaae448226b0de5941fbdabf83e548e560;
  cs false 0x2a993e90f592f618c0d6bae4a801ca54373dd4cae4f14a86cadada63891cd11ee778362e0d1935f686c7205ae60d9f 0xf7f8955299617d7dc303d438d353e8b84173091f332d9e6bf802ff4a632d80d80830439a2e178ca5a58432ca93715a7 0x25000aa26deb6949e838dd811dfdbdf651d1d618ae5d6d5acc3304914fe8401cc8418a662d7285f6c706b2e536d3e3b 0xbfe614d4a0b7c8420df9a0641cfaa45feff3f2c76590f1feb127750246cb8ae93f9acfc85c3bd47b0b328d7918ae755 0xe65e7bf76c8598ba0e435b10cb2ac3657a131ea661063b7d1381a16c162c01ad6d246abb954cdb627d378e4b16c37 0x9920eb3a4b950f3f29ce9dc95a3a697bab55e353732669699a47ce49ca1ac43a20374b5bea04da9118e98a042b73bcb;
  cs true 0xd174d4f565d769afcf664e1d86bb48df1d60865133535307611da0bc3132d518da35d79dac54ed153d51f17245bf819 0x19da563b20f3a7c7a7726749c69f2d551d2d2aa934121cc24331b097651038a398cf4a27ca039d31c23c8cd00ca92ee1 0xa5282d443b89559dea15a0dd46e3e7ac2003661c27024030f5348e6f36c02a54154890c1727195830368ebb938bdd0c 0xddd834d04d4a82c398d0332f4850f7d18a03e293b40054c56246382c4b598ba233b20b7daf8f7ba1c480c8ece304765 0x1162d39960596b55ab2043a27af8ea8ef41b63c65324f5ce8cf1f93ef0c30063563f09a51d561fc4d39100294bc9395f 0xba42708297f5ae54dc178c064c53fd0138f2a905cb318156fa707cb0bf45d2a61b0de6106ef671889824e67ca0251a1;
  cs false 0x64e3b2a54505154f87ba173726a76fc3069861cc39e54c732b97ebef3d25711c2f0e4ea724a855a4b5676a0e582d060 0x234ec31b39d1db789e7a7a1d53660d69d29f21ccc7aa21db78386cfd16e0be4972b9968880c8ebeae024ddbb8d37f31 0x18be84b3c9798cc66ab34454401657525502d700f9b7990a705fa1a75b8e3c8ccd230c7ee05786aa835e3faa63241796 0xec72838e0f5f3ec893e9d0bed9e24b2452877fde6e2fe766e393df3184ea109a60ceb38bc06cc919b9e9f5602b44ead 0xa4bf6b383704c5af940aec2325ad33287dcd992ba389e2e680d25191b1ab247ffd3aa387f40d54694a4f57814c5035d 0x252f4e57be711ede581c9cafa99fdfa61453e063ca1e0cacd223b0fa010a24cf130768134d2900759d45cf4dcad481e;
  cs false 0x469b84b2fcb76eefeef3012b68232016d1d0f4f0734e188cfe92b5891f70779e8445657f398afe50541e72f90c23adc 0xd49b442f711fe955ce89683a1bb54b46bf1a5ef8513fb6e7205a3d20422e41c08d28396bdfd302d919d36213d468be3 0x9e93350dc2c3ca9c45ff34d624bbbab1b8437b8169f23b264de127be5bf1c29a7437b0bebe019a2effa0f9cc3d8b934 0x60d16bf4fe2c6e8a8dc9e40100f14f04175065e63260892390550bae0738c03d0079312d9de5f6e08d3cf005ff1ac3 0x10f46cc8030d8add5e2f2d5e1fa88b6bca131749552671ba3c9ad9640e480fd1a5f990a9e2572161e6e2b30e91ce21e1 0x27e164c0e0f2cc80a81190ee32b7e790c90f207ba3f2517e14687b5b4dd03e5f960b9051138c7bd1dffcf18d4b6a329;
  cs false 0x12cde6632bee93f9e4f6bac0375ff68fdf13927d314dfc6e7e8e2a4dd53c9848ed3b798c330c14461fbf65c10571570d 0x6cb64da9185b3726010bd663ab3f2d235e9b994016533abc786117c19a5932ce44bdaf69e7fc07cf1eac5f09ca45dac 0x19857c533db45a15d7749491407aef2491d7d5a85522f6f67e76ee5e53c69f2b088a87d16c20fdd8a784c6012020d13e 0x3595c4515933905bd155a8db4f58e3980c1bb1e1ae9135ffc320bc780c7267fa8eaa16afbe59ec112becb485b7762c1 0x1003969d4764575305fb46f6629903fac5d952e3489f3b9d92e4b531cf49e3c0b44c5869f4cd6865a5bc4f3107a780bc 0x409f280d6eb3afa6c23034b66e5f44026430643f6ca415bfbb6cc249fd7b4718992c1f51290776a9a5e4646a591599b;
  cs false 0xdea2b6d1cad39c14ec3f27afb6c29003f077b062851f898524f2825f28e437f676d79a886c29f4fc09830b6748b8099 0x15a3c6eb13f9467f2e055b18f00d56121d39c8f5eb5f09eecd1d6da21eaaeecb9ee970ca6572fc733d7ef3b2702b4bce 0x3b15b7efb730bd9536a16fa88c10bf2bce91c883a52cf33b49a68ccfbe76436ef6939ed4f0f6b186f9e6dbd0c63cd1c 0x1cf9f46c41349e2b989d7f7527aea9183c447e5de4d3bdd0d16cbeb663c20a4d5f6db30e9dfaaf06f383bb177a0cccf 0xe9b1435ca68425d8b42644d66ed87e9c79dc8615a4722de3726d802893b3437fa5562d613af193516598ca494f25ce2 0xd0e13a65a22572cccb1eb88960d7b05dfcf981a9f4882688f01aa41ba3556bc2e92521f076e10e7a0c800df38cea894;
  cs false 0xd84f8358adb63462c61bf94c3b6b3bcf0bcb02a5cbdb7647805787ff4d0d7a2860daf8bc117601720e9813e701322a9 0x88c8fbb7fa146e04f6e06a01b807f54ae27ded7fe19e9e04290bb909a3076e119c5b70284c0c0bf6d109c7a53bcf222 0x11cc64ad3efb4dc8b79a2ab33eaebc67956db7840d16a2a6f2eeebd242c966bc674b117f570f62f4e790ae65bb51b6e1 0xc3dbf16fdd9629fea1e791923be2bc8b66e5cdf3ae0c8f35b00abcc7ac93358f496665d8656513a9456ed97b8cada5d 0x16a3e2a368f3d9134d9c7ee020fe22e7c4caad577f95358ba903e8ce7bd908f0b0ea0796547620dfbc04fa0b2bbdbc3d 0x16cc19f71eb40ce9076dc50b6768aca9881b50a650e6ffe616e19bc73cee51203def887b69191af3a077ad07d0fe46b3;
  cs false 0x186e6baec35471aec7ac4fcb5c3c27dffcf9ae670cdbf86b68fc925bf9b814f943cf7d551e9ff9295e92109c664af024 0x192726a6303db5bf5bd6fcb8dfb4dee2cb449cc4ebb874cb7068c28271c53fadef21f6522c0037b946bb3e3d2e410c94 0x190954afc4b073309e81daf0bf33e957bb19612e07a4f3f25dd95521799c69b26b3f97aaa3f547e0ca046fb50f0f41ad 0xb7e1794f0e9f75540d3ffe6e4d7b3dc7750b74e0a3b6bb00a4316112eef9e8905f01a4fe61e0cdb72d15ec4a6825462 0x5381cf202d20115b56c4bf9fea8353c5d502faf3f0dc3d3eb63692c3c118d89ce3be6b4a661e3d988ef08eefb3c2342 0x15bac5def846bfd8cef5f3d24a1c731b2c310872714bd290f61f6f9dc44d8c1ba41accdcfa80c0c81aac6e03ce2ca0a7;
  cs false 0x10b16782c8d504349f0c8367471c7209222e6805bae556b5e42650589758a6f8d06538dff4388ab167739953f9d2dde0 0x9a3592d0d2a5d0b32cf041673970ab2091140c8d0898086a22c701d749e3cd900eabf29d52199af8c44421666fc6ab8 0x127232e16dd3e84d52fe2926be0cf79f2709ee0add18797ac95520c6b5a752b20f0daa556cb796c14466240bcbbc17a1 0x14fb26cc64be42403fe0b227f5eb13d3edf379d8535d036a478a3bdea9f31a8950d1c77fcc13eeccf074c84e680be966 0x1eef461efb92b0ff93b445c8e4cf8c729f284421e7a0cd8ce8f29aa370c8da56cf8cf4195a8c2e093254ae0f68a1fca 0x19eb3d6dcde766e1e45c46f496c0b084317318975432e8e602dc0611348a1fb5303fad714d13a72cfcf215544201c226;
  cs false 0x183ed677804ecacc06c2be2dfafb731da2c991b762531e492595908d2b2c133f0ee74ee89eb0d7c24f39c54a2d7dd490 0xd49b425a11e5b0f7d0c63efd11314080052b4e07a0db5a5b202b9d7eb26c384b67192843313808d8d717b30c027234f 0x15faedb8e99bdb05a76b2e5c24b02e7f368e2dbb14520462baf94dd3bdcb4e169b60188f350b18e6dbdc7f6903d166f1 0xad542c2b3e9c93721c4cba1daff1ddf16ad415e44faa55dd2f971186167812b78c3d607ac6c0fc537a8b51bc974e2e2 0x10df2be45109ebf735b831a0b4260ececbe420e746d90c6bbbc22b5f4c763219f9704e80d85de2d5e314cd55b48c81d4 0x682640072feef2967ad715d59036815006d4a5c254a3583c4a195a1121b12d33314dba12233b62965ec7bc2f3bbe0b6;
  cs false 0xd0103b1692448f1f7c82ac5c930892a4246280f83dbddf84d42ca182ac87a2a2a1fd90597d0aab09e1dddb531ba6ac3 0xca67736b207901981b7a97c0e695047d45de154042b51cf766a363d719d893e5fd5d520ebf0d0dd3e343e4d90990708 0x191ee2acd3dfef360aeb53e033fe70d3eb92f57bc6597b0f0576c688727df7c7c85563ec52f69eec028116828b03c542 0x16609f2d6e7fd4bd97a7388832dc46ef0ec7f91d3daff0b14e576ccbde6964fd14ffe7ca990f4c1b5783b927f0a53443 0x9967b9207f047b0d0a424eb56b4ba28bd31dfb8590ed1ecafddc91d4ecc6add97999ba255b6b37cca4ebdd90e6cf66c 0xff594e1896c332115cb759507c3d94b4b9c8f48770f8e5ae941fe2d8d1b9db8a3c79cf4628788ac83b0d4a883ec935e;
  cs true 0x47a3ed5f2a153d1a806fc01f34c3fce0ce891a66b125671be16cd81872859a31109088a0e9a6fbeaef067f4227006e4 0x7e7498586b215aa1e14e8314026473075e6036c74a0c11bfb19bd32a5a18d2397c4453e90864df132f73d7d2ecdc5c6 0x3f1365fdc6598b5bddb3adb4a69f5bdf802dc84c48b451bf6e8169b2c4483c6e57b68a2a408d2d0bf107a6cbab199d9 0x114bc45bd6d5912608f60b10b78ae2bc8ffdb6c5450c317f5a22ba0775baa834ae29ecd84cfdaca5d3f31bb788200d27 0x11962df540e2f4f7552aa6eedac8e768db4f5bda83131a5da74dcbf8f3b394f1814e6f7f58fe1fcdff223ca4044eefa5 0x95d4d2619f3dbf299df4b30f1fe964b591b34cb446ad91e145b95b99cd08c4388414ca1d929e895f1e3237629e68d98;
  cs false 0x4f052f475b290c699f73639d4c1504403a03e54980699a387d2b2fc804e49149ed846df00fc89663163e94d5275d3c 0x80f1a0998d32b966195de97adf702b73e5a5076c42e7d6bae1387cd6fef194ab58b9afe88cadcab4fa63aaac946a37 0x15bfb74c53c0d7e1e17af369882cafb6b8234da6ceae0f4ed9fad08cc9d67375b590e44855b36a7f3508810ea69051f9 0x328992143f8ee7cc160a1b4efb66d5700acdd28cbddd46eff42cfec0b1e894050be4d51a43115dfd5da646321837994 0x1532579a1aba2d1ef85c9c6b2b0532bd75484ef21c1a76867f58d3771e83ff9dc2a1e7fe8276c8506b02800e980c69d6 0xbf7e2191f044bfa6239c2c78f1b985dd42d27a390928ca90d812d767eec06057cf2593c15916f640c38b16491df185c;
  cs false 0x15468f364e3219b3b0b3de81ce95cba456ff6cbbf650f813967966d54023015b41e11962624ea0f660c0d40123d826cb 0xc016f2e694c195aa184ec4245409e042f23e70926be401ce6eb8822fc2550354d002d2f06e860548839906f8c0d413c 0x4eec8ef9594be815ca9f2130849f38c6ae0559da6863ac299ae5b594a30c14210c646270e5e631d94b6809c63803a9a 0xf32de0002664e8652d69e22c95b87a5bd6b78fb8e36c4477f6eb276d14553a2f3ebe828b2b266cb242e3cf515b9ed88 0x6a9bbb501ee2815c693fc5363ece78e9adf7becdc09d19d1d808d3cbbd10e2db6e4a3b85170694f3bf21ec0a65b016e 0x3c0549759cab7fdd8db046157d48e4e91c188b63654b9e8ccccf27f724a1b2ac450fc6cfb3f996d078c90bc08d69f91;
  cs false 0xc5ceddd8081a6cf47776f7c1ffc36432f8e1a23fa42f4595b51cabf58925c03af14fca0ead4d423e463fc0ca44551db 0xe824128fecb85882061ec31584b0f79f322e993905a6d4c0d93fa01d7f559f2253f2e54def882e6ab23ce0a134dd13e 0x12a7c61c34f60675b7bd5393647e58c31d072baf514acb61f8aa76aa334ab3f77ec5b94c5cf6eb5d0c637c30be68cd9e 0xad3014dd48d2885d50b75d2c1e0743f16348a26001e0656961f1e33e24885223b78b8ac805cfd78b16fe65f234de813 0x7a7be02202015ac70beae1e33667402a00bf87ae262d47c5147dd68b9a4b739e944565b72abe14a74d1b322152d8ef 0x636ed82c989450798876e9a19f0015de4458bfd8f3b923b57275175109552edaa70dcb8d929a86d383622de518f5c1d;
  cs false 0x141f7979c2b05a1a2f5228016a7647ad804acef7f965dafb0f90aba0d1e3c30ee331bce05d1a0a753cc1a1535833c456 0x1090f4c81a9a1c1ed17f3bcd3f0bacabb6e51f8784dc8d6cd05c212150bf48fddc1d2ff01ffcd6ae337c7524c7f668a2 0x2a0726e050eaed1bff5448beabed089ef484d5b3a6d665e68331af3f7948d7fe92295747b646328fa070eb06b7b88e1 0x463e90eddb1165e00425d95b157f04b9dea27257a4680ceb4c5ad23caa47ba78ecd21d61ec8d10e42f91f3729e816cd 0x13d822d835c4ce794bac364794144151c3aa169018610063153123cbadbb24a20cff23791ee14342c5f4b196161ea392 0x6acd55728a715e62ee4ab573b03b2d6c3024b15c4a7a82df4737fd5d586b0a2ad6ab94eeb05576647cc957ccc82bb69;
  cs false 0x147a5724d67c162111d0d27c366c56780d8af17e168335004ec77ce76450ae2a06683d0f07b27415207cc670c927d961 0x11830ce4786c606701df7110e8590b42e015bc3c3ba79678f1fb12bc3881ac1f6ca286a444233cc3d339fb3260fccf04 0x7e35cbb809ae543a2ffc4deb2321ec164344261f7de9e4aad880a763386d3cce82fd85d6bccfddf19fedc0979e2d5a 0xb0f6d1ccdd912f560ee2533c4fc37d70ed02a421608c6b8ab6d1750209acf4a8da5756da44676e8086969dc83b33c8c 0x10b4c16f447a9b8de8ee6d75707656a56cea0957956c366334dc05a95e3d70ee0fd797916be40a1d388e35c33bc399c9 0x1d6719111edf1773ad8c5f0fc45e297bb74431559b8b123ff258c1682641f49855ca43f1ae360e48f8a099125057f6a;
  cs false 0x1722a049439462e84b9cd6f6bf1709c070555725139531c51c310984a0e07e57e8d037db50c74e9d794888084a123d75 0x9a26b41b6c451c654d9d72de4b2e38a6f6496af7843c4b10015ca26e3a3c40046f3bcd874f2ad720ff6e9cdd5c1b15 0x104c6bed2b8aea3ee37cbe86192ed708deade1c3147da481847da4e5d1c2c0df01f38197087fabc1db59bc92a7e89f57 0x13636874ee49baa7849ecce3626d277bc85e68110cf10ee06f662023ed74cd564257b39b3fa759770eba228543afaca3 0xfe56501b0d28e1ebb5c1d4f807edb89026e1dba0c021c254c6dbc5ed23fcfb5abf67010cee686ecf895cd7a3ba3414e 0xe362b509c3a0009ffa0b2167dd6f7e0d6f3811d6bc559fc8d9fbc73970d492d41b0f9c4eea30ab63ce26fec8e3ffac2;
  cs false 0x11f4325461718769c85ae4bc080b356dbbe64b0efb7c3292420a5e5da9b8f7e0b999c62ee9ebbf17300b17306f077ebb 0x1679aa73a9a15dac96b759f67afbbd8a61913a2c9c5d24b76fe9a82bfd22ab102602c6266aadaf175a68522ab9b17f60 0x5c70c5b7b865133416386ffcfb7e31864e82a2dcaf0e369c2e5ea9341aac5ead5903690903b0bd380d6b8978be8ba4c 0x48e204bc9df14db62c0127050712816fc234ce65633aa55779268b7f1e3dcd83e796aaeb8f6c0499ece43eab458a29f 0x74204f4bf08a4e7f0ab8c552540a6b66beb5eecad050db1c0af7d39b7258c96e789b8bb7d2e3b872438e8fc6dd50d09 0xaa66a7872febe38c91ed756995b44fd0a42e632d51b099eba1b67f9055bfe153b1c85ad090911e7404f05105128d84a;
  cs false 0x99aaf54ee953ef1a8fcc50b0c66ccaa06bd13bde2d2536d39ace2cddba01b156fdccb5be3ffd0db2513892603293630 0xb7dd29833a566e17ba1fddea49ec023e1e664eb0f781f1fc4ed3b739b797ebee2eccf3f332c76980667ea91d0ef8dcd 0x1987870f3d2cc277949764bc91107cafedc6cdfec163d4a9d3262f34c3e358be9236791b2d511bb537daa7957b11c307 0xf7c4ddd28c8ac0ad385deb25b35f612f8f508b3f01329b210d206a57198e837d28b22e9ed5255a0a20e919e99752f7d 0xc0c649cafb0ab83500098a62b300c7346684d9e9e49aef2850d20ae5c743508ade383c3547cd852451281b8ca811697 0x127b6ed31dc78ab7f602c08ebd6b2b897cd8b18313dd810a2808dad71b83319cbdd57512467ef6513c251936f34c371b;
  cs false 0x6b0b0e70cf2550071341797d442bff03df440f3ab38a29a73e1bb97f1796522c003dc0913005549d0671adbec001321 0x22d64c302f1401d86d01c97216759f0ea43fa2375a5f094987457d6bc895654ffb8d927ad1731cb6cbb0a5e6decfa2e 0xe921508382dcbb8a3d2348c686f86f24323afa24e863444596a257c7311e027bddc78bca96d3c09813b3df4f785ee1d 0x156ecc605483086e6905a1337a2e4e9088a4103256fdec9b0631a3135c69d11da7ead3fd36f175c1faf3be3026f80920 0x13779d10e7b4c9cfc4aa71faaddeed6580ca4d836c6b5337b7b4c11de07f60db07c4f129d6849ca0e1376bdbc05b3db6 0x823f0d7d5456cd77167f6c41e9f9f59aa351b88575eb9e7f4a711faaad7f41a35557c69f427b70c0781755cdcd7c682;
  cs false 0x1582594bb0c03efd0149edc5021c0d1bd086e712d749ee604c0ccb0d4214f1f3a32eb0e5152fcc0958f7c0a704be89e0 0x75ac9d7d337c980ffc8eec844cfcf7b43852fb287f8d58da7c005f5d78a820ddcb65de86ff8cbe1126a7262a8d53c87 0xd541009590a475268169c1d069380f9f5edf380023317eacd3a4eda532789ea5cc5eb10d8b1b3292f4b7adc9f1bd5f7 0xf9efb2c3a44cfbb0d4e332485131ef452051b38db565ef1ad7d867281f96a6dbefc0039902b6a6bc3c63cb05ead18f8 0x17c89375be6e0f9cf40d43957539e776342f047d796e8ab71deeea6dbb22fe2c15fa9c598b0ce9dd944af187c8c46714 0x19be5f294a183304a797d857f7a7f6d334e39de6da0fef5b415f66728db956af8e308b587ed544f66781913ec25a843f;
  cs false 0xaff805890fae0a39db4fa5c96b54fc081eebddd192ad9b4a5aa510145e969a8242e9bf4f53105efd1be0b42c897e04a 0xa6469dc0f8b3f7fc7a1eeb9f5330a7cf7e2cfe6a85e91bdf30ea6e9e340deea24a30c9e96fa9d6c4c79b10350250cc4 0x3af2f9b5e9ddf36df218c795494c6f215883f431aa4b1214505c1a5dc8ebcf8a4fb865b99a33be2311f898e0e63c865 0x602820b2b7a65c41f316ee76660655d6e2a612e3e9eb50590797711a3848ac81cf25e4101bcf47fbe397bc3e1932092 0x4d35dd691d0217b53cd9b6500edb3cfa06062e658f6439f60741bc210f6c43e5f7f7e6d89327315c357d85815c9d047 0x18d51c5a293979a2e2a8cf4421680ce3e97413cf7bbb156a2117f835bee0655abcc44cde6e82343369228e778187dc3b;
  cs false 0x4fa0de26e18509cd723e1e02ccf50c92d7e19d4f9527d50d234471298f77e8c6a6979c0902653ff9ff778792efa48e6 0x1715f1bf2b9644b138290f3ddf16ccd5ae000f9427005255444f87d34042d1c9dcc9935f357ed70d38537bbe28049008 0x2566641e3a4d14adc7924de22181bc7eb0e416e2631e63ac0b54712481fa055b70bfc4240c97dcc301011355f4e7c3d 0x28405d0b8930f59ec4f731a7664f62a7a70ebc2d36e9e9002890b670cf4aa99dd898cb20e42303004c7413886c47318 0x996ed98568f2bdc5dc4135580cdf6337c34097b09922ef565bd273640cb682c890669a931426f4d58799a3906e40c10 0x7914c6f047a86b5566d89d7f8364e84c1bb45b308a8857bb03abc3ffe31458baf90411f3314ed3f8db9014ad7b7d61c;
  cs false 0x180f3ea69855fc10862fb5c692bd4cb7d4f0f7c2ee4bcef93807a2c3c0babd4927ef4d2d51834acc7b2b1fce17d92bd9 0xbb9a45933e59bc090cfd6d207161aceab894777a23e875955797d1e56fdad303a11b758a58e5fa27513b1dccd0098af 0x3920bb1e70781d358977d5d896e70234800e236bb27fdf44a8a8ee2cd7713b8ec143c5f0a44f865fdc18fa0b98a716 0x8c0a2582d5535f494ac3b23a858af61743fdaecb40636e69cd3ce112a8bea6e50fdf881314091041d9c4921ef9e071b 0x198e46801912d22ebb3bd00f440eab85cc76777e0b7163b9d627cc735a60062db5372b94ac5821504ad8b648672d39db 0xcc551d2bef7711ab6f1962d12558f7730b559a8ed84aa9bcbc49c5641678e54106b01531ed80f8f84d625ac4b13a190;
  cs false 0x19357d89bd41e1fd043c1118f0dc3903ab31e3f85d99655402c1789227196103f0ecb8b19fa41d85e9d0d7483287d5df 0x19e8e022896ab8149e9e1ab0af5cb1734dc0fccec018bbc6401b825e39e8665501c709d181729febb216e3f23cb7baed 0xe799bd0c07770bb8eada00d0814f6baaf98278c51d10757d3919d666f0bcdafae34ed33b0008b5b2a3eb695239ee81d 0x56258b9b00433bb451ce2c155df6d311368f1fea9bfc665626179c703f149172aa3d3d623b4054e56c6182aa9262a97 0x176f67bcfdb32c051226b7ec7186889da130e3726b3698475f3d1b94170ed273f7fdc2681cc260d71fbcde6573e73f6d 0x18bcc715cc34a79599ccddad19a7926c68dff1a1342348b326e8a241ab23d408fb49e00623d5e1a575193be33c74a244;
  cs false 0x1943f2383edd45687be43d7030f83788e5066bb7b479b2f77487ae6c5f37441c92bf963988b905b9355547d1afc2a119 0x11725a115e0158b4266c41981f0f5e1b696071805f4f8465b3f005d5455fa2d384710fe51f8be37e45d5ea92ba12da51 0x11cfc4bdd714d51b043d1a6ad636ea14d0c3d335b89ef0a675c3ff32ba4979320ff3436d57971cd714c86e7d91922c73 0x35593f52fd49d24caa1be082358505ac512cddf4f8991d9e997484f334e89c27812e23e31581a8aab609d4d29ba673f 0x9f0365527c4bec244b6a429ae514286479396c13cb2b2967e7861b04b5ed3a6d9e8a555b1c2c4623cb9ef2c8d261ca 0x11d76981f8688cc8a66f6239791b85c2b1daf5536b85d5e9ea7dde47b2a8ad8d3b875f4908026425c2edf90280f308d3;
  cs false 0x3cad4a7fb9583273b51486bb8e9d0a5a28aec5c90b33f277036b5801397950b6e0e88f363df05a114be4a67dea2938c 0xa79a3af38964f2385a4964c9aec0302204d9b53f266056d500b9f106aeec6f04c9028f782c56f8af02c267127706f56 0x16052078fd5074cfb5366d9720b066e3eadf21f4602acd0a1b9432e138a51b1fa1a84252cdb40f90f119cb63aa5f21f5 0xefbf4819cf9162983a27de49c957a91853126543408f4cad74c865dd9659b5f631261f01588d213470bcdf05e5c7b10 0x646a3104e45eac59a8451cfc0497d66b3d51c1e20b4480ce2262aeda3dab39a4e18635591ae08a561cf569e683d1ad9 0x176549e9b9f2fa8e621ef5f6e3b8333a3e027d7af201a2e67970fbe60e6025f38dfee53e78aea6348570c068d889f0e6;
  cs true 0x107f8ccae78703a2d5012d9f07a0f47604672a2781d8e2f5ee5589357449d94704995343dba3c6f8b07fb5b1d759480 0x903de31371c07322fb63d1d86fe44635a53be8c01254d251922d61255dfde55bbf039920639e8920ec786aa8b69dc05 0x10880f982e6c6b327495f0bbb731eb8c1ce46c776d612b9ddb2ab46baef471a71a6853c76696ca0a49de6d6f58dcacd2 0xb39a8b9e7aa2da0d54ec4eb33babe63e3959c6cfca3e3c005ea4c9cdda609af6fef00b1e39482a729b400adf8fbbc67 0x18c63cd23fbfb1ef83c49f486a14b5116ad0f1be7c3063efdc4970cc27a30bc0d71b27b3ba3c3e59230ee103145e6393 0x161e7a8ae4b8dd107b109c4fda14b6edc2fb45547ea7e4c790d264a30dacaa39aaf314766e8bdd9a29930d8f6cde10a1;
  cs false 0x5f9ac42cf5d8aef36a1a409bc2ad1e32f11b4409f1b515c6d1f53a9f05b1c5f028fa2fa33878851baee368314cecc66 0x1475d1e0ae5965105e243a656810e6cc37a63b6e956d56e41d29a8f35919e625f61269c9d32b6af25461e623c5d120da 0x19992a2e09c2ca4a5ac004f1dd4afabe1e577e8261c5560b0b3b55bac805f1c93a1f57ff24f2fca9fe1e72d2eea6f29f 0xdcd2b475ec79c0f4d453b64d0ef730067318326671dffe1f743c6c215088ec94523a984daf047d273008266cf885a69 0x13364a493e34726e32bc2f31cb2e4b64e2064445d5751111d8757b9eeed30e762d1cd4368c23db6aaeadd4afee42907f 0x3cfee3a601141b15ea1f014fbdf2d75b4b3cdce9ed524f4944bbcee2b7bb9494ea00ad5636b9b4cda588825cc6ab30d;
  cs false 0x11f2db39e33ab5b4045f396ce77c09bf8fe5c068958ce3cc2cbc3f2d70f2d41032c614d5e702c25b5941d4462f6443e8 0xf6ac966502a3703ca8e80db5e732954eb271373a90d138f078cab1ddc0eea0657da6a455468ac9ce5b66922a2c92d94 0x758caf1c0ebc20d7704813bf1c6352ac40f6bb0c999753c1330f0114d440bceffdbb43e2f6927107afaa4541263c97f 0x990b12693b9a38dd37d04878c2c1c04c67f4123e8c0661a12c9376022722159a487a269f3188ee52f0e497aad09994d 0xe5aadf03fe030c9b6630d7cee55875d3868a777fb010a7ef654cb54295ad5ead117aa91ed64c979bdb7384e2dcd0f33 0x179336336d8c4151e8ab14191a54f46fa6001d488b0ed3c7cde76f1c93809d702c10b9c715b86b99022cddb3c0f98d2f;
  cs false 0xc96f623ac72aefa7354113380298a632a2c3e7af42f41c2db08803437f4adc4ebeb03f8b409df1294217bedee1914bf 0x116eb0ca8e38177b55b64c28cdd2df057c8ee5a9b8914b2debe87c7b23d7cc4182774f8f88e5d3c09a2a7ec04ec341ad 0x219caf7da8315f67dccdd3b87b4e7378593d191bb4335a17eb5209dd409571a23032d6f56ce43e45f84e1c05a355b8d 0x149b56d1e143b10d72f77dcc6691b0912e52372b40804d1319f472e8670e932092b3f2ec702b5ef669d9777ece2618e5 0x415e6ff8c7b4dfb59a11435ffdcdb2cfb8e0d89886c6e5a51f57d44f8992d48fa1e5c914b0b7a0e9f7e4e852a155de4 0x953151e8be821214bf99068063f9020bc002b9fe36675bd2622a0da354426540dd7334af9c20cb04e0e5cf78708c69;
  cs false 0x96c5c3d01d30c519483fe0d2b0d1fcf5f8790eb522de2f424b0c36d75e60b1139f81debc65ceed149005b5faf2b9c3e 0x46d6e8e23863d5a27d6399435a8e8e61c407bcba1ed9447ce2a79bf587cf71103eaff88c6e4d6684de53c34abfcc03f 0x19dca90601cee66e02b37736fde918c62429538a0d0ed066a2b3827c8ce3f1c8982142424058df5dc7eae452562bc04f 0x7233d707797f12c099d7473d1fff6ec2b1a10240cc6b991c3a99ca96782db1efb6b281bcd620349af7738f23258a4d6 0x7ad2b914e569f248317cf23635b32c97e07a0544c829f469deb9a48a26232f92401eb9ee2bb6dcb0e8d4c0af8eda4f2 0xa22ce3a8650e65cdfcb3281dead951f05d150c0d159c3a57de589e5cc4513dee9254a43cbc8f406459766022419bcc9;
  cs false 0x62133d49a1035032bb828b9fe4e076100a1345a90ce80d0923d220cc4992611bda9e44ea07e0d44d4ef590b4e6f5abf 0x919f8d18eb49fdca3d4e761de76b19b482116ed43e68481ad8fc6659226afc3ea752c11b355ce981cf5c76743f55526 0x18dba823af7470c9c8cb97ffdc4653e1318cedfda8e32315dc879334930229f20fc0f9361da2967429c3d2642cc97dc9 0x88eb897397e30582594a7271443264307775360f1d1a3f755b4bcaa7184f7d1a0c1554d2ca83b100a377bc1978ab93e 0x1454e653a627b5b14e94da554b31ee0369483677a421db6eea4301176ef78271113fd24f98b636450d419948a0d55e14 0xa93808fc8cbfe793900efaef5ac07b3d6fa04202dcd6490f8cc73a057f52317135f5d145e29916c475fe3c0c3c1aa05;
  cs false 0xbfb2e7726ca58a1f72b0393052c9d55dfe6afb2cdbef82947920e49299ffc5e0f9fe18c112a76d208017583b5f19558 0x16098ae38058cb0bf42e07c70be3044a5fa0d0da9ac21713cc085576580469c23a91c7b60da22830a4a4c8243bf29624 0xc2693e8464f94ee03f264a7800d076b907fdb704245d31044b362f173e53a4f0abcf52af8f77f0fb330be645496e2e1 0x954dae163b6bf6ead0fd98c93edb10221fa4d56c5217373299f16afeae4b67082e9cd9bc54c8a06b5fc0744fdf448c4 0x64e03df2612ce768a7f992c55aa9c8fbe5018b9947b470a738e159a8e2dd84822f17e3fad7083020926cc96f0e52199 0x10c0ed2d05470aa5058522898f796765ffe4896ef5bfc6a37a6d26eac11135791edd4d0ab1abd2862549c2e7d8f9ce4b;
  cs false 0x7c8ac02ec2c83673b3053d464cc28d193e6096b8d5bbde955635f10e73e19064ddaf2b36ee37c696502a9283d072888 0xef861615330f2bcf3052c63620f260082e3b7063a16162c48bb923b35607f04510397e3e377f6d48434b5b3377ec20d 0x5ef32cf3ab3cb8f9d09b50c855180f85807eb13d9ef27db8e2a8f4a74b261601efedd05e8e0123ee49e14b524c82976 0x12bbfbae10d86b37031e209a95db6c95da7bebce6e95df03cd55f3d51e312ec969ff671ee5ca4937a092adeefa9133f4 0xf9442718536b8f264b460008884b0c6fa391ec1c7d3cc59ea75ace0558a28f0559cc76c46bcc483744138df8210887b 0xd4c08db2ced70ea8d90c11ef24f0218c38677445f6da34897b4cfb322596dcfb4041956957e4fa057fc34b68022a242;
  cs false 0x7c285254ff9825b1b9774a192f763e3a7bf4d4c6ada022675acec1c778ef67facaf5d0de54419283291fc69a1fec47 0x12a01a42ee050ceb9ac5ed848f749d8a02b719d3d4ad1258a77bfb41577266287ad87abbcb3fc629b25b95a120b01904 0x5801270b532a3578c54491a83677550c671a79e70e761db6c9d8e96278350181db7a14c63c2a54610530dd26eaabd2 0x47bd206ff4099769613e668ecd59c3405a2d1b19e40c664d4e3807d483373ba595c36352e6edd8ec457e0f0c7b9600 0x4c04f6f020b71b599458d3dcdbe60dba61c2707ceb99edecc7fda28ec323da1ed2573c2fa0d60eaf6170f406d0143f4 0x12296f96c31ff1777ba2af966b729b0d5d2e4fced4c983ae4ecc4cdf932e030436a5292c1ec130801e6d8cd4b6184312;
  cs false 0x136fb0061e0dc1505b76cfb63c9bce289792e748b3b1118ba028bde8c67b4a5ea0da6fa2552c6b1fbaa286cc4c94ebf4 0x1216681ac36e3c1bf5f12dd8c0295a1966bd7db00dbcebebdb230e8891fec21ceda6c99b91ad6e096ecc0ebeec76495c 0x15ef8bca966951bec90c2ab26061061e4d7285ca750da9c86d1cace02cd4f33989e0d50f814dedaf93632be1488a0ea9 0x108b547af61c362a2a6b4de0a4bdf7b79812e26ebeda89f6703e32fe21d657d413144e6124360d809bea15a659a541dc 0xee9f059e909dc17b6a3c38677eb5de06776792a0779954ef57f1bb1a3cecbebb3a45a166f2617db7177b1c429716fb2 0x74147555d967528dbc5b64b76279cfefcb311e7b8d385490905ad2760af788d648f126f0a3cdf3a5b29095338c83413;
  cs false 0x96bd88cdb203c8763504359b79ae2613611f8783825a07dc237ed8d47892a0ddf3448bfc3aecd8977ae0895d7ca8365 0x4bc5ca299e52f13f51c6bb6374875464d6c22bf1603d3ebf4b275baa57763aaa3bc8ed64b480c7cd06eff34b7a35b8b 0x734e2ac983c4c076ca46b7efbb0658926a3a961a137cfe8c5ee303ab8440a36eae52972b7e212e07607f031f3d133ea 0x1872a24ded23e9fbdcce108db0f4a67b3fd96d426d922db65db7a0dd2b16f9e0d374e4408972c4e08fbf26c5d0d1a581 0x16d92c419fafb8b61e3e8adec3f56097a5b8425eb4331808ca30154a991dd1a42f8172f8bdaaca5ccc47d05551db212b 0xbfbe685ef67495a47e9ad571242600e926c18d72ed26f728ae92d2f112d7bdf73c8261fb183b5fb8711197f5080dfe7;
  cs false 0x1b1734976bc69ad7dc9b5abdb18014a28908b71952cb6608dccf4879783c40554fec1d3ebe2f46effe16247811dfdda 0xac17b9958b1b47b58cf11be94fd05881fcbda3a4bf36ddb0d3a1c668ee6861861cb30650ae107f8d1bdae02f742ba46 0xad67ef92293d20fca016f5be0c9203b3141550b8bbbb46baa16e2e22e54d06346d7490316de3ac4849d1944b8b3418c 0x107a4cf30ad7e9bcbfe511da1cfe010c13de9302d9a9ea2f869846aa0db3da1a110815608ec426533e40a73e30f33e20 0xa5efce22305e5553db116f7ae6d4a550932b873115221f181cb133035f75cca3184038ecbb6a93dbe6e1fa8035cc3e6 0x225ed5c72bb1b3ecc54c8e0022e43fd517cfd094373c14389b800b25b742982e53ec772a894520868d023beae19f4b9;
  cs false 0x18fee4a27f55dcc529fd338df544549e31fd7525e6218f5a03739354c49fe819d31d8173632348861447c0aaa61ad5c7 0x127b228301e761d3b49830fa06fe84248dcf044f177f349fc695ffdb7ad19564a51ea02fcf704ebbfb36903873d5c93a 0x12345d1c2b7453310460ab195a85701a50992c631b7857ca27fef7e3aea851039202c295fa822c5dc6c377921b1994b8 0x5f8151ef523f94e8453b9e80ca96ee261dea4391736299046dc878bba36e4efc4db9a115aec27b8863852634d933c5a 0x1290bc9204bef081875d43c757b3ebc9d2ccd1a60f3e6c6bfcdd6a82ab66a1730cd8832167dee7a93e917ca6aebaa285 0x9f789ce11a8ae35cced3d2e745fd28959a9fc714d9ca4b710f98ba77867f89ff1599e668623a5cf9097001b22bc58bb;
  cs false 0xa668a9ef5022dda19bfe879f8c9646654c768e69abb078f5b594ae273f4431ee7ae1ec0b82cde7d5a3b947c072fc94a 0xec38cf39484959d51ddc8abefaf22ef2fd13e268400040061c748084343d998fceafcdcb30e770e4a100214d9a03b49 0x10814b259f32485e7f3407c2e087a032a0968f2401ca05cd86adbbdcfdf0c174ca64d69fba71f45cd820c212392e4276 0x143d1f56247ec0f4afd17ea7fe87a6c22c9337c306c97b1c74140003335d58d2acbf30eb447755878731ccb4025954f9 0xcdad142d347c6054b53759fb859c0de9e313402f6dc77d501fa0eade1f948e7678c2802a6f3f1d2dccb6e230a051b98 0x136eccf4e90aa11504d6e35eebb1b6179167acd0ebc9936539769632cfb130e0c33cb987ee037236d44b3be61386fdc7;
  cs false 0xd46256f10f607ad4d73e07ae2fe1006a0abe68b6279e70db63e28eaf8a3699b17a43ba5820b0a0096e0b715fc942618 0x165b5aab6aaf69c46b2df497841338312777ac02ee402936084cce554234cb2d67c9bd676a0bdf4fe09fcd4e89da3c7b 0x2f5f33973a2f80c016f1b4fc03fcedbba1c3cd4ec9cadc7edd67458c374043b6a9c86bfc05b4b07072b6957ad489170 0x18ad8264944a10d391ce0153922a535b0538e1a5003ee9855598042e0aa079ac0eeef599d90c32f97bfc98ddc5338861 0x2255011474df0c55d17f6e8ba6aa7e012281bf6dd92efb3efa6adc0730b5db8d35c7e05e989cc74d6e0bf9d7a7b313 0xf8f419d0a9fece624d4910bb78aadba52d2b2d2f4376c725baf3b41eb082bbdbc2bea743d90f00731389547eb72bb56;
  cs false 0x15782b4a28e44dca4551a2f866fe47f56a81d880a2382d3c1605c38e7ee3f0b9dd2362201f34607411de06a0eef070bc 0x4a678c8ef296aa9c6fa1635706772f51cf03d8413115d0ccabcae1c663af1dcf76b818714571b272e92dc0849e1b704 0x1985d7e9606d18a23b52cbc69579ec712d7c917ce8093e775d3950567eb66e9a56f3a4ab550860b3bc1263cec439f3ef 0x125857672e01aadbccae38286cb792fa5e83e4d7e8c2af3f22bcea2879a218e6cf282b04c1bdd0c9a16c63050cd46296 0x168ecebe80bd6bfa162bf9c3dc69523bfb08f6ea6fb9c06833577978652bc0d06cbd86c0cf61d07943c8243ecd76a12e 0x7879f0d0a4a4ec3311444d30294386308c47f9f98dcc5dd1710123e1175606e97b45e805891253d802d306e65ef6a70;
  cs false 0x1ae286267e1fc14087ec9c21b729ec5235a9eb83a9ea8a99939d55d1ff7fa0b456d2d093264a0e631bd07f67ddaea84 0x186b2835bacae5db16de21342ba57c63ef6039fbf90b437c50e55678cdc7cfb6a79317c7ab5b0b7992db5a9d22f152bb 0xb5090230360a531571ae91fe6a93a413f1107841e960af70b8e8b0192ccf71957b46d1ea7579679f5e9da446c9e3202 0x1689117e8c4a9e5b0c0a4bdc16a540622a244d6bfb5a5e9994126a63e5984b02dbd6e5982a6ed64c189c57ccb1ba816e 0xf6e36565a986d36714bfdf1a3e1e5d285619462fae7caa6bb76a8b12db593d25850537ebf16e39b1de69b9ea9c16c1c 0x502de40e881c1083f59735330a629b360fe8c0b7364587b7c30cca4cb6dbc8aadba53c1c733dac0ea5a880b0096be1e;
  cs false 0x893a4edf50a07785e743701c68b9925e341aa5757e350a2a5b4b15d72886bb8fb65aebcf598db85e4d462ebfc10e200 0x15c0f2cdaab258358c7bb666318780f16c9dc7a91847b094c95e46264a4acbdd9ee61337ad770f3850f45a2bb309bed 0x3e8aa20b0b2365c96550a3651d294057181f1c7eaa174ca9006b42053083db50e24584595ddaf7c61caeb64c5bfc49b 0x76aaf1fa860c67ec5ee4c1fa4d5aa99bfe56d91a42a55e20a424266ec6b0cd77946056d61a5e82501e8de2081cc4ff3 0x14b0947566b568edcee3a4bf0b0264a5f5a392dac0f992f9c3ad722c462a783177f3bffff5b11583ef82086c26248eab 0x25630ddb12e6e6fb262c1eceb189762846eb622698edca59e3a0faa3c105ea3624486a2f96b3ce237101ff740c3b972;
  cs true 0x3942b9f55deb1fd00586092d5cb50e68e5029070367b0ac69d2b05e32b65120ac389ae6f29dcb701d675632053c48dd 0x41aa5551ef303cd7fe9194c2d904d868ddf2c820a6bb678c492627cf95aa9208c46e05759c029d5cdec85c2a8ec3a2a 0x10ec8fa9c8c792df706cf63e54ac33f457fb0c85a1cbeb1fb6bb9e0ebace819450bbea47e57aed9406ffd4983b8f97be 0x164ba97941d37c3374057d8b51b7ddb3cdb7fb6781276fe4f9f5db335f16dbc6f9a5a5d5a8968faf77d142e5ac0a7e17 0x170de30b69f8ab880117c7fd3ff46f299a1ed784e14783513fc18a4a5aef75fd734ee55be6a83ce44c19918ebc9e2afe 0xb377382529978310d3449eabe557435695e918c63b6e57b1530f1f5996cb91b27253a46dc91925987cb186ee4254382;
  cs false 0x85126278adab341dcdd5ef63fdfee1ed85b9b191047100479588893d21fa24636a9c9ff1995757e8b2f7cd9f60c4d1a 0x189a27618b19dfeca5307c26578ea002b4ba155afa4d0e72620fa62faf5ccbc91f18b5b91bab1646417572fa5227929e 0x376fcf4b4b0e331c33dcab749cb207022a20154f2897ad4919d55bcc0bdd8ce8d863b464819b946adca1851f6bb0cd7 0x15066a6fa3e84015062cf668376fbf75c9ea4333f721dfdbdc775adcdb07eb4d9d1800e2c1165d5cf961c23efd4e1af4 0x14e0c698ef692977ca2f894daef4dbc715c272f9e68d10e58c3bd74ecd3f820db2cb2f3ced1b228aca46210338a9566c 0x191b104625f806ead50b32a81b35780b4115dbf2a55678c55a559f70d7a7b3dfcefea289f05191527f901048201f6eb8;
  cs true 0x16bc9d0b41be4edf067c255ebfae1ca0f73c7ebe4975e22bc6a87bc6a9c55a1b3cbb290d9ab2a2c24cb83ddda0137a65 0xa2f0c866992825d9489e42273430c2256466e830b8662f68f6289f83903ba38bfc2c7baec832d89b18e48299d0f6764 0x6f5af2a0933224b1ad0d36836c6d5123343ba60b152e7aaa40d5d595ecca9869e0a007b374a7c1959c9f2513937037f 0x51232404c1e1c4a794b6fd717da7d03a6e5c344d2d6388b3f880c0b87477ee58cf50a2e8d2c48908e925b40e1ada1c7 0x32158ab212505d8de1358142565ced7c3c37c5a46f09d03ca84e246c2eaf22b93511407008f8bfae8f4ec50cd08f764 0x13ae39c60dc8e9f6bf33d49967be7f03d43ae32732687804089fbd1f25d182f659f0199245ce77589187dc9e42ffa3a6;
  cs false 0xadc0259982c45664fd1b8a87ed1f2f9dc7a9fef5212ccf8f31985809bfd61bd33e1fbd763862af9dd9aa92a8ce19ac4 0x129fd3fd921a7296b60550997dbe3771305af29a443721e8cd850bfee8bd4db61dbd5d760425339b35f6b7d3b1eee1c5 0xe6eb09ccc37c184d66a43de2d2e9845ce8f2870b138280763edbd2e698bf59f7cfe3a960d76728379b35d92bf2656d3 0x188737469af1f59e0c5bf781fffac6a21dd01884dce8b10de63d13638e1a21d69a4ebb1534d6f0f2b11a77a2b8e3bd32 0x19fff4380814b7955606a154c8e2ba2c7333c3cef376e08e7441cc58efeab7914127a433eee8a542cd443427713022f3 0x10960b0b607ab9b15a47657e52e3f061b372cc5801c457ee50d4d9a9754519a834da3319750d12e5c2c7f709d468c062;
  cs true 0x2b7b55d2bed29b9323a9c3f32bfb125f93d5bc0a3fad9b5e99c555075d01657cae358d5fb42d0485350ce37130775a1 0xb27455317b2f9df1ece77556daaabafa587c823c876e6eb702d963edfe4595f1e2c6325f75e55e8284942c6c4634ebb 0x119845c21025af717c5e02f835354f554e3b25a0d448a45f2cb7626b5789c6f1a9ce6a7312ec40f17623667f84be2174 0x1154cd0f73edfc2c4e629c1c446c64ff4e84915305e0447d29882f3b25b8485ed9c628095c8265f55700234f6891e760 0x10b447dc369210165821b6a3e890886e5d55cd900786997bab51ae65c162fa195bd1e2e489ecc04ae249fd2b1345f5eb 0x9d30dca418fd3355f244b8b40a10389116ca72ddbc843b2f2d1b54367cf189c46d47eff402b7a6e6367b9d9555d790b;
  cs false 0x9b810f6d150d0668be95046b29cd5e89099a702f31f4db0350c3584d50bb9fdc88e19a4e8b476155df6919c96ad1e28 0x17437547316379d03466773416537b461414b49f9c3daa6fe9d0777a1b104610638eb2f0d77ee80e92d035751c7137c9 0xe75152f16c7a902f5b2915695557c036392f64d87ff36e95c8b9622875f461115b55d68f1be8969e13befada61cc377 0x108e2f226aca143be5ff44e8fbc26e377bf9a66767f5ea2731a656fdbd8264f1547a1ae94ce5ad817038245866cf3043 0x14bd2812fade23c7f8612857f4a4e6d88c1ad7625b0f9444b75d2885ca1ca7c9dbbcd1c35a03acd4e57c041a94bba1e9 0x51bf2a13c7e458c5368a9191a7ca8d851056b7667ce12e958fc09368d64618b4738e642f33bbe789f0ea91b6602cc99;
  cs true 0x6bbf952882137cffc3bb67b1e5b19726eed1609cfb4e04967f7f14e9c926e1436b3e68166bf5bc7768d5fbb8e2ab53f 0x161f0c96e11022e28af2c5e48e32323ca91292fabe45f5de2d61d776ed51fa42941c39b46acdcbfb51e1faf176b91cda 0x19e12a2e91e85f0d6090234f0612409c17f69fd390d78fd4ef60c684dec5f252d39a46ce389b0d0e86b18f336bd0df6b 0x1631a7d447a4e5196f2989552ea98ca32e9cd01b402852b4f54f350a1ac50db4832bad2a810250098ad9e6b53a94021c 0x140fad5a185f6f1c8bfe752555ef97791ce89d7caeb555266642cc082a207d0829ba74f3ccce4043444a2d42a1fe9695 0xce2a33515da06713b3f4b88688e7a1fe70b52287a5ba38bd2b54dc4ee81dae7cd8a198e434a29a5f5684ec2227a3cf1;
  cs false 0xc7cf98475e66494a8ff2e5dca3e618d0bf5c58d2158b9be0087b786a2d871854271b5700ac91a47b4aebfbb364257a6 0x8b7638168ee91b1bbd97a4f236050fba2bd53d7ccc8197eb3d7f4a7e74ea2da2c6dba334bab1c9d208369bffec7a8a7 0xf15138d9a0de60d4e29f38baf38a00a4c7a31546940944a3e6d2c48761bededdca078ab1cb43cf2786aea2e3ff3d879 0x61af78a77c962986f989276b50951cf4d74cf2944e0959670b5d10a287eaa00d51ac3a8a8d76dbe72ff62835bfd923b 0x23ba4e25cbe0a9912951b32fddd7f376286993f07725ded9c3e0b0dedd7bc22d32d94d7a13d4bd12f83ae88656fd9c0 0x6b29d94d3e48aed665f07865afd3cac83356e1fa2e0a162a03d54f879557c40bdb4743c93f2bfd1635e1763552bc86e;
  cs true 0x5275be9f40f87c3aef81fe51ab8df62d8d568efbb8cf4d37f42b4a425cb4ca0be4a7ec179192791c30c0371a8ff9d98 0xa8f85229b31746562700ac7628fd6efacd73ad8afed7129af1b8734f44e60e8a14170c12de5008599d2d9c0acd3d83a 0x55dbd885764f5f425a9c1cef6ff7e6151a90a72d2ad27ba9bbc154ddd705d251e19ad0c5d462c5aa74a6f9330a5a18a 0x371eec1b87b8aa76e6a3b8a380fedcbef4395baf3bbe7b99b1bf23628484d2c86a4c75469e7884b3fc0dbb380c5274b 0x14c5793f09fd3fc1d390c55528865b7bf3262102bfd4965a68c00cab29306c22d04e66b12f9f5cf71e0cdbf873bd4953 0x12348d24b1755890c7a431e6efddc35a58f30e7a38fdbd5a48c95605a20871e2176e66b67931843adf4eccc4103d9f5;
  cs false 0x108706b7b3e5cb074932c0e6f10e6612017649115666c6d60f5feeafee5606418eb1eaf99608a91700b9339816c04500 0x63850ebce51f4b9fff52e505bbe454045fab574ce35900f0c34d75400a1ab6ea01c4f66f9bd847cc1467b613f2fccb 0x168868c3658395276a8b52e694bcebd41b083a348029ffb80917f3d0d17e0c13ff6a0ae8ab7a350b4d31928ad46228a0 0x16e29578f6c408665092718bd666ca088c34ebd4e3132c16eddcb73a3054c0f203f953bc37b17bac391a35bf7ce55214 0x17c11e49455227df17296dd64f3dd25bfa93c5fb5fb41283b2209c4458a15f8dd84a109ae72173c6dd588bf9ad89907e 0x1302da07d5c8b6371ec3e04c653f4e521186dd2d2e5e964017678b58a26a72638b703fa9d1ded536aee4c1c9224fab5a;
  cs true 0x1747858e56493db6c08d69883d6ebcff85bbd90426be7165a31e957da162ee57c0fb3a3eeb8839e0375a65b2a300b1c5 0xe13006272474beecb894bb5fdfeb387dc9c4b63b11023115d17b080c42bbe7766a9b0400210fc62c516ab9c66acaa9e 0x4d2af092547f664944d139061d4edbea7722b16652b538924a32ae974de805e5f34a316bbf4097d12bc946f40cb7ae0 0x19d7872c29bf2da0ec0f43c55838de5964a104b857c564a13993d7145d3ba2ede9c801d11c1c2afadb3253837fc5df92 0x12551c96da05bd679e64840ea03dfec5908ef91510f6933f6784851f617166adc8f2c1836a1229ec340bf23038732448 0x2486b902fdc4ab38ef96bae260a463be0d44ff30779529e8e330a26727889e498bfd9b22efb274a3d67c053c47cde0a;
  cs false 0x128662e36d4abcf19edbd308f7a08ef9d5fe27c0c78a94abfc79acf6db41cd57f82c08fc85a47b7f71bb3f4406c6eab3 0x8e4acc28c4c7b7f626b88fed39cceea094d6fb8343f544825570c6420ffef71b8a88e676486712568bf0d27226c076e 0x184cbea5f4186ef57bd397d5be1fb64051d2ad0ac1c2265555c249a90e493d52af722872eae1900dda4918e735989712 0x113bec099e7b0dcb42076443599b46d46248ab5fe7b25ba79949da7ed30eb75029408ded4fd154bf898da607b1f31855 0xb33221ad478d30876974af88f5e2bebfe06baf667357aa50a6f34c2c9e94980f0889a61c724258e86979dd2287dc2f 0x1560644c56d7158d4ca07498f786a824abc3de2b9a31f42ac91bf96e19afeb34720784a3ec36fb243c6f682ecbccb9d5;
  cs true 0x804265746fd6868bad696cb4d78ffe69103a4c3d1b115dcbafd81682ca259fee0af7cf93401ea3a3735b6e524dc20db 0x6bd1e970cdb32e5ef28a299d48c2d3f39b7942d1264ec6ab7eb41b0e84d74a2bdf7573cefaba249e5ae7d284651f8e4 0xafda5423bcc0a7b361a33ea18519a616dafed6d7d9cd884877ceea8e6879c3999fffef65e74b03f55d52132c18c05c0 0x1d3dd7e7b57296d513b6173363983e7083b1283c4c263cf124e7a4eeaa437542ae0054ce9651230bc296ec0d46df500 0x15235ea633e3ed2cab2a714cf8aa8aebdd5efbbf64fdc975103f197488455052ef1b8a992e59ff530e62164e24648605 0x163827e0d7bbe55b97bfc405b042eef1675d6b4ed906f244d66a002d21e70147d2adde5ca06e2839e49be77e54867b76;
  cs false 0x132ded46f44d8882f14c94d3f1ed567e86e658d564b9f07d2e77e4e8b90331009c56083a290fca18616fe5c09cb7e3d9 0xc795aac290ef6a63ba01b950da9dd5b3732a0e4ed3be3ab69e00896708dfde6c91f657313fd192b688082c4ef016b59 0x12581a389bf704480bf856e1428ab5dddaf84f41bf4ce163d1182516bdc92f705e53a03917aa074fa0269a36c2c0b3a0 0xbe9d21b39c15eccc055958a42a54642c4bf83efad3c6e6576cbc9ebb1d8a0da334df31e4b1b2d09c047334397a3ae3c 0x1766d57160a9ef346380d5b22546efc71ace3e1903638fc26f044e91aa338f935e9ccebcfc932e83617df7a91e415ba 0x1ed7648d008a6bc43f9c3f68de7af52a7d5db2440178b4d688e117cd8e954256dfa80fcfd5c1df501d5cfafa6c38440;
  cs true 0xf0f38b3b57ed44aaaabbdc3aa202660004c5f6ec709bd39d9ad026043b9e65ed6769231861c4befb28df8a8090353ac 0xb8ff3d351914dbd7ee1fd8865cc51439c039016f61aa8e1e3ba9c8661ccaaa0e6b0ec34ea685bcd8abe8d4bbd64c0af 0x33e85d1c3819ab30eec1fa64ea001e079a6021196fba3d10e98311e7a9d501fcb1415cb2e736435b85a1df34fd955fc 0x25674637f21b234b0872d14f80203db419c69184ce14887791eadda733ac97c123ccde4c9d5425abaf4426bb5824451 0x174ed56eabb5dcd006059027cabf8c3879f059d168b3ab863167dc70cf8b106ba889510f279d53057b5b940f2e18a97a 0x50e8a76b1988359137fe490c140205c2d10ab660807d96a3b7bd0eba15bed28b8399fa0ee17baaf4be719b3387ae181;
  cs false 0x18caa42a9dd6179dec7de9e583af5e6f0bd9b7be176fddce44900e622a1789108e68408a7ec72260452dabbb50aef841 0x278c0cb3c2500f0de4d853e2af497a4f01762531c01692256f957b5ca98eca762bf6f961c94dccb01a0028e27c0765a 0x16c786da8ed7a86972676f55a76ba253735cac866d15e69c22cd4e3e8006cee790ab0d123239ccb553246cdd6889042 0x16e3f166fbe3f5e8e8238f3b4ad05610edc32398112512b7ebf85020e357108018c3f3a8f2b20c7030104486549effbf 0xe9821095bc68c40030297ff04397dd667e151ab9c8f7fbe6a225a86d59a9b75ed3fbe5913dd21007927a9c62a838986 0x1f6ca09e78cdebf488c4fcdb82dc62c3a9e69163c486c085522954e4e7436e6e040389f516107809ab6bf5ea3bf9bc4;
  cs true 0x12ca0afc79005e8eb2ed1e06e17e882680164039a11fae772b31429861ed6508e9972aa6c00ae57da1a352e9f4da8efb 0xd47d3d7155419dac9988c7a049b6def466cf35a5a14fa459194e835a39194abc451a4b5dba01bcfc605fe38b5eb65db 0x1826b1d187514796172f61f73ce04e36455c671214b1156fe8e959881be8c1757b783debbcc4c576be0be9e45882e102 0xa45594838129d12d1af5c80247e45e5fd35981bb70f06f3915270a10b30dc8712f88bc6d1a380202f3e7439d0d3ad21 0x7a9d98e4badf307810fa3830c42dee703c097f1b7cc275def4d1b6ac325b92264d1083b7e88c4685c4d5e0d8a904440 0x13e749f50aac67d726d5f68e47b285817ab28650800808521e8ade00a6a45051a52c132166e4271dff9340c37b5246b2;
  cs false 0x1410287bc07ecbcf48b3c876626794a8574eaca6b2a161162d129e36891e63a417e9567745ff4d073a7ce36eb88f7d57 0x4687f51aae12a9606e2dea5566ec3eda015d37eb9dace3ed28a63a6065973588a251c55c044054518651156cffabc5a 0x71762525e71f500024134ee3d17d02079b8cf8cfa75c92a0955519e0fdee85e604b3c07412c242bea4f100df3f362c 0x13f8241a46bb88096c222c48d9caa4a81db42468a1a764046a8bbe22b0f459a13a5c98f11a5eaa3d59509b1f3ed2675f 0x134c83561411f777b3cfd928c0090115227e85d19910efc42d0e7e23d1e87d8166ac0cdcc0d578251cc00ffd76201f9d 0x8fa1ff33a7b9aef0cb479ed54ef4d16c3d9ad74646f1e4b857ece98965a480674190a390d2022fde832d9dd577226a3;
  cs true 0xaa3cbe233a9a1cee5ffa89c8daa4707286c26b385f21522fb73893de9a8161f50777dbd7e4c50aeb70300dcbb6ac93f 0x372e6f013f4904bfb7c74b03bbac262cd830de9e1f49508f6890b539a0da5b561fb7c25afdeb18615f263b7ec0dead3 0x1466a5767e438b760899145f7f706e3821779825b7a4e2b6c02051f3b546194bd3151abf7017528d605e7333ba17efd3 0x3ad61edb5f290d8f1d93935d6405f0ca6ecb2bb538bf79ae2757efde249740b794fee3a395344434794301507bfbfe0 0x12de4528a720cf606083eb265feb759bf4a293a7c9235b76410aa3ded2013f603c8fa1652017e56f8b5f3235ae6f270 0x54a5079dba6d59af96e9b8523f4fd6c0c6123bfa57149c47b9edb0af40fb1c9d10593c6d19386ae2c8d587fcdec80b1;
  cs false 0x9fa15338ed897ac88edff58bb5f701973059d8c8a97c5e9b5ff65ce76855c6b0e640816cdfbe0f3c88502f2308df98e 0xb417652acb00896de7f4b41927f566f7348ef6499185ae88b0fa4d3494789c1ff0088be6df2bcaf720c59d2c048e4e2 0x10d5e899b369d479fca4cc25fb04c67313913f4b5e8710b20275cb43081cdd8d3b85a445759856779a42f7766df81961 0x153fe187325b78e4f7bf7dc2e0ddb7b397cd3c9d6566cce810df3df967630e8b7a5d20a854f15bbcd8db78f1e68bf503 0x47792f63314d3a379fb462d59cde248f31e53ac0a8b87db6e2f4e50129e540ef563c4876001d2128ef32226b8ee22d4 0x14521302b7443865ed712dbe844d9a8d5f8a43837aeccce64fa10c88d404cc89e3fccc6b5e00a7619c280a87a3a27516;
  cs true 0x11efc0d034e25ba6f7fd84709c984db17cc2ea916425f79edf753b67d3065dd9d9a438ec75962ccd31ebadddb2a3e889 0x15f88703333ea922bc35ab3e0d9bb72eda0db84db5ed29bb3a1f20cce282950eaccd57a323ca79ee88374101c4d8c60b 0xb6cd190882d892243a9a91fb3d4ae318a73cf032328e485496fd89e0f7177bb5daf40e439997c3e6e294c7c2dd804dc 0x1190950627ae6c81fc15274a19d58c7a4779294ad357aa73cb4ba2138dcd92e41a3bb433dfc2f63f1b6da1a5dce3aec3 0xf3a8dc48a1f254a6229f1d23bacc321daa42a2e1f4e31881b0aa8c8ae82f79b91ada593f9cf90c4219994f4f30dc54c 0x4cf0ab9a90db502a60ecd0d3e9a43e8eed90bb4c3fb1f7b261396864800ffd7924450ffbe1f2b9c11e3d107eff1a09b;
  cs false 0xe8b526157896f2df1526f90b7cbdabcfa33cc10c9eab578ffb4ed7bb67085de8293d820334dd00cba6921db5f077431 0x662ef290c62eb7016eaceaa636d06b7f1f3dac864513655fe54183284c5df28bc3104c3ea9c4e0537d350f572dc09f7 0x18725e3f10d1b32d75f2e76c58534c3855d8c6b5c13e9ffafbe572e44ce311188a55677985a4d010b23507bf7f0892c3 0x10665683b4d3402e34de04e2d7a2942f1fa13cfbf98a9dac72eb1c936b45943943f6ad61ce9e1e85840f54a2a144baa1 0x788bd04372a8b213105f22bd46699b4959f23252cf4c2a70d87220c79bc1454bddb9600473116e60a14166836385b85 0x126d7ab6501e2245e39192ce479e816dbf87983b58e6bd8cdc0d389885e02b2271a44d09f7f16934586ed04b215cdbe4;
  cs true 0x75d2a2b17b96f8e490a6d75301aac9fea6f0b224fa1f3f9ad1a07b6c8092359f662a8bcd94acf141c8d36c3f02c790f 0x608813b6ac70579a1e1fabd2e1adf5917bb7666b194402f34368f53db9f1c1197e459df1234bd9ad6e560f2a887450d 0xb420b77790928cd051cd716faffa3bc1241fac145c28962bc703f9430248de1c8de2636d4bb1a3917ad9cc40d6ac8ef 0x12f89040cbd1ddce8a4bd0c8b018d654ebc691561431d884f765d4dab6420d6b5395c94249be11e25111af2780767508 0xb1490d228a5f17fb02aca8b62ba88b31b5496fdfd1f9f0a89cd17d02def42baa0de19fd1c109a2c3ff193f5387e1f1a 0x5f71c55bfb65e0a346dbf34f12054969984b5fc45b84f195c809a87692c7bde6be4bc10df2d1118b4349dac929423a6;
  cs false 0x1333ac341333597a691e3a4e4f25e3c03f0fb9ed0785776169634f96b0ab81b14a9852aa6f65ddaa81f312930fd7545b 0x2e3cad4101e824276d9495b3c3cffac5a6c1858c8f87a9c655e6a6db5baafea6f356f9f6f637188e86c7d660295afcc 0xdc024e37f9d2f79f1c549aa09d88aeb96a89d1d950af5e660eb7a6aac9606d2b02c089d4d5880ee163e4de1be22b534 0xa86b5ac88a4eb7d34a598bbb7e01a3e4dd459fab8172e5ff24ece2fe946ff3e28fe37063c21d02353d9a2004cc72b09 0x61ea695d79fe41ff074690d3240a72feb79e28e8040f09437562e9f75de779272bed876283a2ee888e69bcbd03991ba 0x8fd4beda890eb8c408885cf32b0ada9f8fa90a263eabdd41916132694ec7f3acb6e263aaa8653c2af3488296ef5898b;
  cs true 0x1595f82d3396d76fd19a2b61e5d4b7c097aa8d7178510bbb2b42860f4801f5d5ee518513db187f00ef22eb5a687ae592 0x13843c82e3f624102294c46dfff28734a7f653d88285cc6f11dca389a217e351bbca2409a9853bfd183bbd9e665405ad 0x1785fd95e78c16cf511317923eddaeb57573fb3ae59a17a78883dae452aa61d96d54ee621a99b725f6bf4f3d4f5ec9ea 0xccd6eb3b9589fdd3f67d94f16545476f729caf48af232b6f5458564b0bfa61d23b4bd01c3a51b545f042ae82079bb1 0x18605dca3a7ef23939df03d3d24eb1f2d14f9ccd213e66f305761c9913d152fbe4bafec9e4f3587b7f7f6dc40a701097 0x10cdf15c33008cf1f338e3b0ff1e1ec05ad0c4b398aeb856c921c1a1f48601f24cadfefbbc3823f8d41e594e0168166b;
  cs false 0xa94ca241d1e9337a5e1b45a49342279e9f7b720ac58c65fe65057ec3a20d2807356732ede244fae3b9f9660e482f3a3 0xffea16574f33a080a1a9e239b2b99754f9f4229ae9dc0f763cefa64d3c84e39d070a76bf6ef78a3c3d69dbc69a41d03 0xbc2c869fbc0569a9b0335b14d9d3a60866da04839b0318ba1d580d8d421f842f232cd27aec1794bdc123ac92eb76e91 0x107001dfaf2cc4a99581db2e1560dfbefcf4571bef83a006afcbec07fd73ad3e0f8855f00a87598f9221fa626aae7900 0x587a3fc6ad8c43922544d3bd8aeed61b3d3af511f32add67b12c976b26071752073130b28ef6582c2503a4be906c126 0x410f5ed5b7099ad2bc96a5486e09e6f14035940ecbdc66e6739835da6a21c1411a2efb14220ff45142bc9c73cba34f5;
  cs true 0x1150adaf2bd669b38a4127647f441d32c78555d12cfc8f3ad79a4a8bc13c0f01dbe160b9675c0038c2eb07791fb1e5f4 0x42a03333f52173987244f65056b5f7d7ecbb2424ab768d4f30309d7224aec44f877278c8f0202214bccf8a47056c726 0xa1a1c385a15891cc66f88bd9de0e04883ebd16ef6d4f59ac9540a71d176850a403f8e5eb72b8b898bf64a74f2b1a599 0x114e2422087abc8ee5debf16bd1d7c03369150ec1d1f47ec72a5d690d3dd4f41154a22ccb20ca9398d2c0aa73d9bdf63 0x12cd79b5c7ae93281bc0d5940c213c005cbfa721efc696d68f758ec6fa8ea9a5e9a6437a1c204e2a431bfe697835507c 0x84a6c4e9d5d74d9b21107d279c08d2e7ab3b06f14be429f3099abcce11483295ae0891133a02791aefee0de566ea765;
  cs false 0x162be159d3a781f067d441ebd6f25f40bf0b87b2bf67b07f8d776843d79c6e22162d8e969fc8d7c1c082db6566eeb19c 0x9587595cfe5aa6bef7697b8badea34f2b459eb82db220cab2b1330460c51e6088777296bf3595f27111fffca835d257 0xe0c7f5715a4f1cf0cfb68b0195730ee8f767483bde1265f5671f666ac59836559289028d237026eb9817ece316bc209 0x74328b40a5717ae66744aee938af1f166de95f4cded280179ee3ebfc24a31004eaeaa8b71e3506ccd6ae81b050f1da4 0xdbb402efacd24bd7822bd1e7dfa8b8d3cafc3428f27d87d68b068adeba3f9280bb899bb7c1c1c0058b47de3d22d296a 0x9eddc43b2176c2586dec39076034be190d98520e784f213e81f7176f9d7a249113491e7cd82acc3765d83888b5b5636;
  cs true 0x19fb3760f469ec214b9b18c3e3547036bb272d922bdf68583daea0b073e0199c3e25b9525b57b8d9c0118432962a14ce 0xefca28a2a64eddcbbf7a8884c0a97b01c7864d0f9e8d8136a0e35a70c6bb9cca2dfd6ab159697c3ae50ac229c92d786 0x193e99a5068b75824cefcbacecec208df17a7611c301bb7ca672f2decb51343e066c9cb64c8e87e961a95d3cb29af63b 0x19dda5f7c4d3e6674e54845362ff3f0d1060df5ce7c0b05715976f98d8c8544f6b298c34ecf6f143ca304dbac13727fd 0x649afd30eff7bc2880877391cfd79f36b0f5ffdbcaa1aad2059fa58e185f60a596bbe8bf182abe6a3334e70f95b7154 0x2aea53a4bf7f1375b71f5dbaab726e7d74b2d514e68f7c05cbea89df935fc31918361de55ae09b46822ea773b7d682e;
  cs false 0x1382f50249e2cbfa8b3d9fab61608b709e2a52548180aa1c297d0fb303c86fef4db1acd70013b179889d95ada24de8de 0x41f795f61bd0774cac5c4754a839ffdf3687474f588c173aef062a2d0560be577bbf317d97f51c7741b738f7446483f 0xc64b153c3bb8065ba647654d891c99e5b71be01352a13dcc7b7e5123971feedffce2121f91e79c4ea59c8ab726452e0 0x170159474cd6feb1dad50ceedb245dc8134735080d4e74910b9d5bca162679f6536fca2b71aff1b2a893dd08c924635c 0xfa265ad8dca413474acc223a3fb232bb7153c02b65d9ffc98654fb400de7673adba8f2d5773bc1eb096567f2bd4ffd5 0x1973a737b707924da261c58ccb90f84282260a4bff081272234e05949032b8a0cf4fccba77c25781e61838437df02fd2;
  cs true 0x17ac4bd78acc7b5f85f437eb312f1e81dbd25af115492c4bb7571e0481ae9d903489d03cb892459ae833c86d8a37cc59 0x1546da2244c39001d980e6ffad42375ff98b5e29b79359f3be09fdec4ae5e6b4038df95c4cdc9ddd1b276e8d437a0346 0x13e165310ec0c7c4640d04527e08dc0e18408a204b92e7ea6f724b85975cf86834be795cb22f5886c8032c8136146764 0xd4c6889c49dd40c7430199425befc191cb2474af8b548e781f2a2e44293a4aa0789b43ea57e4b884d4bf3ac06582bcf 0x5b298647b670c0cc437aec5e849c0e648ac04566f08d27026d12d402d62db9e7c32886dd08037f7e2c63904b2e7661 0x7d172bd81788a01c7802992997bea74880dda9329104ce38cbfd56d548ccbe3cda0556b11e8abd284c5e6ae549643a9].
Definition wTabD : list cstep := [
  cs false 0x16cdd34de32223087f94890052b0a51aaa9a7b6afe9cb93c66c7d88e738f671bf6effe6e18a16096b0d08365e708ae8c 0x93ff802e0d59c42744f09f9cb1e244e87ef98ce41126c7616859b3a6b19ef77ad5e07ea7577d5cd280f63d69c58d84e 0x4bc6ebd40a3e363346cde20f51ea0651b12f5f6d849a695570c1c30e34055728a9a301b150022717af7ca223365f3d 0x145ff302a3f588f989b57950cabffafed572222336e589ae07090767b5a32b37701419e09322aa124b619b392de0d749 0x19125799fc8fa2cda8c3046214ea6c1b187644409fb62c0b41125b2a5721eea69177a124b14953aad3dfb251657bbaf5 0x17103d0b0e1b5ef7369e995dc322d655bf7641c61aabed2c279ab0be0cfc11f02acc9d442a01bcf3d216932294798acd;
  cs true 0xc16991e7db872a3a4b851ae6a81a10b994411bd3d962c41033bd84b7c3c8c7c593f56ae4064fea8b3989432ab80a379 0x12e4d88b912b00e9e54417d145650de34d96d576f1d1a12bcc989531598387e4224e804a170d4b59f7942518168372b2 0x6afd67ee95a7318344d9fdfa806119253b02c0d6cb42fc8e946801e19a3c4e7d25c034eb7d68cca180e2f0bb17c8c13 0x2ec9fc1e8ca143b88fc631fc665493a980a312274f500aae28964dd838301c41bd6c4f2459b1a5751ac2e994400b00d 0xd0a206ae5cb1294f10769aa25437787327a6adb2990903d242f4e8a25516b9fecaf9b6bf453c95e775a3977a64f739a 0x16731149cbc582e2bc3f51587d6507c0080e0548509c18cf725b10a69581c1425fcbf8ee97b1f379307d538039e016cb;
  cs false 0x1949341ae127b31dd54633f6b2ffc2ef2ada9fab28aaef3fe5effb0ff9cbf8916c93c5e576079f9a75509a59008e1691 0x15d2c440ccb146fd6a144b590d6012bf4cfa0bc1e6ed51955ae6a65e338f71f81ff4de66defea45e264fc7a5064217f8 0xad38ad15444d0ee1f1912088d1e5b4b8028b99d3d0d4ef6fedb0fa9434c5904dafb732ae71c9a029334699fd21c3a5e 0x14286f219b5170d37955cf1803498276625c9d88d0a1cb84913eb0255edf1fb2c0bedb595eff9a0f614434e67cd04c0 0x469d3eccae02ea36610b492d2bf9ca99e133849e0960517a20da3eaca7ee28bfabc0c005f51e15a84fd78642817ac12 0x632c301e306e00a506194fd640940399bd1e3ccf6ba96ef78328fac2c2db86d7dba61152b13d541f4797cd148690942;
  cs false 0x105a108b64b7a8d88532fb1ea826d04d79a703a2fca120a6e741dbd56227f9163d93be34e7f221c200e0306c50234cb4 0x120a8b91e11930901e54c2e313dca393b0d652d303357941f9263a6685a0bba03f50ab034f18f321ad615c729a9d383e 0xe20a5d0c27467368cb01a486c31ebf6da4f5c6be9a5bb3bfcf0d1cc6392a8b5f9a27de8627738f057d1183b2d2ed5b3 0x13a97469f78453fb161ddb55f879e87e006aef7d1dc1cc5201958f6db0453afc03f053f369e4a677cc94e061de55ed7a 0x106e77e3b2f572a7049cf8b9024709618b7d59d3358473efb56c84f42de6923718b0edb4b8bc3ddfdc5098b6a6d2c8a3 0xfedd5e781ba00ba3f44412386c3f01f29ee3810792e60f1957b4cc1159bd63bfd2bddbe5c34afaa597703e5a722f28f;
  cs true 0x13baac76ef2ea61a2d2dec6d322a7a6b4d96f9ff0a5ea4ead77f7867e0fed5d19baec2a835bdab1e175970bd9297a10b 0x8b2155e076167328b1b5a604816bb2a1a071363f59bce26bf1b18728aa8a0b02561756e71d3b0752b4fd3dbbec388ee 0x19757f3b9a5272fac72163431ada715f62d86adc352d90794d5cb1046cd84616920c5566a6609af580cbfa7ff2cde8 0xaaa3c96ca02bfcb5f8c995749da7cf2054895557c0a7ad51c9989806005002e36fdc49c517d3626e50f09f3e60ce1a6 0xdddc7ff7c1341553b7e40b57e6b4e91ddc37404a5c44c9174b62c96f0c703d5084b656631d289655fd9a6ca5a7f388d 0xf90192697cd63f0e8899b4d713079d24f47caaf28b1556a7f6215eddb3e58fb1ad5a31cc798b7ee411651030aeca868;
  cs false 0xff898075992621503242d18cdeecadfffab635fa315ba13a403b36cd690bad652471d0c7630bdc2b3dbcafa1c0eb3da 0x8fd05a08a8ace4c9e6ca3500d8f8eb64a83341407318c4ecb35eb5524b7b263f5a3993992c852ec44bfc226774dbe3 0x648f4ff71e085f5dce9adabe128043afbbee8d69258da162d7aa02bdb08e95deba42cb081ce3b1d0dbe1d52210c1908 0x3f578098bc7631ef48a3f0bc9a365bd035e90da8f06eddfb8bd3ded1b374b6d13cbfce299bb625f042b302b24fdef04 0x824e1dd08a073e82d7dc09fdcc399a945e6cee321520331292877a7fd874cb5ff6c02f4f223d19952a9b9eee6b9d999 0x17bbc68eb4972af5859197503f5ae0dcb1d478e09910eb0a05e63f07beec24f23a2429bde3df863c2b10922992159f9f;
  cs false 0x1917c7109905695ce19079bf136a11f8746f7bf7e58bace8e23e33ccc6cee1285b6b6157acd373df586b91ca3b225fb0 0x471aca41be9bf68e834ea1695be02655aec89420590bf9c82eeb00a4f968af57e34f808284d2bfe4e147ef5c38fd87d 0x14462587e96fac20df85970810cc78dede0c91ec458a5eee5b182e79523f0e12a4d22ad23d38d3603d07d2f3eb7d3c92 0xeafb9896396f07eeda6fd5fa9eea5a1c565973f6e4e6ce6054ba76ac2295f2e1b164fb4f6681cac83f517cc35c40f7a 0x165e5b2b4b4f7ac6772c4124d20d26bc6402e3757e0dc8f75d6df6f2208c37a1bd6f0a3c7be9c95fe0ab16ec2d7d9750 0x143c8afe4b7b3e3c0a42943d7f2e7bfe9c9d569fcb83c36ef24d8369006e04a5e4c346856a0af2581994bbcb16927789;
  cs false 0x210125fd5a3f9c75cf72f2c5dc252c82c39ff7145317b2ebaf9d3d22d84daa38f769d3460ac7b1e68d210bd1c2a912c 0x12b62b93853810ba3fe2d60f266576bb7acd3a644f550eeeef5c4d93430eab6dbd0cdbc497c7f99f6a6824d2d811adfb 0xba266a4460c71e98f1b6d9246667c66af5d0965e8a6b3bca2007d90fa325421984825aaf5ee5596bb56d3f78a405161 0x50eaad3fd52e97d9ab983399c9c11cc91edbbe028af6f9c950aa3d3dd4fd2a1d0238b0e431b71784f6ad294f9a3dca8 0x183fb208a2f18f30694e59b89823e8471b762c2b0e21159dce94481b5aca01793a803a5425ec6945df90ec5f939dc2b7 0x8fe3b94588cc8eecc745ebd1a37b70bc87e2165138be83c47097eafb3645b5c6d8ddc35b5f46fc9d58a12f10693ed0a;
  cs true 0x181316c3e5d54d9c94127de0b7bd7f3fd480ac55b00278cf22dd6b6a11180b283cc460487ed314c68a541877ae9faa36 0x11c4bf794a3061d6b08d873f022d39cab5ffac5fed525177ee77797155284dfafcc32c65184b3385d444e2d0a83e8c20 0x41159ad1d45d851ae09085fb16ea413e36a6ba30fd418fb2ab2aa707df2315c071d3ad3b10a80557cd71d0de167717b 0x13ef312930296ac2d7a3a65f7f2218f783d4d68458064a9d4156130748aaededf4475775e338545cc5b6120b551678c 0x4445bc2bb7fdd9e87bc44187d482880042f8bb1664d507bf0c21ec728c255ac7b7c431f5c1b5041876f8796dfb9dbfc 0x87920c3b2a4930dd0d139dd3727ed9a228e3e8487c30f5965cc6552a9a86b0e6461e3612b88a1c64ddc5f56c3a1cfc7;
  cs false 0x19d1a0b8bc75df6484ca344a8ceb8d517c01cd9c34724d0b00a135e77c94ce99d24637bcf7e45a7b1ec1aac9a63d6431 0xfbab9752233c528df1c148095718a5169d9ffdb19a5878b4fbc2856b92c5de39f12f557c2c15e20c203e21420136d 0x14fd0ebcb12a39877dc3e07e610ff629bdb3aaede634afb9977e2eb9240ff4ead3fd006587dc62fa7c5dfcfe5c82e1a3 0x137fd2f64d4fe8bc0638c2e803a2fa5d79147b0dcf3cb967d3423ac7f99a6ce79c7a754f5aeb7ab2d8495c0dabe2c923 0x8822cc5693a412292361fab6f6ff73ae22367ff63579a1e8655eb5be10519509ce3cd0ccec19d0db0780fd368b74cb0 0x93d001440a15176ca2072688b87199ce8131a99184f12484b283d193b8d4fe0c5f11e0dd70ee58cc5706a17d7048686;
  cs false 0xdd6774597408dea0fb43e4078e8dfe77b63300b61dde6ee5859a112da3ce64aa446113af77fa80c421be7f3859aa51d 0xc24c2877dc9b00fe0913191f058a0f60f41ba61dfe2afdbc6ce833520e40220444756ed0ec40a2d5df0681fd86abf4d 0x140a783b7008ffb82a77b1d9975df8fe37917d022039bf0cee8381d64aac959f0b47ab7d32a3dc9602a33208b17f8259 0xeb5e4868e5be582051c6ee93a768e71f536e1ceff0bf7030763a0de72e007e8a0bb2a0559614cfbadfac8bc02e79bf 0x16a0374610e5341d31f0165384044424b73ed42a52e8e2bc17f48c4f1191170ee8888cc34e11ae5429a0097f946e0c81 0xb884756ceb6bae0f20d9f2770de1dd41e77f149d28b0198789c32c595dca0f5d8acdcd32241e489f448b5e070ab8867;
  cs false 0x2d6fe650fbf95617608e154f9a7b9af2b4ecc34764d305355548857165b95ff6212edc8b9cde643f33481770db71366 0x14ff95080e8e66d79814a9236041e3e8c7a212fda0808a423dba59c7f509c5c5ca720211fd2caf91555c93f6479a107d 0xa7891f4730a68f42ae882ab55671efb558a9c3678caf4973d3f04e08ce30254a5df34468a5f5cdd936f97b19fdfe528 0xd6bb2657adfe42760eb11b1d9145859dfdb2788f0d96dcef10200c921fbebae3c051772a1b0908462d5fd20f61c8638 0x45c70eea94fca4f7ae66c856a80785ff0a9d958576423ed970cf4baae7f3406b43810215e7d7f82398fe2dc0470a6ee 0x14000df6b0d14ce541cfc2e07cf79189a9249f638caf4e48a62c91c43d5f04e37189037f31dfff0ef66a0103b95c6230;
  cs false 0x14fbcb577da1e9066d52aa83d258c6b268709356edf3be645c70f6790b8925c17f7ca6493eb73f9c4b974d1d1a1f31ac 0x16acc9206acb4142f7cbea3cac27072cd96a7d1adecc1ac17a8b46e3a97f0373b52397c493e4a20b9d6c3e437e6e6382 0x133f214cb347baa45cf59c55076b76c80f27c3157f9fe67ac0af74402c92aafdd84fd36c7fbc4181b4c162b3d72b477 0x191c4c94db69019da666b419274f81d795fa0cee64b1a3e7120703f40801393923bdf21a53328dac3ec81c6979bf7c4f 0x13a1f3b33e70cab95c5fd90e0b28ac9aa642d675147a920ac8b1d86aa4e0e8f202b41f6a27ec968367bf28219e649ea7 0x10266851cb1c6d099b1d755c66237bfbf5b370429fcef1e8076dce615b8af206b6f261165a59c15c0f0b5aa5ce0693e7;
  cs false 0x152d20412f6f4ffaeccf14c3361300b632d8624a7fe44b60b0caee85d8e494d29e0174e31baa6eb3135509df21ae4b4c 0x637fe37f331cce5c7977086c38c4a69829376c90926f7c2acbe7ae56a1ff2a1f1b947310d7d264fe6f96d3154db7b3 0x19c259111638a6632e96582ce0c13a1f1ff2f0b7115a351c1f84e4c8970fea8aecf4d17888b2c5e097728ab20314682c 0x1003b8dfb368515d517db66e99c1259ddc6298471ec1f06ed9eff3dec49ae16cae351a1512b909c3e3104d04911ab7bd 0xc42c155c8cc36317943909561101f0529ee61fb9d5134ba51d6abd93d9fd1e32dee46bdcd7261b42e4787cdf9fc85e3 0xcf24a06e3f6189e3666cb842f9618975599de0838b83d140097ca69e5160fbec5d4ed0ca7e8e25221dface8454043de;
  cs false 0xdf952b0060b8b659ae8f5c0b05ec31b0a3d3c54d304aa1061efdff1da98a7f9ac241725e85bec592ea699ba574aea18 0xabac1b08a9894709c43f4ca09f945bd8fe88eb46f873db1cf7ce50cbd5feb423dbfe93301f3da1d84465c650e390065 0x10970be31155425c207dde042e6e962e93159e879d99a437188dcb9898e1e2640e70b331715174431e6f97032fca23f1 0x1891d87dfaad9d70f4672045c647c1439b3e2877619b4f03e8a7b1f8f0fd526bbd5e47ea753bed3075201a58bc0f3ee2 0xdb84592b645a040b3855101a40b0cabdd3278107c8150b914435cc76fc1be66d40d50663ab3c1a4841683584aee0015 0x135e48c766c5f7d1bea86ed2cec6b0faa04994ac6851223488c2e4c4ecfc6eb9b1eefdff8a11df7c6de784a605ca145;
  cs false 0xaebf7effdb592f410be3d32a25d3863c5af27cf24bd7d3dddd355b451348872e3401db27413ba729c526881474c19db 0x16efa52c70149fbd29f289f26081a6dda9e4a3685ea3cfcccc116913554b7b3ff674a91c8e8cf7ed60859d178425ba41 0xb6e08c6d47fe9dda60a2f48bc8f060b02a0aaf2cab61eb5c9a3663051fe1aff1c9f86c63241a31d69ce7486819101fa 0xc002fac0650a8d72a2ec81039072493b9afd1819f10a371e2e9ae1479b1b55e79102f5966178d75ca9796cd750fa246 0x628fe787afb8bdc01ff4510cadd93b79796bd3ee9ce30e69c8962d0e8cd1ed26df5aba496cb6a8f9c92992f424f3766 0xa7e38fe0645a8af3624f069b0ec60f8e7e7e7913456afb739ca0e858051ead0d01a1e4888e8902f7540c16507a8d9d6;
  cs false 0x1789e84a0367bd3df9c63e66c8107b3a8466342f771bb3f45a9294995f2bf86873337c91b8f99d2b4530c0e89537f63a 0xf2e16aa8e75902b6c3997f3298ee32555d277fa43cc4cccef291ee5196e51224850d05166933ed65f9b6cc4e0cf5215 0x716b31a6fa9deb3012f09062922f32d51bcfe47020511a61eef32d2060c3a6aa56d1da8b9ed0ba01d6daceb3e020869 0xa514922c79a0b9ef082f1cc1ec542245be887514ecca5d192a1e7aee06e40f47ce10999f0ab3cc4914ebf89edbe807a 0x8148f8e21fe0591c63d0110450fbf42d49ae23362a868cbe9b6c432310efc8bb4a048a4eb2efc47625398e9d27b2975 0xdd2cb3358e2898dcb3307f1e5f0dbf4ea4c69eeb3add602dde68291a34bbb28abea6c3e8eff404a073f38d4472d47b8;
  cs false 0xd1d77909ca132a693e5f0e298d3e3479f45e5f711a3925ac5540e8bbb0fadefc5598b1070e322f0bd24a552dec24561 0x15c2b06e62594fc93226637e325df01bfe7b1b15ed20b0111ac9f11d5aafa33f48c19c3a9ef682770ac33e5dd80737a7 0x9540d6a1347aee01fd69c17df1073834ee59518188adfcba718451f8215a4a2332022d0281a4c3b3e05a27a536270c7 0x13f2d26655f7a395646251ef4bb62c50a615f86ed538a6ddf66014dd05674731e3f2d5328588d2df42f59705c10cffb7 0x11b792fb0bad30a1f5d07456fbba437236921bd52eb0e4f8d73127f398678eb3e9e7adba2643910cd816d5aaaf5e2617 0xd981b0c55fff6d7a44d930571fcef311f5d39c06db3c30423408fb107ef879842a0e30a1e403580e21481c879aacd4;
  cs true 0x2758f9003b44a00c056015acfac4d055881cd5ed5bd4ca90ee890198f560ae7c0918563b7b696226305890a955f4574 0xd24a2f135abf42b5ea63843f65e11c8e6e0b26d799f9a427c8dac39f0baf8f5145d4564500123c17f9d99ae86d5708c 0xe6f9cbb844721e8c911aba8f8df946b8caf26c59273e47c86b3bd91bf4fe08755245fbf28d8cf621249972617f9c5c7 0x238aba03b186af60f8764cc27f8e30d8947c68e82a4c20aa0dea7bd659b641fc52a6dbdfa3d5cd1f301db4943dd3f2b 0x210abda3fc541be8013e35bf6a2715f7a10e7b6dc2fa736d67317e82d4b86ddf0479f6a1f02b98c1dda588847e4b6f4 0x129227daee3adba061dccae60f66d90fbd3cf5dc5ed435e8bc846e8ae2faf6207cde7e430774c118f164b15db0bc5a18;
  cs false 0x3a71230a6281b16e4464b469f11621f49c5d8060cf66ea5be85bf812a2e62cb285b79743a3436e955878532568ba873 0xe92a45027d63bba44dda6d17cea84bfb8e8d221a4a4aed3bf9bd09ac7add301a2947b54203fcb6943a53b595d3b02f9 0x1978834d94cb40fcc2f6eca83f00fac7f7f7cfe239add63c2a1d014d0460bc68be18fda008b7acb7a0519a3465509d50 0x113888c39f50d0da4a572231154f7de263a4651ff4cc4868183fa0b0fe92e5bfd64942b27c98ca7731dded6e4c31228a 0xffa457dd489c1552799018c9b2f385ca5bdb3f73337f7bedc55b69c83b12fc7d3ef55b77877925654ffb239bcfef895 0xa3f0d5b37f3edba2eeb6f205a16d0ce969958b7457ae2a84ce1a237d07023bd43e886e3cf300bb2b315641683ab847;
  cs false 0x711b4295ccc2fa1c153d3ea5e412be3c894ccdfba43e12c57cab5a9295534750999ba103f653690d45d966085a8f7bd 0x18c4c80287848a22fc615ebaf1d9012141684615c47cb13a44d9a71452a877e8dede3d76e4330d556083ce0af68f71eb 0x674d044ccfeece03d914f812206b636dfe6c53692b8080895dc105a3ec6802202a7c9867c770504b0b324e585c25cf2 0x1600f6736840f94c582da3ef9daeec1ccf370ef2fd0b8bdd7a78735f7ba79be6f2b2e85bd48adbe06fdf80940686568d 0x17ee57b302b98c7da0addcf70511944141c05567dc4b3776496cb37f105a91cdb9de16c11bee3f3a636b2bd9ec39de04 0x16566190d1cfb6a30161d2787ff1e4705f56ebf930d2a31414947a09ca22a85af4fb4b5d8639c03c6501a040434d55c1;
  cs false 0x1a78d21404c42a6e76857cc8d3ddd83a48674a285b7847914ed1ff696b2ba63ec081ef140017c2b75f11993b26c5633 0x5b93cfb67a47f497d465b887f34fb43caa352f6bffb2e3b590abd5425ce8f132edf231b95b48bd5445dd391c4c2c4e1 0x180fc4943f55c19c6f89b7a985ab3b22642a100dfdfac95964552c768d03cf862b8e80fee54927cfebd28adc43ade02f 0x185ece61896877b260cca901d59a8ebddc56e4b0eec5860da2b427c8e045da9dab59c7d98d4e4c53c7ed1e58dd510976 0x170116a7a63b0d4ab7528375f1160439b5bd029e151f171a9d419d9027fec80814ab86f6d56d4113625b3d0075485ac4 0xd572a84ec32ec7f6949e9567bbbc47c3406852da1374dbb509eced67e0d72d1611987858c1fbbe1996dd031a0ad23f2;
  cs false 0xdd5b21c580eae437ea91f9b3825ea907e6dab18b7c0047f6e3b206f931aa4425c3d961e77e0680f2ea501850d990ef7 0xdf47d1e094f229d8b0fd258c12c4b26e75690e540fa9ea3f63146ded4271fa280e67a315b6cc217d48ab1ed1e74f115 0x36e37235fccef29ca8d7d5c88161b645dced8eb4fc0eaaa13e25644e4ba091d4bcbbb173a1ce9505de47bd89f2033b7 0x1108d7a36f638db186cfe11c24ddfecaab628ee28d8e95704521820ee4182fde8ae2623165d50a7b736d65e98e3e461a 0xcb7d98b337c32b93e1a80dc363d36e7aed5d6ed81cb802873db29492441c2a805558995baa41118a689ece31e33a619 0xed5415a0fae723ca2a597478e858e9e2c2d8503bb48a5630e8268faba7898b7a6948caa7b67fa98f34388f1a65da5b5;
  cs false 0x2a8951387299bac8cd9212351c8e445550a940eb3375b1b37ac94ef1cab7ed91743aa88f17dce9d08a1debe0b117244 0x193228dccaa25c523160b16ec37f580ef794ea0ad61825e916cfdc0341f1bf1138938712a736a3e00358e8412593900d 0x94cc9549fef3ac95e76009ea595ee9198b6e149c74eab0803a6ab78a9491848e94635f69747bcbb9d2490c6ef85a0b8 0x148df003885bdb42bad26d58dafabc94c93a69ec634fbb93773b4d125de6bd8fe9024149b3130b651a62fc37e683d715 0xf1da5bd91d28cdd00de5a2a9870e063dd118e94c485305a29712eb1cca37350bcaa23b9d5d6a53fc0fd65dbb299bac1 0x96bb6e2fdf65afb96fe2919d8f089529f1e81524e651764cdd933d32b2a69fc6671ac74df9e7880d170491eb7c5fdfc;
  cs false 0x3a4afee0b50c827c767db4bbb46a5692dce35ecd40c98aa921396b4d9e1c51fe0452045c875b3fb7dac8467fd42f13e 0x11d3653271534501d2575c7c3b246c78615a25156cb8b647fd328f95d28d1d2b33e213a06b98125299a9018311cd6e4d 0x3d11c92531f5a44705230e227c30bd02db7e0943cbc641db1383b46bccd6d1389adebd33797ceadf76bb8e820603ba 0xed1f0a5bf274133b1676f093258350e18f3699ae6a722e2692dfb4592c9efbe7af44ca12031f61bf89ebae67293ade2 0x3c6bcd9998cff1324b51a17094d35751a73b925b5d8de974b58c3ff129a679e730a621897de45373a2127a0bde97a3a 0x2dc9e1bd016728b7999cc9e0d7127e160e92adebcf557ff0d84c5266a0f96e18f97f7b7c88cb31be58ed0c43b706708;
  cs false 0xb8aa48c70fc969a8d2d4f69017cb870f35452851bd12e1bd91485c5c63147274305a382033e34b9b73ab71498876293 0x19a1673b87b322e8f15c80bd4797dac9f340a4f2dbaf7598c394e9a8f3f68a93a58faa436e3c39ca6cac29f18c6c5c80 0x161a8f2d07fad646cea60b43ed0acd3b0b8b1e2170920967b1c5d521168b4e3a948d926b5bf0373baf983c4886edb58a 0x35ee631a11c1d2a447fd6193e9500f38ebe42b7ec958ba2d484c7b13f4f77d3a07e48b30e2ae301d1562e75febc7120 0xe7a453a14a0bef046c017faa046af4a8e31520872c1b2e905f86b5da7d1c02371246d47c89b610abe13839b42096b32 0x1084cab12a21271133720143cf5bc45423d611e9dcbe39ed96cabedfa93ad4362b00ecb7e9c28d4e03d74bb631acd272;
  cs false 0xdb29cbfdc86ed4823424165d36691db4b097fcd68191eb31bc8722a4fe62925c598a1788ccf0d212041ec18962ec0c1 0x106857a421b10d58ffcf489e8f1b26f45382915fa54a99196aefbc21cd8d67d9952a4ad02cb95c637760629f1e579223 0x13c124a280a65ec5271452a97701239c5d430213df1553b413cd0046fcde1f8723ad1fb349b37cd6be64cd6057b60b7b 0x1d54294a2cc2051bc3a4a05d107b812630614fa06939dd764b6ca05cba39eb2a78f326c4047c7f71da361692a4fdf1c 0x176e12705255aec3c0fcb8696ee57be6f6f0a6897ddf776e6eaee98124e68e3ead966df5c3f4dcc82b696a702eca7502 0x3fea999be4edb241a2fd24b2aa345ac8914549adcc8efadd2625c0c448fbf4394857f75a640508197aedeed69c4d8c5;
  cs false 0x1453f39e7ef7fde42eb16a8d3af64bb51ad710837d6ebb237fddbd1c398f4685395c0f6d95c18a7f175ea7e440f74d8f 0x1145ee875c2a3242d421bd097696da6d21456efa34e88055ad24f3c865695a9e0e88fa32ddd2d88b675fa6f2c7009baf 0xf555169ed6d7002dfb155d6db1d93bdcebcdb35fe68516f448cf6e3042d16a1f3a4f0fa2f7a47c0e4ac96cab37a4937 0x12bb1e53cf9a32a535e5e654ebeea0ee834681cee3cb164add378f69ddda8bba6e654f8d917ef1a4d4a7a9bc8dcb6727 0x116473cab10ad5416b617c3691f8da96b4b15c1c5f7aa639c62e6772f8bceed37b0ae2d9894fdb5c81b297f6b38c95f0 0xd2c6d9a60a502254117dceeb6cf0aa6d7c10ccb051400357546bdbbf6cf6c01ba52468638f670e1e7255eddd42b378c;
  cs false 0x9daa5b04910366e097793a6e37bf579ad1ae59f2b0578782091f2b1eeeb30e7ce645293c49f8f1267b842026cd5c39e 0x134382d138298854b53a3bd0c9ea8aedff37d7e891acec7ae493a2029b8dc0a07b180a4acd01bdbf50567e120649182d 0xbc53c79f331ec9798a283f2001bbee8b1cf866ab188c0b7ab14eefda0d7c2642cbf102288fdd943cccaab28ce5ec2a0 0xb2305d8682aa086401b87f5dce585c86082a562da6c37e82dcb496ebccd693ab8baa83d1f99a73d296751be89b204c5 0x160e16867bc039472f5e7048417ac1344d9107b35a68adf754cb91d9291ec102ab601ca3192265fec210c0af36fac2de 0x19840b9e59255e10a9ed0a2a693ca2cb3ed653b4e405d762adf24deb7f6700055089f06503e368ca75839c544a0a6fe6;
  cs false 0xb9efaa8e9917ae0bf55c1a0d39528ece2e525edccca75b239cc6d62a7f5b8e8b66983a0d5ef4060545e61efa63efc67 0x1697aa16a3f2dfc6b1ff72179514e2e299774f2dab9571df9187df3dc1afe4a15e1f192a49fbeb0189fcaccc3e961a8f 0x8e9e47cadc5a6eaaadcfecbf7521cdd0713d67f6263ac8c06e95c4d63c86d1d0905187c38b2f3d4b94837e9cf172c11 0x167a17bd9562a308c16ddb58654a76aefda0820e2e15d6649e4d959cfef9a43db72a8971c61701725af5c3ba44868c2a 0x313e0b02ea7d3e05e82a8c4f3ad2bffe410ee4055bc27966d080e0a256a75c57967534fca66736bc5ba0e162586086f 0xcf0334c2b14665b888a795b3d0fe33eaccbb965d0e53657f888947d4483d490e182e0607dc68667c5064c5944575873;
  cs false 0x154b1b1764f48427e7969d550b5edf9d419125fca6dc7cf3e0b6e06af58f070df11e489a7e0a1d17b8bd94db0b96d9a3 0x14de0c35e8fa4186a42489635bd0e609d7f93f50d8ecd72d7edd8609d388a164d2cb2ed0d857536900ab5f4a91c4fff 0x175471ca51e1728087f3d1e0b6b629ec11f06210c6b23709aab762c2917047e9b6b873c3480879611b953aa013376b9e 0x186474deaaf493f92e8c2da1fce8b6f1650e0009df3ea4421d5935b2245a7872dec32d834d3edba6607f782b9dea8337 0x12491270f58862e4fb1d5f1e7929b54dae5ab40f7820023072b77a2704809763831ac7900df5810241aff474b382708e 0x17407de01593af5c5d61d44b70bdc526af4916f15c70f49c36fa455e71a0f51009ae2f65bfe8c46ed79a6f96a63d4987;
  cs false 0xcaf4352187be17168b23a976961da5ff9e70268241e0ab51fa03ca5a7c381bbc702a81b0a919d0f15f81d4f1f119870 0x65cdcb00043fae084cc423858818764bfcc78c8caabd0b7871aca5363cf49b22eef4742075c0552e9df3a0b6a7c4c92 0x8c25c969b43a5365cb6cde31458bf8768aa5285f857f001b27fcfd9a6047601d7bcad4be703555d4c6a459d08c59833 0x186a3ee5e4aa2c6efafc2dc0d47a149b7d7bd32ce87d58a84b34fb9ab3542e1c5f6077aea93bbd96a2056b2a86697c81 0x2890421616719e12dc533af1fee7d5f8c330b020290695fdca33b03ca1afde9b8421ae15641f5869c71de47b9b3cf2 0x62fc5e781ba0aca1db26f1606f2fc705b4d1c21ecf8ffcd397a8da4ba01dd1ebabdbcc9e5c1bc80ceec9aa9ed892c44;
  cs false 0x145688daa78dc7d7f4e200b9da366e54f7b784849337ca73815458ae8a737cc4cb8d8e323bd9013bb7f3b083a5444510 0x106e071ef8c42cb15c8b1bfd9b2801c8ad174135c5535731b07a0f32f49efca6ffd28d42e28e86fe4eca6155b3afbd9f 0xe8797435307826cc3ae780004d05a5684b079f03478b4512dba4df134fa70f3762cd12ddc07094f784674062981626b 0xcdf8fb220bf943854d837e58b5e2d181b6d35d7b145669db9e1d0708821d00e9b3a336e8442a68c9d54e63b5641c159 0x454462c44d7aba8a685d5846b03fd0c184c3d54adac073702817bb09e74085c0a812e0fc1f881bc479ed0b260aef5b3 0xd4622058152de01eadfbf109b55742c7f6489ba0843707adc0cfdd261c6b3423a7afc5d912281d9c8037291529a84a;
  cs false 0x3a52bdcbbc9708c0ca3ce8acd44157101850fab9c32d93796a96c9643652854e2300440958974c78adc3ab58f9e0535 0x62531a6e93512b976b24b41efcbad8985e5e7907ed0c0ffbb201ed1600d6081332c3c68dd29ace259ae13aca7d408c8 0xf893823f262f17e86c769e5c64e77d263a01addb3c75b211ed4699a3ace84838c7b8cef8b2ba8fd41c4475bfd92094 0x83d8f2d67d3afefcc114ef300306a4f876f712d86bc94856f1d394370d5e76a3ea6186c645023c0b21203f7b97d8b97 0x106e91b16141a09e9680496e9f408b21954a0d5a068543a07ffa2cad459d4d0eef31afb69f07004f3845b75744e0e6dd 0x856502bc33515341ddab6938dd2d2d16fc1443a970cd6c0a2add19af8619b3e0c7b4be42c2656980578fc2d166306f8;
  cs false 0x7e3e51c4a00e2419ec8fe35ddf450b39c555ee0c93b4c534d2658e19b0ee04b0ce3c8fa6510bc1487fdf9d22436e245 0x157e86a4426063792e2bc37fb8e8e149dac5e7265d2265aefa07b95eefd8a861405c1952338992824c3bcc9690af2f02 0xe75ec271ecff3d3f368fa03e6d2abbedb7226a36522cdae7f7b8f2bec8efb6e6ff8fb243e8f03ca18104e99517a5646 0xf1a69ef8f56171f7948f12344ed7334e1d51105a1f6a5c842b3a06c52d1699160967291e8a000c192d0bf8490c6b019 0x2eeb1eae791f2b0d818f94e945b3af6b39a5acb1bcf113b16dfd42354d7245154a900acb892522ad823e901b517860f 0x191b333e51a7179104d3a70566a2d1e7609915072e8b14997c98582822ebc499e6325fdf27e839927cc22fd6271d374c;
  cs false 0xc93eeb0f48313d3e212f9c0c59b2015480f82221ab03105bb7ceb567620be91d561398be79e96087f0823d00cc9ff37 0xc753624d86e5eaf3f7c48c4af5a3288cb6c93bd65d81ef228d36ef356c7801112d3b40e646b7f87ff93f2749baf38a0 0x11495639c2f552be95ecbe3af51b446bcf47e23789c73ac3e0135976ab30f12a839bb025179984e9155ee78638e5c55c 0x1456976740c64bd1b6b362574f739d385d0d3736c3df97a52a6b21cce5a8f24018aaab90e31a569b5a0d460d7767ebc3 0x11530b6b5a0490b1357d6028a61ecab649af630fce624822516622733914df2936c5147c5183ac41aedf4f709d8ace24 0x974f7e9a91b2fe4ac9992978c1abbe4b21bd248c8b140af7e9490ccb73b7947814658a8c79775b61903727c281aa89a;
  cs false 0x10ee1053966f880418ddc7b8e48281b22c3e7c1d2e9a18d2e1941049af1693e7d5c371900daaff49798f88f4af2fb814 0x1534ee8d7ad265930fd642a5b895e858bde93fb1f5e1418d7fd2acaa39836024516a1263d022b6c45e33df021dd84e9c 0x1340b6814fcd094e33d3d638aa139787a76ba035d706bf29ab389c42637592f91001aca6dde5fea0c42d86f191ef4a93 0x114a6eb266f1b0080f9fd67115c8242dafa7081a0911ba9947a8781e41f89ad74c7a6376f93c1df7dde6cebabc7daeee 0x110b9e45533a3ce8b06460016b299351291e7565c58e02ad14ffe7aa2913ca0a9b477b341c413aaf806e8f6208f9b87a 0x296b8c15c9d9e48d5169e470327a3550af2f7e57ab0541561d1638a4fa81b6e9cb61e524f92e38f6e87375e7d469d94;
  cs false 0x18da79ec9b5ff2afac9587f9cd2a57ee8744cda7c8bd3eecf1e888fdfbb005ed27dd940613d75f4564bcc59dd1c016a7 0x5985987dfc370f73a91c0b1d3b79c7e577d8178163c990d8ce8532d89cb9f2f28819e0af9777da06f1fe838c223d9be 0x59c3c86d4f0c76e6d4f122b48dc1c2f83ac3d50aff2749c8dac36698068b33be37b5747a46f6315a13af8e7586debbc 0x14b75950573b04a561397ca83b3aa7ee50b930fb21b82b001adf89b3d3a49263230462427a87df98d5f3f10c292e1bf6 0x1194d83126386848201c9c444bbe0a2e0c325c041d50204b4768a23f7a3356558ad564a5afe4dc7ae3c7a40152e849e0 0x14982113fdb78c1fe5491f951c71babb1c2a685ee1f1b0298b4e5175f3ad3e19510d9f3ed2b72f1014ba2bea79c9e57a;
  cs false 0x17da0bcf4912332826fc66c3b1ba80f3847e0656b67a0d1c82c055ce998c3dd6c0902434913f434c13524d538771bc39 0x184327d1603fdfd4a85b9c2eca730ffe5658ae353ba56ba8c504860c73f90ecb5964e6d920f91658fcb7c065e24b3033 0x7c311b8fc501a1b991ab76add2e72dbcabf53405ce81b331ff9a8c2901d35728be941ecbaa190fd97fc9869da9febd4 0x14b9fbe12f40d58d89d6a134fd4b526719ce050e0f7f6537fefa6ad1d2248741a7994e0001b7ba3f1053bbcbc2de8923 0xa9370a466fafab5e5a1e931da9cc83c83331c3e22aa7de225efa29e051c199558a86cf1eb9082c9fb6dc40b954c761b 0x122cad73cd7c493a426334906a14e1ae710569f43bacb50db64141ce110a6f4d7cebd72d3c510a052e47664bd70a0b65;
  cs false 0x15b3e5f35aeea5bb8d5ccc510abc5b442cf0f01e3cc58c3740f50f84c82dd7c0576f3e75701fa0e608f359173eaf1892 0xa3637bbaede63d2cfc4b6ce36b0a4278d5476c75438cf4e743d077c14b4b19b1c5537fb3b4e8444130dda3f2729902d 0xa00d3c89ff0c1c1a2762866ee555e535a41f16ff6a20cea741de390c4ab33514b04792bd927e8fb003e57765cc3b80a 0x6caef2f5327382c3da58abc7bd8f4938d166646d5b4bae0fb0f97f4fc11c208f3a130b90ef03524d0b1d68ed0e67a65 0x7b9330e891bc5838a17fe342e289869e626507a5b29637665f72ce1b4b307378765c5ca228a6b8ea33f91d01821e146 0x11dcbc9989d82280a4e23b91a7a6511d898d9af99d9302faad8f3ce81214dac93d0d7d7297651fe2e117966da109c336;
  cs false 0x158bfd03dc8da3013997024dfd49edfb2855126ec2f57fc7bbadb2a25c3111d007814dd80b20e8f804dbe24b856127d9 0x12de5bc779d05a4e9f86ad13a90b5222d568d735a2b59787421b3c761bc1bfe407de04f96b5520ffd723e8aba02ff993 0xfeaaef45bf4fe98a6c110ee39a6ba1a4b52216ac1becd3e4a89323de56e81d72e4062a0730e9d9f745920f8f1e022a0 0x163c78144d9350fd804ef017d54bbda3a8691d8d4103771a0aade053ff3ea856effbfd192e7336966df7a63a3eef3835 0x95b359524406df77acd3d780c94f07201de5fdcd3c9a04a60dc9b7682c6b7d5392df2c71e2c4a019e4988360e0f1fb9 0xe4f14a66fb87172d968a5e1119820f20755b970a33ccf5883444f34c06faa0e5a6b8f6c260ae5b07e884f991a8cdcbd;
  cs false 0x282b610057ee693d1c6eabf6b5fdfb20ad7679b7df5ee835becde809064e5599134264f78605699f0da249a678e0344 0x99b2eabd2704e22a48077231acbb21e521856dbc9b7df0cd2c9ac90987042cd3778f5c567bbd1bbacfca724d2005445 0xe5c0f52d1ff0c0a1c6e7d0321e7d787c355d0b88dd303ba30812a7aa79b5c8180a6b309317a1d3a9b8dbb0dd853763f 0x152c10e3f556e76870a962305c6fd84b7746fbe34b4b1a8ac75c83ab222e1d3832c104c4dc1b6fea1ea921a384deb584 0x3212cfe17bf1e7fb1f43b901375c4b23de894938050df0a5887c566456e0f76a2eff7611afeeb20eb0395408a6b24fb 0x152bb23f705bb5de5e5d231ea2a7b80a82f9193d0aff14839a367c71cad747a1ae1f7f94b1485ae4f0203cfba53fcddf;
  cs false 0xe26d79d48af91defdfd04e88f9019c38d934699de32dc397e98664a17739b01db8e1cdeeffc3b025c48fa248e07f4cf 0x18d0e0b498de8ae54f62ab957a6387f3ad2cc2e163f3e8ccc2a9ce60e539231dde2cab8bb50a624249b8fc1d3c994603 0x1966d6a48ed444be86cbcbb7e52f5b47909d2dd9a05d4b75bb2424a0508e27ee663ce6b61df9638faf6d11502161a282 0xef48dc373a1919551254727910840b36bbd77c8b574c2002c11a78ee8ad620e7d5641f5976c3c3dae8b1fdf2cd17878 0x113c722714176510befcc47586c638fc65d632ff7883404e126918c5b7dcf52146b6bc32d953fc6117ea774e165d3337 0x73f2a074cbad0fbd529b895e66defdfbfdd40f0fb02d8d67365b7f0ccc1411b791ec7a9de349d809a5068220f55f8d8;
  cs false 0x893f719a8e01f074dd9c4572f1da68a5e852ffd1a1f8f52a6146a2073ecb2831d8b8da55f61182e44ac8486c58e8b81 0x10e3189983bc527ab0c29d28272e16138e8105476b813a4669a194732ea40dded943c1d15b8792c4207e9ba477f6a8da 0x19587138f1173b0a0ad81d7451fbfd46ae8382d7a9bb6b115eb3c0c84074697da15d1d4e1bebdc4a006fb39f0600d53e 0x4df733ed1697d054f3487cec89a8f28e287d80322ae64f53a4d9988742100a45375f49f7b8168f53111fd4cee4120ac 0xbb97bd2e02cea303eb2753e02d4c7272268327ea7de0d49b90f55ec95cbec7d471925e60d7dd582bfe8166ae9effacd 0xf4677d6420cc596dd42604fe77f1ec441bab5a9958bbcb40b09c8b4ebac51a916a98deae2b6a62dd5dc6b03fc1a906d;
  cs false 0x6fbdf91ff57f6c62f8f7ba9e19fe08c208651435cea1d48dcf899c62e902377bbfbe9c6432b74d6763c9fbb14673415 0xb2a651497de90bd53fa33bdaf6dfb792bc6d49597722a4b7e871c0084dbd64d32be6434722f55734abf1c189852a9b6 0x877bd3289919798efbf521712d53067b1f3d5a386a5ef4769bb049e6f258d0e893bf23ecd9a34d29ba3a687378cc3c3 0x84eac19be37974a0731555fd3b306e12736adc56a003bb37c330c5accc3e90b17156a407977b77eac4d07cc4eeb6ebf 0x14e00752ba01c6a723c0df9033ac4b8df76d5b30e471fdbcc4174a141ce85db2e33c718aa5264be6da406913c35b2c53 0x18b254ee93fbf5aa7fdc1c93500e621332e38bc67be41c32372d1c6a306f9450073507b339ece41c047b73e86878788d;
  cs false 0xcf24c9fcd4a7a350fb311cf5ecaab3f1f8c12609bf0e6bf98f8f4c44f88302eb441db41d1633bb8652b85b1096e80f6 0x16a15550a0c651cc83e6ada9668afa6824809d8ca303d4e1ac740723650c32fe0dd142aef8193b48ef86e0779aaa8204 0x14c6a5b0d844505aa0e36795d7c4b967225df2797afd9773cd1705eb4bd718e53c7d62e93daa1ff0533970a6bbfb5549 0x6428544501bbfd4afe9fdb408a71d2769fbed83b4e99989bb944631fd7d0b2903e58df852050e53756fbec03bc06209 0x16031cfb496aab409715b163c2f6a238a388c028c08ef786f6344b35fac2aa577b4880dabac679f5c2ca3898bb9e4b34 0x12d878837f2f9a89a322f3d69e6aebb7be39f97e87b9f245f3088d175fdbd937cddd4b422c62294fd286f90ffc92e2ba;
  cs false 0x5dee0679627187e53d14f45706449c61e9e97b766d35b560aec1a29995d9fde90ad47db343fe1438377eb576fe65582 0xed6f96d75fbd0d345aff30bd85a49f9ac1ca6c518e803e34ad985b4c7d25c8f1c8e40de61944345518f606fa6a3ef84 0x6286fae2ee46df315d3906097e2a35b24d8c006d21e90d8d1f2c558393434425d1eeafdc092cdae958b2c33ca84b25d 0x89fb850ed44f14f528141721f99ba4517ccccfc36b3b0202ba43247583a42850a1f7dc928a86135ef6691cfa21deaef 0x17fd99c672a5d38f1e8fceb479699c17514dd90b30d8b552d1b6ce360b286e32c88c24b8aa1406acdb79a13e24124062 0x17517470e35ee3206276879769f0fd190c40bc3447e0b1396c6cdb2f4354eefbd3b7573c8f31b7303e2a2b449c555e0a;
  cs false 0x11b1cbd3537bdaf16c8e4fae4a845c1844d2d58a82491ae9528851c8bddf98887bca8ca4206c893ba5abe8c7cd65f81d 0x187de7df7e8ab33e4244f8fdae23aa0121dc3389531add6a1f27fdb8e664422eadf3da632ef0705fc89b4bb21e87a5c0 0x164e4ef753dfce1b8df486cee6307633db132832180572065a93ddb1ffee815c81ed1a00264d527d0afe2eccc644a827 0x95a3e72a0b6db06e7ac23de4f30c19b97809f44a11aa0f3fd869d86db9cec1c0bcb10638f3f129580e95b973b9a5452 0x124333eb254e1e3637157fbd9840cf9f9b229afa7ef321583e0cab5c1553be8dde7382dfbd5107e712310b8be781a194 0x6531bf838b7df9263f3a778fe871bcd0506c2f6779ce836146634b44f951198e4d2c360c7ff73c588650da2e061cbb2;
  cs false 0x50e1f58189501a9e840b71f1b5fe12fdf01b2d145647c834f736474bba7b7d555c4d109c4b3accb64792cc7c0336157 0x12c21c7311b5b747bfab35551460b2d1e3f173aa0a9d5674ff7109a467b4f7eb35a941a268c664597497af9e2ff923eb 0x4f696a5748d2338cad41e5d3549f137d6af236355a36b2a45a583d9260bd406088303c356e2a384eee2d0c2416b1afe 0x9921c3b6de9fe70ab6d71cfeb766665f15eb3b4a8e7ac840496a2a22025dc9a586509cb43053337ee8aab938a9746f3 0x2b715a9b4f9f00d08e675b8fa2297689f750fcc6c4d38668776a4bfeb13a4421736881878b377c40470b205df580c12 0x3cec70ffe10ec8d9f660c9dd931da1e5577a6e0bf91f14b3284d76e76787ee739a8f4fe3908384356b66a7c15362b23;
  cs false 0xd00f06b614650b64b0ce7c008fbadd8434e1395537af7c2f2f7c1e522b03a3d46430ee7bcbd92833c6620284ea2360c 0x5aee58610f86dd1ddcbbe9eaf6e9283df497a4b0946e840dbc6dc7bae143409444af802010129af82c4817bbd42960d 0x53872abb4ee4afc49aac9825db1a866efa5e5ebfc9f5086d5aef9f817d2f17f3eff1a192b8fdd6c240548ad5d0a51f1 0x182c4296334c7276347996d6b701b49f9f2e7e6a6b4191f65813b2ae49cba3f3646c18e37f8cab4bb1fc160a1fd3c772 0xca119f7ece0a2f1d1d98f440adadac8fcbae111fe9f4ba5a5ba1d01c6b62ed3897529ac34e359ee19462e18af431e7e 0xa7fd5a9aade41bc6a67c0f92cfd07fadc156512142a9c57df88fdacb5fc0e08862e45ba6dec68241fce55261670ea26;
  cs false 0x479f6ab22d553864f0b08a769e26fda6ced869a3ce0d3ef7714a7c779e40de45a72d06ba2c1cf293d4b5c0a1c971206 0xc37ad1c981d05f9ebfac20d8e2cfbe1958023998e01440b2569765ba6e1b30f652c94d9d91a29391026ca77be0af837 0x18ca11e4143b39024978273fb1082d582804d1dc781ef19b437d947d30b0cfb2d4ae746633ed7d6064a0351d37a60629 0x4c0e1c6a92268551755faf2ffe51aa3cd9dad386d5865757232ab751af17e1f9c6102edaf4eb335685e34c8671b0b57 0x179066737cf074b380b2224649029d9ed090fd4610f6615cb9a99bd7e924633a13914fe3f6e0b4f04cd6a7cb4c568af8 0x48685272a08f52f7f93d83bac0d7e4729ce9e80a9352f140f1b03a9f1938688d940c2b09c6284dc037db580479ace67;
  cs true 0xd13e25066bac73bfa87399f9baf777c4044b84d8e8c0ee8e5501f2edabe6b9b23b546fae95a7e4eabfbcace0d4b99a4 0x143d9b426256227e86bacf3f114674da4e1c2f39df0c6f50d73f8e8c3983f838004f076e6cf2aa2b38780d080aafcc53 0x14769f905f53cfdab35b083d3e87db95f1e2f2b650e9c952f30faf298e3a5aa51454045e86d98906f1c0f925fb1609be 0x1234a2a1a83e4f3cac21a62ea6299a8db27c36ab88bcedc2f3dd55f9251564b8be96ef372c07437ddde77669c27c559c 0x740596a1bd986718dabeaf6ed339b5ab36aa98cefc565ad1427340e2cfa5653083b3aa9fc4a9e36f69d3d96068830ec 0x149a2ccb034601212af47b858ef634338dc1ef6cebc65c39448b019f9ba8052cac7707f65b2c43686886f4662ecba89b;
  cs false 0x65f605a1453e04a4cf9c1ea6761e3de92cb73fe6c5164062a3d4f47b2f14bde391c304f12061b8c98ffdd760e8d7f06 0x549409af588fce76fe87f88e5c90bfeed384149140ed84eda83eb4edf8ad41009a87b8637c019b54633998720a3d80e 0x1820f17a0823d77c6b784d63c2168886a0cf296af17df75cf995963e17229940396b65f9c87ed91c5be6c0550af2eef1 0x7839921d1470c2f26378e1c648b8f2e92287fbc1e8136c307c49e42e3805a7c4c7b89d975a3bbbaa5a508f34813772b 0xc1a33d02cad654c55f5affaaae0000ca0b76d3f462cef967c01de74ddcb33643ec792c13d5f5a072d71e32411b1d60e 0x79d03fb1310d635763afdf8602b86271cf146f2922314c5e014f4b8751ee0fd49b3794ec4641966defcb0dcb8b41eb2;
  cs false 0x976d859c01d2d8005eae3cbd42564cf222627b4ee9440760beef6b959f9d310600dfbe25eb7729c0b99803fc92c1dcd 0xfe47c9ecf7f52a0e9cddf908e1fec2df011f141b6566fc89a6476531311e864e7ddd2b56c213e7426c182225cc97497 0x140503b8e2bdffdce77ea48e2225a10cc83f831b9480779786e72af8847b480aad779d74d1dba6da6587192cc71992f5 0x815ab2e126396939e59751dc75aa08977da903cb91d347cb850ddc8b579344660d60e135bb24925211df33e881a1921 0x868748b21b7c78363c29a40150e63ecbca61806184a8b0bc62935fe81ac645bf30a9e566c314ac001641c425967298b 0x1205ba5e07b163e9b7b2a98871a5ca71dcfef9c5d97a94f40d710868e1f11f8a196630ac6d487c26577a2df899d88979;
  cs false 0x13132bdaaebc66f67456213fa2834af2e9ff33e3b00f67095ebb0bf63efcbf3a9957d60a448f971178be994614533902 0xa3d32044acbfd52b3434af0bd9a1e62103d0070bc19997856aa255a1d6b314593213bed8cbb08583a420e7d15d25af6 0x1675ed327436d0cb0423dbbd577fd7f7ed2e223522668de7525079452672d568075d78472e8e70785749bc9bb1be9fc0 0x18817e697b1eaa0f03599319cc1646b137b2915df0d5f92c6ffcbef4c67b181443560d8006b33d980057af2a77ce4d94 0xc7655727a30ea573c3c26b5d02aa799258b36b619728075d36fc6f192dc8af1da622a951443c92f9e9b5ec3de5f976d 0x70d91528fd54e0a4e72441df55a9447056f9110b776874720ff5920fd2a8c2deba832e33ec35793bdec9bd02439a6d3;
  cs false 0x1913d28258cfffa1c8ce7d72137117e577510fe7edfdfa0dc4fa2a69962732c784a115cf0bb9b6beacff2890a386d90d 0x9de15924596a3cc21d29bf7e519e64eae89c8ddc6c14be80a2cdf4c5e42f90184ac4202b35097bf8e321f15e364af9e 0x18235cc4e0bf542890ba8aea2fdbbc23f24fe5362af5c24e6844a234d56a03164b751936bbf24a6bc6efd2cffeaf83ea 0x11c713fa52446b8c20eaa71e31a257d3e321ecf3c42bc92d009ec2a70c006a359d8d43afce936f291551c13746d50396 0x1169ddc8726e9b4a99f0d88ed6b62478966c8f81c77b3462d8721c7044e3728ab5644373a0180cbdb94c77f24fa26aad 0x131d6134289d3e14c830260f7aa46c385881a42dbda6e19cce45d9c91135e55931e0b4e0ae0898c289de5eae04c27088;
  cs false 0xa67c6fe11735e8f128dc4c66534a2baae8b70a302175a3d6921009c453fba513a2295ba925167101ccdf2b8eefd307e 0x17a41c92d65fc38878c3069c31ad211599d364e7ce258fc15f3e2a7302477ae6f898f9a62a403dd4d635bff639c72831 0x5e256bc663ac6a0b1bf71083928189ec9c90c207b112ff806eec66bbbf27b097cbb96634b65d2b5432890ead69dc9a8 0x148844c8db9c3f18e173f993c5d8474c31cb3c699410a1e068c4307e3932dc038b2797504a47d2463f40bd2a03725106 0x122b67db1ad5cb95343f588166ebd3ca8f16d53122337d864d77a2702051a28f7134575587cbcc11edc535b4694a1d93 0xd4391ec2dd2d216fe46ff0450cdc4f99a6917e2c84186992c77b48b043d27d174f813b916048631e9f790a40b466c92;
  cs false 0xbb5b2ed3eb5ef270c15e2c113e88ba0aae6481b7585281389cbdf0491a37d34d3ea5ebc4af8fc66b74edb06d7239a96 0xb6ebd286cc56d39fdb2d83cfd94c2a389ba38e9780b2d9ee897743049ecb811b17b650f4d9f07b96ed5675a853cb5d 0x46f3f425eb490b83a003c79a6c0aea8c7e64bb81da09572897e3775e0c318e9bdd7725fb99b8860b388d40f3b07dd54 0x11c9f627ad31991d31c35947aeb4e1a73372daf1293d9540da205ef9cc6d24c2a42c6e9d62cc6c3ec5fb47c48138916e 0x1357bdcff80f6d66521be8b74322a28e0797ae6272c504e9d3137d7572e1bb510d5bc0b992151fff223ae78a579fbbcf 0x8607065bb7dd72847b3ba51ba25338f66923577ed328d2cf5c35ca8671081c14d8ae0ee9e1c589e4e083f82069effad;
  cs false 0x11681fef3ecf54aec572d7ffceead2fe61e8e6c3df8ad39d30e69c409751058f346831da008df25650ed22a4d313d481 0x185b7d9692cfe8eb555c927e840a99afb27c769a58b99a9720488bf99eaa9be66a3be845625bdd0be9b6c2682a8212e3 0xd0b5203a92b2afec1079cbab7bd2a533df4472fba531d1c9bffe3c0548ff28ddd4c7008ecfd9e8369b4cc3f122c827e 0x16340e1d2b6ba4491051b9a87084912d24256d5c5827109439b8f063e56e8a751ff2754d4d80eeb858ea4432f7d5c71f 0x10d2a34c4326a8570055e284a8c26fe49d95c6f59e11a39b1ea8d97d826a4dae4dedac840c67fb8406476408ffc00289 0x15a7d778e4054d3d110615411cf9704e6a5ec01ca3bce445785ee43535fed21816c698344f3711d8da8def96806f076d;
  cs false 0xb09cab9b4aa9cf3ea43625175deb3230d74224124e6ef4d24fe535d593bb73a79e1e1cea9fe35af6232746fbc32ff73 0xf7d01ecf81a6699d73ecb739f7128e75abbda934b4b905d9e67885168b1e886d74a3bb7369ee969b96ccbe4347abbc1 0x19b361ec3cb9f0204479be2e08aaa0f6c20f610acfc248d9ee12fe934c100f0fbf9fe9ca49605ff97ede1b0350167fc5 0x1f9a492626e0b33ad297b9d777abff019504d45ad975b20918ac4ea10b6aee807a67dff2e27b340a633459d1c937ab3 0x174404d46b66c77d22c49d571f0dfcf2215066be56ca30f9cac0bf0fb1502ad9dfd7e29a17c4f9fe605b4e71c8d370b5 0x2e2a16a5cfc33a199cd11370acf39368e6ad025471018adc68c18cb2986a4398969f6d22fed0cea5b9f4d0890cdea0a;
  cs false 0x1523626c9631de48845089e2f017e30d0d7c06f26e92c70985033b5f168cd55d2895441bd415c4d1808ca2ee76d6eb72 0xd96b5de3925476bea2e9f026ee26625a1fe8287455c7af05d85769cabd758d48e2bac2f34ebfc0c6ce64ca0fb899686 0xc219b36d93861c72530ef5b1a01d6736367d6a448b0119bf675b92b176b6b9f54fde00b07d26f574223ebe52bfee3c8 0xd2dd902d4fb20b533cc64573a829de59f16494c6f48c698ab3bb081c5055e97a2863a0562e691fd2344cfb271c456a4 0x18a4374900c08880a375d6907cb98071ac403d8db68cbb0e6cc18bc544c76b2c557c7534902b41e00a348657d6bd7dbb 0x114a6df13334ebb4c81e85176166ff00208060387d18f0fda4761670c35b93588a99682e780ce6698a8bd392d597cfa1;
  cs false 0xa04ebdb32bed91fcc63304f4c592b887bbbb09e7f9e93bcefd725205c1d0791062c180bc68ecfaa4a73d3e4586dce1d 0x14d2707e6e4ee1b082133376630819d32737f2af1c74eeda20f0ae1e283189143e40b19ddcb98b6cdff65b603a4e7491 0x16c99dea6e91862740f5e983a8d26bcd74b049017bca073d08a75c78e97fc34c27c42594e733eba816f0c383837daded 0xd48a6f9561fe7f4be5618d3323e4ee0811b65bcff8ad6ebd4a3b3f3c8660b177add31a1109439addbeecfca8f020cdf 0x31f030663b7a186226da248e00963fe567bf153ff76b123506f43a946b67fd6c367475db2f2a3a4f08b0d6104c24951 0x1800aa77b60dfeec50a38f1834eff34aac49a7ccb7e7a76c1266dde837f2107d2bd8e0f602e3c2cdd68b19623e9ef32b;
  cs false 0xedc4084946d1bd7e13e29f54192d8e7c9d8ab680a5f92201d38ca9ea180c4819fff61a7d53d9af02180f4d3cd8ebd05 0x83e121881c2faa787ac6b22c948ba3d66de6ba47d0ad4da7c2d39b71d819842ff41784b1a39256d176942052c8bde84 0xd92bfea2fd53dd65587eb27f2e599f6b40792cc37afc350163eedd241e12a3a79d8db920f49c9e952872057c27b1a40 0x573e4093f68cae5e37ca231e1c201a66186ddc34b2e34664d99912fbb97e9224f4ac96770012376185df2a7d0506790 0xd947fba1b57dbe7cb53d2b3be32aa6c4c2703d6aeda5f16348060367766ecebbcc3e144853030b228d5cfbfd3d3f848 0x43dc8e1828de085cc150e349c8c13b31590f7d2de9fea85e255753faccbaa0a9531b62e9714d650e97327868fb59cf9;
  cs false 0x4463889da7697563a5fd33e4a4052b15efdffce800e20cdd1e7b9ed39bf0fa456f3cb02dfb7bcbe47be840773905424 0x12a22ca41e79621a527171a6d0f464aa77ea84a5843dfdcf4d6d0a1dab12424e08fc74ec080ff9354f08b5e90948c964 0x9a9e55d8961b69bd3c22978d1cc8c4cdb5fa246a66f236cbc1c927eedfdd1b795f500131df1b61d1d88b18e2394b981 0x3f6f04c113e5aefedd6ca7ee106f493b817211d5993d919c6865d241f0a297aa39950e7327adfe244fa3e492ef3863 0xe2fccc062d3245d703eeaccfea65bc477248d03ca7161f9e5c11e17de2ddb43f38015fde4398aa245f6a41461993213 0x37d851eb76b46bc87ca4ec0c76f7f22ff9cbf5181d27889ab1600301ff5102843ec3a85c2567540769be35f8d143a06;
  cs false 0xd412f4b68f39edc379d7fe1acb0aa6583227a9b6b2eb012863b08b2dfe8d0bafbb5cb9aa473ac67952e8d2b0457f2b1 0x4f83ec01a76e75fb77a71e4f7f7f95eb4754fd74e8319b0a4cd2b72cce911ea5799907e61d00b9ae1f5aaada6b34e70 0x24a0282fedb28c2749f1a4796e07b909f7b248b24978b610d7a2bb6a91ee02c2c9e6f6db8a3ee5a5820f32ce0844b46 0x6ae68b826e4eff3eb49802e75ec0da9c4a947db2e29e01cdc92ab22717f4b2ee0f180ecc1c5c852cb9ffd49c03e3ea3 0xdc1b98db4bcc8483e228180e5ba0cbae79bc398accce5c727602d811d0e5b4914dd982a83c5c62f0f442ccf3f767f4e 0x63e4ce420e22a651e499e180174d334e9a5d4a6d41ef7ec3ee6e5aa7fcef187978ced8d918a65d2560163009c4b6e6e;
  cs false 0x18c94b64928c283242284552fe06fd1d7d5ff73e95df2f6daa6b4fe004c8d6049ce74d38dd0ba0bfe8b344255c835ddd 0xb6100e7556cf627198b56dee75b4e30ef2694cbb89eaf23c79dd0c820f608b3d57ed1098eb4bd186aed71d5e184d8a2 0x1b21fb068d875889e618bc5653cfebf7241bfad54b23f847fe4d200aefb358292a736b42a6c79964d9bd72292b1df25 0x3a6425a3395b7463d09879dcbac0686fa33cd79b92758a4b2448ac19a61a31a50e069d114de29fb1eb379a067336617 0x1001f71d5469a78f4ed575f8645475ab401ab12cc0cc36d1b5f5632e221da6c41d12f33c8dc3faf8714ba8857e11f995 0x1053cb8c011a3d0763765f32555d1886600ba917a16340e0c1d717c4b4741dd5b8f24000cbe49405613034e4548cd231;
  cs false 0x13793eb0a5989be26a7e04aaf5b55acd4e771a9982bed4d7c81dc20dfd6b724f01c7e30beb33d8c02674a8407c74867d 0x497c61daea075476010f6941316fb2c3fd4d133bedecd258556a0705f3ee9546b0f6e1109ff39a8ac161ff6ac2cf9e0 0x138d245f5d92d732a384c4e357c7ca29ab0cf27f40af4a56af3e2c3e718f286cea1b30b7a07afb02c90f6be8eeec6181 0x1022a56922656c6337252317595aba6ce1e21d5dadb05ead509fb689f1957889ea501c604b9516ea4c530c84bd6d975 0x1511391e2c28fa197e546ccbe7400d0a6cab5de86bdaf9688f420921243091fda287b098c0c97b7cb0ef9f49f57e45fe 0x16b41766cac1ff8705a0cbb0d9e4945e04fa2559e24d6cc6d6313910fd12c92ee19699ae7b4b0ca9806f69b353c7552e;
  cs false 0x1430cebbef7d10ecff04ac8ae3561479236052af74e4da6f04f4d133be58672ccfb0c58c0a927fe14e210847a6b653b3 0xa00951295da08634c12df0c9de83d91c39366ccc3ccca86f4654893b7e53cdfc3d9dffeba890eb8b43c609ad0cb440 0x9edb478c962ea3920fc748f68999bf0840a3b166baa3d32e5972167aee2d52c246eaea43558403a0cf850db22ff4e93 0xea5a1d82e635c26d0f1caa983c205f9d0d9bd69868877f0c6eabd9f781da70b228e634eab64e4ec723e82f967e056ec 0x16d9c695620a889053b60597a7c365c6b0b7b3907922502f867f0dac3062f98205bdba6d715d2b6ac5976b85c4251fb5 0x177115414492e64161efe45089d8bc148ccceab22a3adf4af717d92408c67d3808875ef9633b8792bfb373ca54c971b5;
  cs true 0x10b53a1c9b8acf0d44370e59c5290a2003e71c563d7c31188565c719e022d72a58cd9adc4d8ac51f4ef94f1ffd37035d 0x5ebda7373dd1fcc5822aaf683c520625f09f504a2dd56b25f766d6e32cae933d1446228761ae5981179bdaab65d69e5 0x9bb3d887d858b6d00eb69529f83710211e29a1335a6cdf93f97c11ed1f696cbb820a650670f200b704e5db54261cb0d 0x4e49f48cdd34bddb611bc739c17826e89f80a5c1cafb8b3c1965a0d7e49af95bbf3d25247c905a9978241f6f0c1e21b 0x10d9ccb711ab91d92a54052332e4835d37bc76118d1015a6b7c53b2249e3deae3f47df1ea5f081884d972b7065ab2beb 0x58de8e4e506db88560f17f42aa6a351050321429bcbe4adf21d4dd006abdd4572022b1864e0938cd6a9c2a2aedc6029].
Definition wTabK : list cstep := [
  cs false 0x10339b7768c92021ddc9ec455cc0d557a20639a8f46e82c1310412993977e215e9f6c13e5fee75a4fb9d29d692a4b56d 0x64319c09631f1800d78af3f0e1bc62bdbacbda351403255b7f41124575d7c9b4bad26c6d5b09155a857aabf94eb2d75 0x66e0c4002792147ed4b53a84b5923d97ed24ebdc9daa36f65105d5e0367fc83cae44bc5995ad3ee4e07019b6d1591de 0x10dbd0406f037856dc955ec50849a427a07eed88c2948f45415aba2f343ba610e1aa8fd658ca138125732605a79b78b8 0x8b2cc307559cbd8a0ad2444c5b2b19f3edfdfd544738cfb49aace2b70d6983f2c5afcade4eb0a694843fa2e8b421860 0x5fc17c52db75fc7e5448319a324505fae0f14afe258235989218c5162f49aded4146d2783596796a991e37d2fa42a9c;
  cs true 0xacfde55f3e1b7ca6d86db6d38ab79acaae6e52e0dfee73fba653791792ba039bdc68564790c7a4c555165dbdd05a830 0x92016fd74c0cd5aabdd93d6992df7374ab83cf5aed37f0bfe3dad2ba9070aa4ac3e1ff4eabe159364ce018a1a611f5d 0xdc6946cf941a8ecc770e50933d3b91c1a9dee1b0bfc867ef89a6b4f8f7f1cc08bea156c95812479a196369a8039a78b 0xf80cbd231c3eb5dc5f45c475a5af619b1ee78b433610c170a491a5fb7f4dc0ff6f6d0d63bf0aa0d1a63de5479a7a2b4 0x7c920168d2ec2d142022d0ffc26c22595dfb686476873b337410cfa2e28b78335d770f73c2455f2c55b2b7768c157f0 0x3b9b59e113335fac57a4ea7cb01790675bb3d5173080ad18c85cac844942fa1398c489784ebe3762c3b7b17b4fe851c;
  cs false 0x12efa2f8fe3bac8f473eb6dde97fc7604b2cd7dc05739b7400f2fb61c9ea9ef138f2c64a3b143a51f93230e78d0a59c 0x189902b8dcb132bb52a8e7cb0edd521bf9f2fcbee7dc2b9af4248367afaf1cae77662e247f4b2cba94857483a146535 0xd4a06191c69097d8054594242f5efb59816d06d9a896737788ddf7d3e2ee1e672b86c53144795ac0650a165b2e53309 0x10fb77a59171df127a034c29e7cf605995d41064bda9aed0eb17b682a1aae531180cf54382626adb538f74781c6aedcc 0xc0138932cc3091dfa1410aa2ab393197b5ec9ffd5109b86f6e566b5c3947421543c1e94f25457fa426345e061ba1cf4 0x35f429c4f95ba3310abf66e875b7cb4364c38620359c1e5462b34cc87700e051d597fea9d43525b6ba512876cb3aedc;
  cs false 0x26192c978606cf3a7a81d116a841b2373aeefc718b1b6f6844d29d88e3d5fa1d5e9f139a1d2deefaf334b62953ff379 0x549e8c2cd2027079530f038a4d8b0e11c5fd99957b87de4c6f604c2998f690edb14d9f17528f0ccc147552c215aee9a 0x14b94e8ef42447bc86480e15598cfb611ab4a063286b8304d490580cccd82e6bc3d2dca2884f5eee584c87378eb50179 0x3e4a9c91b9c4e59a6b035e873b326b48a5a98178624b933e4f7fc8efcc2aa80a14d702fb507369b23ed7f30a49e9bcd 0xf44fcf99fba2e48d05c427142ae6a80f57aed033f4a8cd36e86983b4797e199c0d3ae83bb622c34afc26100607dc2a2 0x2ad7473e2af090495bbbe6af14c3551ac2e3e515e62791a6ecda15c2c934086bc93bb00a8c0a1059325e2a5d6e505a;
  cs true 0xc9436a59653e176a8a83186fea539ad92886a5d0074794ca6b3fc5d5eb59c66b178e70d0322c2040e96f1ecbde6860d 0x1908cccfbc1e8e89f94bcde1a53bd57f009ca4dddda0525fb4f88a4ccd98965de037f5e907c5b65bb19de99250ec85ad 0x11783189909a1550576c378aa9947168edaecc498e3dd9d95b79a809f31a36524521bf5fdd0fe7051f88a5db6c882223 0xc5e1e77e5b3aa0da297be1ca660d7000b7862ad928b59918c05a6747a9a769019dc317ee94eae10a9f76afcd7c9d2db 0x8bd55e2f030485607257b97a26923d1acc56599aafba517f20ad29dba4e1322cc17a2b7c7a91cce7fa369e8f54f14f6 0x624837b2d3ddce739de1d2228f3ec59e69e549d98a68df789491b8abfd3420a653709334eb070a072dd33135071d1b;
  cs false 0x33e721851c6ad29ae6ad6bb384720f0d4aaa92f2a08b5912eb859e3c4964c7da39ae6b02995d88fd80a17dae99e42b 0x8e58bf63110c7025786d680d1463a155a56f654a01142b2f9f35104214da34454ef7ac1b445c6019aca5940c72d91c2 0x7bce3f706317ac440e9919fb4f2e1a0b9e2c158e2d681a6221c51cc4f6597ce0c9b75ba498e258d657dc61884ca562d 0x19affff8462933f1479899723827c0770779c85cc37ecc5befd13394a0c902cfecbd6c14e6cada17de776e519216d10e 0x167366872be1f10a8e2df8e85db803e300b03c36aa0a706d95c80a48c7470b71ea23229bbac3cdb15a95107c61c76083 0x105c376bb69b2ea335840815cfbb4601d6687a755705d615347b2e5104b54d7ae1d4acc965e40a3d14aa532c29f1702e;
  cs false 0x549d2bd2ace61ba65a464df8b8bef7fa73c486d9806312b5ced3279b4433bc86d3223d8936e023de8c0dc5dad31dceb 0xd372f7672d95e1aea118655c79e6268f202fea40d7ecd191f002b3741ec969b74bc33b0c162e0b90cb42039f4e267a9 0x9e6cbda8a4e209c4f791f635c43a0ac540049df9565e45d1b92f6e5132951753995978d3dcb79c680099b1b4230f848 0x1acf82b032c76c4a0d05cecf23885fcb68439d44b7461773f6a94534699fbee6198c669b5acb3b94fbb15b4fd6f80a2 0x28a4faa8ce92a6c6972a76b51cff498a94fa955161455a5e3cc31463e03c8434ef8447da47a9e5b0ffccd74c88f211a 0x15900016063ec61d2d7b84f6227e30fd65a7b46357bddc71ea16c029c009a4000cb9f577f78bcc9fa87be3be848ba73c;
  cs false 0xf087b9df7962b69d6d5049938c90e832d29d843f8febd0ee7d89f7265acf65460a7d31264c341ababdb91aa1adb9aa 0x438eb77e2fbc9e40ba2761507eccb6cfa042753cbe3a8e96fafea664b835bff361112b84283cdfa4d5cb89a14917e55 0x18576dce1ea94280afd20c58aa652a62d0cf1af231f68d22bbcea7d2eeb513c25c79c367db1fba65763baa2792190089 0x93e4a6891d45f168227c4c875425a1f4dd7800698c5fb2448c9c18fa1ad7b981aac3cc336f937d310671fae6550605c 0xc5dc39dfa5ac9a0a913b09f6cdbcfde09203126f4cb0231819778b22f5cf7f12abe84cc2bca10abc70dd2e2356f0b6b 0xc0aa747a205dbfc3fad2a3ad0b0a41720bcffeb0717ddef7574d65fcdc42cad6ea11e0cd856c06cbbb70ce50d1c6828;
  cs true 0xb000be8750bd409fadcb254bb14c2b6c4c5b6ad14e43dab117597f60a19ba0769765bfb98d3168a1c412f8ef6aeecf1 0x181c4518939452e6780348f30460afa2ce2e591013369167eff18d95cef77c4f96cf570bbeb4edfa14944a3e6f9c1861 0x152a64794fc568f3a54693e1ef10ae7c6a193545156d2601143263cf8584bd77c93a32e5745b0ec2c3ad5ad00a93508a 0x5474c6b71e6041abf67bfef48dde67ed1ddfc815e010a63d8b19ad8809c64e2b5539ef1e9046f855e8ab1b7c057e7e0 0x4799657819c5940e71f4728c6765e85e454b8ab431a0515ae1622ff188ea85c23673b22429c7d7bce547f8d677e6de4 0x141354da2202e4a061a282603c9d288af2663fb990854dd38fd703ad8b7aa7b6e3fcc0347c1969d1fca0b2dd1b39ff15;
  cs false 0x177838263865038ca98faf8a5cd4136c778103a77a9f9c00450980601ff645122c3787e9610a1921a10517ac1eac46a1 0x5bbee15448d31f7192ef4a6eed6955e0902c7547779023f9bdfec2bc79a00078bc1791432235fd52dc58c2080d8727 0x1595d5412a5294f901b6c8928752c53c2d6074e5d42017effd6652758bdc0afa6f53286b2db81d6bff1e44e4c1a71a69 0xd6b4aefde917cea3a772be6fd6f0a0178013b692b3fb8bd45eac339357d34d4359d443fcfc22b6250c6f69d881f1310 0x12ca26ef803592f4a92a305641526eca1d32ed6358337555b628016ffacbc45e4ad1c6af41fef373f41a5fd7d8864209 0x1217d6800149fe5ef688a4f08af1f41d7d6493a382bcc7596befa1cf3b89d6784471a19ed2c2c1f8017bbcc393e33a9f;
  cs false 0x14a515dc261e1ffb7fe8c2d795202758235a89f6438a1abe647341d944fa97f04c208058e2c61d4320a9a4664f2b6ceb 0x30771dc7fc25f4f2ce57c72dee6ed6b5a81cebdeee666eb7142e6749378b00c09a7a6b75415d8d7188567b8b48e4459 0x196f0d3b112a13c3b4f82dc6c1991973daca562d4398ac0c22a03aa1fa7a9ebef30816d0de57737127b1149b98f6a38b 0xd0a8ba9b2e95303dee7bf37414ff07c84a7efffef1b31dcb228db12196752498761463282918c53876edb08a42b001b 0x14cb4719e975696ff8076fdcff89f7b0651c41a44599600f1eb3be3804cb772efb47a18fe2728ce7df4d9e54796252b7 0xccd5c5a980e21514c14f2258f08bc787fa68d5387af127b0c231c19d78981826a3775a2edf722d42b9f23470bb11fbd;
  cs false 0x7ed46d6d8c9035e9f5b08eae482e3b79e0008c23b29147d8d3a6af87cc80af3096c5e52386ec427a267ed81cac2747 0xb3107c4c7f7753a8854c25290c1b86c2595afbea490cc8145b314a7352647e0c5e9999c4eda8d343bfaa6a7e6a7892a 0x104dd7264104dd69b6d0b2a90076590d3c63f0a73e4fe7a93e709aa2dda5f42984623201e1c40a211c2c73860b3d1af8 0x450ee285ed594563c1172fac4f80d7e1fc1590f4de48b43db353bb23785dfe6d16a00bcba7ded5b537157fcb3b760a4 0x15b32515d4f0ad277561ec52a931dcbd0dced201559505642055841373a6d73e811acf421aafa5618b6f4cef4c8821dc 0x9c7671ee2486d1aefe3a82c70ef580dbf6e015d6ff3c3b5fa968755ba030bb85b37da3b4e67d386eab7dfc5037fae53;
  cs false 0x17726834b925f1a0f05d2bd4ab1ae23dc344a2c8a449c5f6bcb7268139fc7c8c808d7c247e3ff129c52bdfde73099fad 0x756d3d2548b0c84c648fe8ee789c38b51e57993da689e0f75067ec267fba0f0648ab58e2e0e7a08b5b1cc0cb82de9d4 0x898e28a03141112f4a44c2f66d6ee57099ecf3d5c83d4e72dbf52f0292d91d6c80c8fe20f08cd9db490500023047ed5 0x5dc4d3301e26984e8f198460bb9c79e4ca300b8337cf8359a4a0ee4730a526103f9d203f9a5406ce55fc8acc48c1b31 0x14bea22500ec0e444f69bae16770fb90c846dd5010f6cc50621c2c85ab2ec0104b25ea36c5a5e223a3e0650702858e3e 0xc3b73ca84d73ffecda4733ec967754ff39ce7086986c43df757c6a048db9b488a129daf70ef5feeb3fb7134c6c76619;
  cs false 0x4b2a7f839206096dcb9224d4c5e35854a86b632d72d4ea225b4ffd3533c8f5731c90a0c2617251ab548196e3542422b 0x60ab0b9e5acaa778ac4a4024dbdd3f4a2e17e1a42caca66ca7c57f8f8c60fdbbf7fd54b6d791940f849c2932af39794 0xc536c2a45c0714068bcf412b1d314bd92f1f2a82481b9e3f44a1a164bfafdc9cff584aaf1ececb822fac902dfc5fa5f 0x11cf8621c4863341f5ac5b96dc2874dc4e4668206ba13039dd39ccaf2a1bac66144a773bcc362082d72e5df7951fc7e2 0x19d747e4ec60936588f74682e4b6baf60370ba398f422c2ac9b441c54d8ec581169de115a310851a70d197b4b9c52082 0x861273c8303ffb8c59d877b78e0f27c11f46121756bae612856a7d2c1312368c545bde887a6432bc1797d65045f6653;
  cs false 0x60559e0cc945bf35607c7a59203482907f0857096f68a0149194d461d3345a0ad33cdcd37f5cd8f51f2b12fac982a9f 0x17d0eec15d4a1a636b375aeee71958ab3e73f0fc2ba76f7347259f84aea282c7551be7ae8466bbda9a6d332fb82c618f 0x184193b46d17882e8b13c3d440d66dae9677a175b1a568547104e847f6c78a48dbbdbce8b1febaf0142d543d2f8a602b 0x2d015bc86029a4bea54cef572f29b70ceee3aeb7972afe21e92b1a1774b312fd86bfe3195d538305029e11f072c7307 0x7d61dba24f744e3c16bc63789a5d770ae00722a02fd859b281bbc893775bac9a594093bfc44f2d9164faf3e1c58c256 0xe82bc6b764aac6bd95774fb4e5d9d1121367d0b10d2db55447e32c5fed02f213e3b3d0232dc576ae0caabbafca89144;
  cs false 0x19bb9b24deb0ac2ce64e48fcf62a5ee8be93294d9d36b5f6df3d75e5ee2c7425b125b09d7a66a83c67d762358888a6e 0x9894e1526254c3904f27c179eff312c9e06eca0348fa8e0e94fe56bdd63cb63039f66aab9b9f9dd23db320b609d0e65 0x39472d1e60efce79abc98f1d125b5067511ae6d862244f6f65a78da10b2ef24a2eb9fa257c12cd22f2293dc97d6f315 0x19d7dfa0d39d4c8a9d9a34856dc005b46ac31e72ffb94122f2c9a38dae9b16373238f30e6f8c1def96c75af1b304eef 0x2ad00ac8169e8b1c4b4acee7fc9b4f1a9c98af6da657dfb282c9614f8540f44a2f7beada511b660e7c64b1f6b640f26 0xf95d65d3d48cd795779eaf0c6e0c1f4e34447bf2a5be32910548658ee6d808d3cf089542fc5914a5ccddda51d5ce2b6;
  cs false 0x17c223b864a7dc739194ff7f6e01fff90306ec4440e6a92964cd61ad37a5771b0469d7050977c94509933122d7c77a1d 0x32a7010f0f058ec612f0190accfd2b44acb2b16a1e6aec867a0232a831c85ee5457c5d1b6819374d4cbb3083e80a59e 0xcb4e355544468067d0fdfc3d2a7bd40ce952e3f99974ce1ed30a8287db2c590326aedb46f4e8a69a5934c384c8971a5 0x1990730de180ad7f04435bca4c9beaeac091353b9821feed159a443cf6862c4ee401a818990656710bcd848b589291f3 0x37a49e840aed04ae434e117e8461e58d46534323dabd4cd9f2253add71d380bcfa5a949b276eeab3202bcbefce0ff8d 0x182a576baadfb97bff1fe6304ee889da096b90f5f2977ce401e08c4ff31df5288e563b8907e876047c6d14fb5bc98d21;
  cs false 0x15f6e69b9774b3053d165c470aa14e601229282dfb29347d7f4330a17c85d68ad37b5ade93832e91882148d359c21b7b 0x3e031f8fc5f5355a3774d43df6960593807a07c8fbb452fdc61341ee6fc0bdfee46a1abe334bfa298bd3ed942f05809 0x9238669c62fb6f77471f5c219dde589e19d8ae77b15a5feff1cad311be0dc9af197efe67dfbd597b417ae16c72ee013 0x89a341d060f72456d17b9079779260ba429a5e28ab90bfbec6f62e8a618a2233106a56edf561d644148044d3f97d086 0x2798b464411d15497dfa58f07edb8ce01c17fba30119050018a9f70e23d7b229e096cb16e46d5fe0a349af73403fe6f 0x185b26794a6d4ddd41cc8a14ba4df68fd69f5eb9fe64e1523b38020fd84db369a89ab00d619a816318daec3fcdf5e2ab;
  cs true 0x767a0a137dafb2968a2c106e9bd772a6f225558b66373d682cbca37a5be60a4edaa80c99652d722fc104336db2fd04a 0xff2bdd114edc9a3db63e8f4bb44cec532c05860dd20f1c75b0b04630c236132c009608e50241b5dffcfe25f3737cf1c 0x6bfcbc287200f349dab4c786fcf394d3041be4e0c7e6e6cbd1b786a78f1671dca9f7bd94cd9ff8578e09c13c459205e 0x2937b99ba92b8468286de9f046916a7eac4c651ddafb785ec0acb43801d42661f653d531c2669b0b70eb75a15d04d59 0x19a9eaf7c6b9829fe6f47917dd28f7117203fa0b3b38fc6130b140fd2944dbc9a9b89b2df281ca0fa694138393202247 0x11a5b7ff7704889b3bdffeac667e9f0f207515734cbb097ffe92ff4dde7a62e195e62ffab52ccbfcfad57d7ec1c87d97;
  cs false 0xba4aaffb631dcda41ee0aec02a5539472888be30272e9d54511811c7ad0d2de9c2fc56298fb5596f3e707745846018e 0xb7b2d035df63a27ff9881ed4449d5291119c0f3b26f98b07344b1456455e9854208f9721e97baa987e18b53b6c71871 0xdfa48b24444eddf5e43bb766b0c4c4f74489bf08d158472a4cc50774504fc2e14db55d2e4b40c688c9ac6d57936b53b 0x24c14c5d4ff763745de8d49f0d71d8d9901265cc30b2ee9a95d9b66b3021bd661b90178042e2bebe8e5d1550a563ffd 0x75bb12c7dd9f991fdbc0c4dda6dab326febb33e8ba2a649ed58046e43120fd68bda9dc7eabcc815e096f155ea36668d 0x147c4f2c88c7d974e9b91f5589dca0d49c697a7e2dcdecc85a36c65fc44b3afbcb11949e402b33faab3eef764d2f719;
  cs false 0x11ea1bf1c54c06e4283470c8481f7d0238ea282ceda7cf947d0e2dfba1e30e1449bf100be08945c80ec61242a630ccb0 0x16141099aa6f3931e830c68ce768b55289c07ae5b10ba8eff201310beef8a7f281df3a20c15b4323ceaa5fc49c4b8c51 0x92ef12956f38829bf8b87fd083dc9def5019cc32388e4bf0de0f431c6f793564ca4bb2bf96e0ef1a7ca9be3fdd0fba 0x1174d6743f2a9196942c94a7fd14d0e2e64a9849e1e2050faac27d3c7459df631b2f7eb8ca9414b61139b14e87925dab 0x1390914744c396ce514383449f4bff49702f5ad73482827759b826005517ef9edf3568546ffc368c84cc61d7dd6e76d6 0x17856b8aeadeb0df4ac6b4151afbb8197cab94a7c9dd169768d3fc1a4f0230b5d85faab118c60fa15a1aca9c8e4d818b;
  cs false 0x18b5eca741504ebed295dbe40b43cdc5181a539252c9e533f6500463d7b118727b09864197e6cdedd7987d6f216ed477 0x18414774a9b5281503b6fa7dfbe36251d94fa630e2482dba9279f23cac31c952aac9c345ab97c1a5533b02d4e493a688 0x18dc1c598908b5b851b33e9f7db203a17a1fd01e6d646fd020e1ae80bc9f3e8e351944cc74e076d995ae184276c4aab1 0x1b860113cb52674534b952e9c0a22e55bd12e8b2c5cf0cb5f23fed15e680c3a5cbbdcc5cc8bf1de561411a17c7fab65 0x145880e54a54b993a33384011df3fd0b94a28b0cc23ebc32a094c7d11f02d9e5a9838924548d683c8882ae178f6fd5d7 0x7428788ffe276796ffa8409e05023f108a044bc03af5f67355bb9faab878e1d4973d702b470b17f81842e251922e840;
  cs false 0x2304f1f97d56b83ab6fb75da6bdb5651a8ce2edf09e5ffa6b593c871530d38ec9016eeb749c01e2f6ba860a48accd22 0x31b61f04ceaff0bd8b81ae31d7c617d09188fb501c26833c5a68e301f8921cea2071129f026e29f595c7397ac6086ba 0x137483d7b12020aee51f49cf61442f2f9b57da5be43fc81bbc1beae3442b10bf519e9413bd36cc4bdb563f7f9552cf52 0x9c30050eff677ea7abaab0b5debdd1845a126c3a5f68577e960cc90f55bb019c01e0f57e4c5c3cbcb5ae57d88e2c80a 0x5e020ba686887caa40afed18c1a95f74f0e0c36d8431dc5358d76b34d9e041d8bbb64e2fa265dd6a6c5989817a2df88 0x120a1e6bbadbc0de1bdd40aba6408b695c8717eaf634fb73fce932849a47355517cffefe9238288f0490b327481abc56;
  cs false 0xd9e32fd3bfba808ad5561837581b5ed6715ee873267315728da7e0c45b00597a56d7c76fb3902a8eb3c779bbc2bcc2c 0x175188d44973ec0c1080ef209b7cd75c683ef79c70d0d7dd801ce9dfe26544c2ddda098d93b95eb3779799bae87e5dd1 0x6c3600a043e1178270d1b56a5c2ae916ee1383c39639f836059435a869f039ea2e08ff55800bf667dd245b18a1fc93a 0x18d836198965c5a935a8aee2752cbd481be437789fdf9e2e57212ee173c1daca37b09210321cbdb85b565b85eec248df 0x103777b1be8144edf30b11087a8de7bead2d0d000995e7d657286475e3b2b62f3acd2aa4f2378ab48ca9dc12593c71bd 0x4cd80f9acc226eb781d3afdeb7a2e5438e503726592250f09707f55e68d9e10dc7d3f2d5b210c6578e4ac4728bf9651;
  cs false 0x4d73878e0df358e2e29e7fdba46979702a5552d0692180b6056a17dff1f28fb9806a285d8ae09918841fd14650236c 0x13ed9a407c6f0b84aa74a5a1791edb0501e7e9f80fdaac551144e79efdf70ee19657d3a5769e59c99eb4dc8661d5f546 0x557762b391b06b5f83f61932efc47826b645196e34746d1ba58bdd517b4c17cdb89cb31ae5aec5ecd0caefbbd8bb61d 0x1588e544988cb0acc154046db16e8a55ef14ff477d028c37235265e7886eaf6a49aa3ac85234d7150e6dd95c90a5134f 0xbde71bca95363f4c6feaf263349503096344c30bc89e09aa297b0bf1bc6b468c517b1b927ef0c459583a4a222e969de 0x1822549f0ca16db3949fc88109655585e651cd05acfddc4b41bb84484814a108f0d75accfe252b807f84b9962ac30a4a;
  cs false 0xa304d10e46f28557f6df80de64c19f996a78a2879cb1f2fb99618d1b4913937dabd547d50ec13d850d3444d849597b8 0x235a5e0d9da80088edd45b81f921f54bfc25ec1655a1e35eda7c49deb1ad865b131d3816a80eea5672520468eb621b0 0x13b09966ff8d8e1b170ecce466f0a48754301d346d26354fde41fa3ec0c0511d5495c81b6b1a53da498d81622f056f85 0x62b16a1b1c3a6ff468d578741ebc09b1c69bf370532ea8a5940a21a193eec39e364766a28438b468c89c52a7b90ad5e 0xf9044d5ee07a57f64b40b8c39ec0d2ff8e3fe3e650d587974a519dcb7a21165ea664e1ddcdcb3a9dfffeacbb33a683d 0x13384b03e345c104f55d803c9dc08dcf5782309373ef9e7cf4f36975d31b92dd56b591ab24be6ba251217c687fe7429a;
  cs false 0xcb9eb87beafc496a00814bea3d7150622eeb618ffd9cf92a6a18cdeda98bf21db8141302ded0d45a5b7c5d5a760b0cd 0x763166e1170fd07af973ab8b7fd179eaf8a69e51e49274ac7c7054073c6af8cecc068ed9cb38a489fb0ca4a79d28583 0x3141d477f2ba7eed7e752f9172487fd24caabcd07ecd7576b7e9a8dee44ce6b20c0332232c4466eab6aaf9140f7db55 0x108ab951c82fc98a10be27f310f1e8c7f9197e09b56e97b9171137e152eebde2d3c8388f049abc3240909a632c70404c 0xc409e6841ddaef07ec37487f929ceeb0592cce263798fa1a6651612e57ae5922568f89b42af1736bad54f848a9df188 0xf50ca07be5cb46dcf85cf5e5481a305548b10cb89589422153848c415e41b09f5effb6b39bbdde6b4cef90fe75e1789;
  cs false 0x12e8be786bbd0b991b26a2239fd7db5dbab9c176982a1ad4f640b3a48d6f8d2c6f06d980d5936ef4a024e120d02ff0d7 0x1090f56f32b64c4ba890d6950f731189b2f58db27d05029ba4dbe0862f2437f07dd61cc97043b2b9c353bf693fa34160 0x10184070e81dd3051c2bdea7b201bc3e48284afda54bc9ebef5856493038c0109a618b950499ca7b41e2614d86ed9ca 0xecd84983e328695f5da539de7f0ba1d7ee1a3de56a38d0a89d1706a588a3d394098e17d60f36a5bd9e3802042a2e5ea 0xec1f73ed38d7bf0b640d25865179faa3d1a7e40c31a1aac6730c61f201293da2b48f2bef57c2bace96f22e780051a7e 0x3af6dbeae60fd449b8824bad9b9dae6131c407a007dd9a232003d01968d1a8c0296703cb8dd31d4dd6f865d940b4e14;
  cs false 0x62f3d183a24538604daffd3493d121b0ba6c9633c81c91c4a389617ed06d7c4e85f66658b2f101b342574c3d4a654a4 0x11a2069d27d13e834d7ed9cb67e1b952eac77c97d119777d93f3eaff435422ba17682145876ce1883d6e18da2529d29 0x4b864e8e33657845f8ac196d9688bf12ccb14f70a86eb8f8e4c7e73dc9558dc346c5c8b54253e202ee1be5f6a821e92 0x1737ddf948ae4acba796c047e6ff66412e69a2dec337147194f66e2ba99e53bca080d6f2c329de35310790aa0b972fef 0x7212789602dba2ea39e23f1d6df4f6f992da956b3ac53d078b9cd73b293650a2e8911be9ca6a4aa3692b089c5c5e5bf 0x194d00daea137702dd1b4a8640ad2540fa1295fe57710769413cdd337b20866951a6baf08be1613f935342b742ea8ed0;
  cs false 0x60056d4d831e8fa6bf973245226792d20cfa53f559d2c2313601f2aaee1baf5599ca06915a1feb4267db597ef4d0b05 0x143c6bb3f7ff8d372f30aea6485ed41d35f50218cefdf153cecb750b6f9073ccf6cd31a104ce0a80146ab45283721ba3 0xfcba444d86b40fe2f3abf5a8d76fb471cbda9c6694e4d4d626dcb424b2213c2aac13c392b81ee6554d7105df54e150b 0x180578bb2e3ca344603ab8dbb456a7569f981641648dee3ae96e02cb574df0a3503504da2d3e46f834d11be828648f99 0x25d3f4dd9fb0770b82a0c9b4263016424e5f44e23bc614ee1f13b65f55e7e7692b6916054635bd9b1b9eb16f01242b3 0x37539f31b67fac48254f0c4065070acaa9cda9881e27b60cd5613d7cdfbe47eceab6cfa88cd52ef6ef8067f356c7cea;
  cs false 0xb9cb6caa2e8c3ff4b4ad68cd1f71433f8aaac1d8c68215adeb76aefdd710df9561bf553414d38842a72b88b9314417f 0x116beb658c1bbad2afd61a78ce9023291dc1ecae09c10c1be84e6e2d7a9008508cbb17cbdd7ad41d55deee30602d509a 0xcff5ae4ebda82f2598e5ecd38344e60aeed475ba28bde7354d0ad4743b2176781339ae6671f8fbd876f7b0d608ad5e7 0x16a42b78a6dda8192ca1f3a3160645ace150992bb1f56304ced0afa728fca32586d0e7903f4feed468f3823df13ee1cb 0xfa5a1babea21cb488785bb5931cefcd446a1ec08e0406a5c4739858f02f0faa5982a0ef9be1850604fb0f29617fe324 0x10cc450697ba51856ed8826c41358ab21e0d61e5641011d17fa270f76020345c733f10daa4abc63b7a31d3eadcfaf093;
  cs false 0x10da6c29871403f51956d67459d7980a4a471461af79cf6be6bdfc5e64abd6baf7af390656596faf2757309ad7c027d4 0x130e6c00d738e9d99138fe33522c8b7418cf3784ea5238c427d253bef463a54aae657046146e4a504e5958400373790e 0x12c3df8f28ebd9e968ad768f83e76a27829a8ac3ea0775bb0fe19ba6db722b45da5c48bee84dbda36ef82866ecae5a67 0x11f6060e837fadb66323d9b16a39a129362c78f988bb7b977f558275ebbd6b62292e663a4f621ec1383491ab96ddb24f 0xc366f36767b2483c2ff8fc1df80f1dc2279426dbc433a40974252fc8293dbc0fe176038965cb1e1476dda69e38b1057 0x1288f82c4ade8e9e2f175b624b98d34ce9d17264f93c5e6cc4730867a79bb206097edbaa996b2c93b6dbae387021196a;
  cs false 0x38d2de1f1510f99d6ca2fabc4d98eed66e01e59d632c3355ddd10fe6830e0274edf53a5f838c1579e21c5b2055bb0e2 0xacffefc92ef167d51a8a360541556dd5f4a39b7df88003858d785c255a5b59a3bc6e311ecb2025d9d441c05a2361c6c 0x11b4e92142144e50ec0979c125c937ede3b52a851d533aa451b11886ded4879f12c8ad50d4cbe7a7efc1a10b79d9c138 0x4b6115ffd4be86599ae86d287bd18c58bb2d27796c44d9014dd4f3f9143a3348700b7be5d91c0ec844921a57f409f49 0xe173fdf5801160cc8cf0c292363acf1659d1307656752ca856a93bf65778dd6a295d5f97de2b26c8e8cedf961395e8d 0x562352c8720eb4411032b1d79540f08d409a8ee9515ca19a0ede4d08c983665c2121104f8650527e8018f092479b685;
  cs false 0x1951a4d90830869d891bdb18ce5f158e6741efc6f320398017721b6711be9743a93189cd66a823d91fd4e1a1686ede27 0x19258e5cae79cb58c9c4d9ce3fc1a6fb3431414ce610f3689de511560d6dfae776835b9772409dd9a63b477201f1891e 0xdf082729826f8d86517e0e81b1fb34d9149a705bf449f666b859d86ad0616265ae55191270c45ef5d6ebeeb05dbc492 0x1644ed227dcfacc2ec784b9a92939ad69fe78591402891e943cc396765710b46653ea4a92615b022661817bcbf8eb0e6 0x1641b64422ca62a4bd40bf65441be977c57f9e6f94ee8ee790608bd717354896b54d5561e9094ec5b957fc67c6ed934c 0x7caec19e0ca22c005273a68791e32a1edc68a8affc93ebac35100db9989a102552583a5e513c5f4b729e5095126ada5;
  cs false 0x51f3dda4aeb6526efb7983361058a8103835b02be1b753290037e47352b5bca88c47a4688b1871509908ee1aed4e288 0xd8bbb78542d203616311041f5d9b7d9811cd1bdf41121e40af1c461bfb57cb8270e5fc5a0d592a8c32701867a81af95 0x16f36978a1776470dbd8523458e10206b7e2c0a5097eca83e40ca174cd528fc623b15ba2656ae8e84565042f35e4ef31 0x7a583980c87a9dad2a282e3d53d2c35230322ae0ec0461588e94356361c72380b2f652eb0e6ccd585646d18fb845322 0x458ef9e549fac5ffb35d6cdfdc77533fa1b9c932829de77dc24edbf75e144a6b696ba4383f7a876f21852a390f057e2 0x166f03794ff2b1beb96233918bb55f3963576e8520f5197927b4dd9db47cd61967b4df1d2b60cee584c7e3f19a9159fc;
  cs false 0x5d1d0b943e4527752be8d40343b206b186e1376a47cb12581030e99f329f3637905d499afa073757c8fc9cd8c5cd0d3 0x7e19af2c52abeab452ea347222556e4118f09fe57a1435fcf81e07fecf3df9f5b8d14a48f0e4e684eeafbaddb81a63c 0xef9639368ae7ef063e3f912a0e6a73b18de0b48f66097cea7196dd10c2e49212a3332c23c6ff54b04fd24641681cefd 0x2988816dc3fba24f910c0c9097109cbf2b4d9e3a4aa32cd8c0377f5dbf46cfa8feec05e510f830ef447b76b2c278300 0x58d6c63f9d1d7c3acdd755a963a730c493e4a2b1c90c36dc8de68621acbf1a15b4854412652205112d09958e959576b 0x15fcc2015cda693922660abca0f4eceb56dd3a3e33b03ce53178869ab6bcd13021381fdbe17edc6ee52f2acd9d04175e;
  cs false 0xccf55b69d4f1d2025dd175e58aac01217f4f59e4bc99ca22d563d24274803e4acff806d5b9ef8a50d9d26d853f6479b 0x11cbef270f7a3ad047f6250c576da6f37489e02c09ecede476a0b0cb021803bfeef6bad6904c56af02f81fff1e547db0 0x187f9187c9f4542df70929ef8091e9b7861ad17f6de799949b1ac2b4e5c45b341b3db54c20e78607c3c0e919cf239207 0x11d7ada42dba2a7f763c90c41957c5de00beac1cd29dba89451dc91153d9349a30386457a4a7a6d7ff05f87cb12d5b40 0x145cc6bed0196d464c061cd1e72cd276cfe948942ca7b0ed6c8a9bdb9e08c4ab800ebaf542efdbae7340cec23a875029 0xceec147ac4ed2e3077a051bd3ac08cefdcb30cc151c70d8eb638cbdf8776d053022e8b5a41b32fe4e799aaac8c1c53;
  cs false 0x1356b3e7da4c57d98d34d1a716a8916c94b242bb35ba9a59b23341cfe538e1e2861cb9eef807e8ce79592095d09a8b05 0x4da1c43134a565d2d0aa788660aaf4b0f3057fdba1094fe060d48b454c1ca4ee3dd5b584c3ea919ddb40a19c9fd30bf 0x14d8a1e33ea22d5d971c922aedeed020a76afadbadbc91caa3dfb9c188488cca95fe447ff85c9562795e0bc3632e5cca 0x794054d36e630ffee3c36ed9c2fd3bcb58497c1ee8ab8b09b584bd8e36d26ff42426ba7c302234b0c5f21cd28d3830a 0x10bd032b4735696dd95556975250e3f76b522e9acfe3da7e14ee60fa85468e7ec6c5bded553f8955b8866862e17d77d 0x1713d4fce277784ca47818b1288480f6a1549a1749121ca1c7e74a657d6d4e5b42ad14f03b5c2fa99de4c7558d64143b;
  cs false 0xfdf4b914ddcb8f9cbc5b6625eaa74f8abc3302ab614a6c43bfe2c503a7013005b3bb3b7af04b857eb52fa545b01cc1d 0x37f1d51938f4deb231e069490e1174c1f3ae8af10c744c6c08efcc639e83ad6f3543174bf9c75c08b7c3d7a8b425eb9 0x1149a8a52ebbef0a20e2b0b57062169644b1e49ad0a79b50473f94a958f35a1af17938e4c8c92f9d5c1e2c52707cf487 0x1320e2e7f5925912825f42b96f7d8dca6396a2e84c0943881f4b1255083da5f0beacbb475e494eca9e81b01df013c2df 0x666e579401f8ebc35c2a1ed0f5fd11b738dd2cb56f7e7bc33a38738576a33c4cce4ae841cbe9028acaa70870595a509 0x120ebfd8997ff471dc9388dd5d8d1c349df3328f84ffa6a90031c956b36511818136ac2accd32acea942a1f404a81bec;
  cs false 0xfa087fdf4c28f6709475b2e71f004eead04e3bc448e2333e8ffe18ccff0399a3294a4f7f2a0ae67d5dc874a384a587f 0xe38494879163e715253ef950e4eb65f7580b994d7a66ae24020c124b6b7af5d9b1c0cc6062bfb633080278779605c97 0x66063da530f321c8c99dd857e49e16d0652cb43ed5f70d0b637a25452f25bc23e5212b139ff72240c3b6d6550d2bda 0x13b1fb2d6d04a409cc026470e44c3d1efc13e19923a22cdbf616d371abe3ca95a499e9102a6b1910eb9d4e150fcf3b35 0x99706842d0c462b6ae3152dcc80f6326b0b25669acbfdfe50ceaa1d00941b07ba6209d4f2013d3aef5bf1258eff052a 0x477ac9dc379cbf7663b288ce2f88e328a28a38f61c53ac7d50665fa0a6774fac394e25d8fdb5060b80dca60e3bb0e0f;
  cs false 0x10d45a253e1d3f774872a120cc9d86b1c831c4e5f2e12f4b05a79c6b0ceb16c31691f7c67751b5a6f6e3296cbe0f02fc 0x128bee5956809475856c7fecc2e598cafb74356141cc32a786065defbd5a4d5850d1f28f3ea081f93b0f7ec863f2bc90 0xfb050876df15276368672a496fed54e7739bd9d6df73d67ae51c4e96a06ad6443c3844244074e46e27183f295b58f8f 0xfa575216fe9a81441a0853dd250fc9e6342fc315879857ce3439c406349e67f3fe0b029fb56b500110c705a0698f449 0x22dcc710949bc45f60a369dbfb3474d445df899bed3adb90abf4b60b474d7b1897af62ab9d1b8c883d1bef74a8f3ea7 0x8d4ebecd57af88b40b7c7371c363330b6c630e6017f6ab163598b4b0da8c61d6472a1bce9902a55c458be12477b0228;
  cs false 0x108643fca14fecb5ebd9bc819c0d584053ad3924fea3b6597acd3791a3e1bc0ca5df769c5f73641d5bdc1ea662edcaf4 0x981e7ff1f9e5181c71085c2daac880f6ca427529ddaf36980c8b2d36836218eb12f04dafbce5762bde2cf969782feda 0x6d9840d09f5968236d9735c4fb3c7459e3d208d947079be9cd95f8b37da795886749dad8006472bb64ebb7ff7e21d6b 0x29bffda513177dd91d6169cdae74819daad19d518b8751a1353cbd15f0eee9fb9ece9393d30220417d6ab9400a93c39 0xb0689b346a611882de4e7d43f93cc640fbb95105298d14b6c64a77ca8a11ff85c0372d237ed1537b930f12d721f3e3b 0x126b9552153015a377228e4f34b1f8d40e427444f89015280d672b95b047b76d3b50edbc4359b61ab2c145fb95a65e84;
  cs false 0x1678bc73bf8f5085a931163d5bd39849b3607bd227a35789610dad33f6e8c4047588cb99fe20690ab97695bea9b94cd0 0x100acb8164baa5ca7b3fdaa2aaf5df1d6e216ec7610de5a43910ccee89a88f12ce0ec851042b49650e7c81b0bb5c0830 0x7d9675981d600af65758d3d62cec6b9ed2d47bdcd0f4f5a73c15431cf27e3d72d4aa2a1eb4d8a6061f63593e784cc4d 0x1769d15271cc42ed4267192e3e3073fa1758ae8f3e7809633fc5efa5fa71ca06d7c629646fba6bbcde02105e630a2057 0xf12d6677886befa496084a017ed2f416595b1e8371f1e2642f64da6a0891d12f312ebe63077a6c5ff0912c622db4bdc 0x110f718bd1a9e79901640a633cf7cf3a7472c05f532bc7fa30a574292aa519f56f5b13cb0939349a973ef92719448d46;
  cs false 0x155c5458134aa162d358befe302a037c0033397085fb271368793e7deaa04ef4a129e89e254218b59532b463baa1b4a5 0x115873064d2279144f0d48487805bce5277c7bdf4dbd540dfb56a304ba836244655442ee7651ba8f7d08c1099b9c8936 0x1457262b35dead35c80e7b99381d77f21d1014c82fa08dd5e87d8bef62c783daecdbeb2ff2eb077a11c576c26d00721d 0x17b48e7b20f8042242e6e3179581091928ddb03e5250b6e9dc3ffff236723fb102efc1cd5eb8e2d10dc36b9cc2604a8b 0x1796e3b1fa20f3f6bb623011ea6bdd97d7f1c241cde3cf032e95d907207d84f7a4ae005a409f769d80c3ce2585c9194d 0xa3f36881317832ce65cf808d2b0f6e24022165a370ec6cad87ab67b87964e6650170a7bcd6fc0a86b81b89e3905f2d2;
  cs false 0xb8d62811456060e0bd0afd4f041e79afe0de17d92b217e3519cdd6325c679a3554aee960232bb34a6638aa5f6268b18 0x123f2fab2da18d56dc392ef9cab5e0a0539bd138b8111ef436c7a406b2c46ac864b809edcf9416ce85ab5a9866c1eac7 0x3c8ddf8ab3b0e9f3b56be29d92811a28993482d83ad660da26116b0fed806e89e9b9c902795eaba276e326ce855f7d0 0x49c9a9d2c298cc4f65cecbc2ba53ac38ff7168ed7e8991708f25feda8a511cae9c44a1780df1a97cb14088afbad4a8a 0x143b0242431def9a8f4fa64a2a4c081a5a406a8127af98de1a761e64ac8478673e9c09ea6bd35a07f18800459bc331e5 0xcf21e8a78c065cad0d2ab658f83c0ad6bb18494ff1997eb36fb797bf07b05bebf9bfa072b33c3ac6ac5e2156987853c;
  cs false 0x1222596f1e237eade5f62bb70bacbd983dc53d8c834ad3638d3b3dc8f961025db395a0afc82ce19ef8328c096bddddcc 0xdbb7844fdc810d4d55872311c6332e6cd41636112b29d36a1b547feb418ac2b71ebe40edf74ca6b6e0c8ff580edc3fc 0x1712b219e1acecf03f07527b76d47ceb03f3c0bd435aeb8a1448db08a4ff6778e3d083fdffb09132a1048383ea2023e9 0xd898501dc600b407c136f037f90b39f4884b6bc7313032e6b58b594c3a5b792b535e441b79522a1ac695141e1a835aa 0x5dcd1cd484e9aff20c82dedc8824956fdea98c854f9301612162f25216f25d2c0e7f86e608bbffe67f9cb6c0d7eda8 0x173f031d5c60daaaa01d9c7062373dc165bf0c03aca050250956119255028af839e30dc293b148a51f158aaae0510816;
  cs false 0x26e008b6262a32e718206e78a55b9c70a72988cb7658d2ec67d7c512f29c45fe2f1fbeaaa2e249f887308db1dc99bde 0x159ded7e01f26b80e123479f84f13507d297cd2bbee6bb1465872525ad1a8655b664dbecd5a7e790585d6e39a62d186a 0x1970565c559d1edb274189b08ad5736007324f9c81e4dd4d6f6b6e92f1cf62c874a0fea86295ff198cc8ec62b378ce93 0xd8c91d16a250f7f146681baacb72859f810177375a0c7dbbc74feaf2d946498524c549e0a9cc9d11de2e2b020fd1eab 0x901a71aba5c9e67e9da3b71c4ffbd6630bbce427e166372a1196a52e92eeb87af0f36e3f1e1525506f6022abf4e3d99 0x277c083f1ea0d20a8956f6af0ee040f4c632c5c67eae1bf431c067d096ed5962bc2c72dc2e2aea4154708da6fd597a;
  cs false 0x92da6484fa906ed004d8836ef4bd8e2542edcb59a6f75795198687bcad26f30e5d088494593dbd09129dd9bbc4ce71a 0x106e4b7a1a143658615a6c9baaae1c4d9b70e5d2a3d45a3d48ef649d4b6f087daf299676d220ebb4b074c1b04e9486e8 0x19fafd7fd9985a73ff22083679a72ef6ee89409cf7e5c41559e29c03b9d0941bc41190e8d377c0b1d753dae0c171fe4a 0x11eefc4bbc41c8954be141e372a33cd7d3ff49b1ac4d473ff42c8bb3e6969345ace4ba3a44c2a7377af0b24fb4f161ad 0x4ea0ff1b086fff9561b0ec72568576f97ce167fab04aa2d2742fec9e89e08d516c551d1099df68fe42da94d28efa8f3 0x155eda601c928681864738914237038459f6391f1617df8f256d61e8777257b5ab8baa4c125e68c4cc7c6af1a8e3c4e9;
  cs false 0xe4517ace071dc604538a8a7fd59170379f2bb00f8938651029305e6be7b50a985bf119ae7b6562386ef4116660cbc99 0x955d9193e102cb1abb729ecb26443d645fb89e0abffc3ba1568e57196e966b28608121427abf72fe92fdedffff5aa0 0x65ea45355234ce89bd59f57cc3a6f74d57e5e118b31d6b9a8b8a63c4d748ab4261c571b25afbaa239afdf22b89d9e03 0x5a53ed1441e9ff99be5386a8453b616876f398429ae46772eeae7f0ce6da728f2a8e3737fd82a81719f2ec031acefd9 0xc46450ce5c2d7b6553003885ce4cd550750d14c2ea9959734665a95148ac2804f4a6e3785e101a635ba63cd18c48586 0x14d9d2fbf83f8f67cab2ba92ad296d1b094db74b12a752f68eff7a5a4139cbffa1a39c58a51efa8b88179121a0fd98ce;
  cs false 0x7c86072a4f1e6a6d11963f5a26f5b544b41835e77dec905ced4d1158d9810c53c23dbe3740b1f13d8b9a3961ad508bc 0x757ca7232777581ee23729496b5d91d505e09298a629f3d47f474ad53423fcd6aeef939c8af9936b18c2a59fb1ac202 0xb1331d7f5069516abea1444ddd49fc8fb26093856328bca0208beea828294c539da4c88a4c88a231ea6a494df69f647 0x372966a630d84b5fbe8ef1944c56dcf98040cf0c526713d5564b09ba50595be979e7aea653aaa904dfebc0f027a6c19 0x1d09c602d0984a81298fa3fe7f3a418978d637a22a2c8bbcee4ffe11776d30ba804eadb158fac0eb6091c38bc14b88b 0x336d269663887540c189491494650845ca8780b78e8878d2f0d02466901b49adcb35fb1a72cebb21de40d3b2e9af0ba;
  cs false 0x4decb92a1d360e394673e9f39c9d77bd928f161ca3d48d8472315994fa86f60ed5d06316064c4ee08f299720c135a06 0x99960ad24ac7e2a9bfde757436027685254eaf6800e24050985d8a4846ea2302a140f20da5c312e81c042807185471c 0x15ddd5fdb592865c5de3adebd24675b4393ee4fd26b0245cd0248602970247b0ac757de34c0962fcc362cded573a0f67 0x127486775839d78ede0633e5fc3ef2aba1d71271d95bd9d3eaf8f365c48ab1f838422327a6b4729d62cb9ba6ba4a1823 0x14280378619358224e2bd98e9a6a9aacb417dcd2b091f4cbbd94a181522e729b733778de505b3276cd2fcbcca84c227e 0x468155043c9ad913b5b1bde6a0fd1d077e8e023700cf5ffe74089c8d0cd2d960da29763fe58c16adc1489f684d9001a;
  cs true 0x969a9f1a2b8c088d219e37ac896a4fc5946067607b15617faecfefe8dc662a72137e3b55e4a129d86cbf64fe9663ca0 0x4af72877219de8a5dbf002ddac758848b844671c3b55ed034f5be7d7632e0c908b35c2b31fc98401096f8b0bf525a79 0x11fab74b26e7adc1a1977644380cb8d51aafd84bb779e22308d09bc505844e77d43d2fc397aa58223a0b4eaff8487838 0x5f5b9e35111e57bcfff30dd7ed3d372e1b7880409a266985d3bad2b75da66b72caf29b204297f72120197169fc4bf22 0xbd07f892abfaa8ab8b94cdb7aadd59ba3c591d64df6d1d4f527071f978e4f8e3167c012d64cca7d5f03362881f9315 0x1668f319ab19ebfe21ee3e592a294a418de4bf44348390da95bd61c77f14f82c8ed97ab6d3b55cd6c6e7d16e1c981e26;
  cs false 0x2beef308cdc0169a3f7b447b9f23b5b73ca1f5a36cbe9bf963e222e0811f3ff09d3642af28f91065496778a4ac7656a 0xb0b55cf86793604388358020b61e1e18fb76d3be8ba46b9e32de2e5973eb890a92935647b1b75c3eecf308465c3251d 0xad950cfb7789c040dd83de87c9b225b331c1052b53f3e57c1822cce0983f0483c88688cebb0cabca2e08ddd5a567a84 0xbebc6683a6a8c0cb36f5fe6634392c937e348f2d048e15da3d1c63fd33059d070ea04488771078e0f8c82beffd678b4 0x153e5bb42d9090aab027131e498ac6bc34ad90b614edeccaa669a2148fba978b5a1c562992cb74c2028fa59d4a05b168 0x12d87fd2a42cd46cfcf90b451222449edd8871c375958e224d8fe279294035d4a4401939fff2e667a706b26fc43dd806;
  cs false 0x46bcc6098d918f02a1bc0d36a62ad784c16a59a105e72a378fd1db68af8082baf8f29528c7442e8e1b066b9a69cb9b6 0xca23aebecfd938f402f5ad4a69142d25a6b34346edcc0d99cc66610f7bf8c306c3d966a74edc219ef64ea0938891a97 0x15de36d3dbb87166a9a52278e85f75b9e594cb42148fd9c165de51288487e8acb70ee91a35f637cf82b7d5432a60e05a 0x16ffb79e0cf5b7a19da4aadb58f63c4013be1849a8fcfd3c5e98881b47b819c23f75f7bb6192992370f886441ade4d21 0x6a3d5bada7f268b21144adeb3dc242ce5dcd446cccc94145a75421f33955bf66e762a65a6013b0c59420218d5014d41 0x1e43eb7560e161b1d64f8dce0318eeb4410e7abd3ac0d8411620afe5be95501c95bab0057fc555943495302395bf1d0;
  cs false 0x2e5430ab5c932ec7961e6c6ef818715a935b622109c0d7b38faf45fd72aa8bae6572f6d89128853218d880998b3102f 0x1276f513434768a4df10a7512a912dd19db9165056625962c73ee4711af3994bf334f2f7c738fa564f73dae745d14c31 0x7dde2e1a9a91ec1095fb2b8fa50442c44911b3b512b4e6fe1fa441fde156e0a22279d11906fb7cfe0bff55ec851c370 0xcc0e067019e8a2a03fec70d07b3a0ef6fd9a6a1d72f60c301ed90ef373aae21a926386147204017dde7244f7b0d93cb 0x170503b0ec04b8694f521a730f9c5ec32a640e99254f240563a5d2ae4906e5b54432a749b0eff6a4d1d0c0f5d8d7348 0x15b673b3ed0b3b10e5519eefe4bbe6fcf882623de17fdd21a88590d7052f5b74631eabe48a92074be38ee55e12beb095;
  cs false 0xfdf882a5e66a3724d538b17dfa3309cf84449f36abfadc1e448c4bb4b01919226f7caf7729f633fbe222192fc20ede1 0x10c8b4b5b06755661bcbdfb886a91d757d62801ea63f01ccea3bbfadddd2a3f5c3318903afc2a5239e1d5f9f18d887b 0x46596fe385aa017becf7762da9774261685e6b16663c4bdccdb7413afea295c13fc8f178400b6946c89653b12caa4f2 0x6e347c6d464797d81b797fea35d8c300782dcddbaae83d5365178318bbe7603774b0cae0576d46326e2aa31e4462d67 0x1841fa9f30ddbe0d04f77291b0cea514570bfaeb4e4a132a70e3d1a84f2fb2011aaece2aa36659b8cdb8b2af91716f1b 0x160b652229c4709693c57e588a442da95845d893295471712bd46206dd6140636bab79e3c3a2f939ac8ad75afea2cff9;
  cs false 0x18bdfc93d8c13ec6d173bca80d32ca0a1a50ca0c9d737286723f1a60062d794dea6f5a5c9ed83318e788cdbee8013ad5 0x115d0c3fa9c548b3830efadc31f23843d78698f8fa7f95a483ec0ccd17da0416b3b43d18113edc200838129ac7271289 0x1253184a1561040bc2dd2fc7f846b37de2e981dfe2aa5860e7c68d50ec38efe12d688e3e141a685e6325aefc512347a0 0x81370d8c2755c5cfd558058d3107fccb1747ab2b54f0d1250e153c24ce620f6e62a20fdadac4ae773447a5a522f2c11 0xa56e42c5a2fbe354a4005788ba5b0d718919f0423dfaa83f1d388ffa819447be7e6d5034699680c7559e2c6b9aa3bec 0x3260f29316d927e9cde7f58887cda622e9847540424ead19bc9f3c03b064780c366248f3050d515ee446cec63e6e29;
  cs false 0x1510ba8eaf6ccedb2f7c28ff045586924c0bca5faf8c56f7b97bcda8d998e45c2f44fa8dad6a492a12c28c06c08f6c57 0xb1b498f17c6bee8a2832a027f429afe415fb888f61b5a8aa7aafefc88df2a01a3da53c386cc7287a8f571688e3da82c 0xa8c7dde79cb17970237813d663ed0cb4fe0d9da481c5cb6f120a7248fd69d5cefa300e28d630b300fdad65f6d0d6d8e 0x3e1d5b2c5ef354db5be55756126057fb7fc080583466bfd6dd857bb66639847ba281ae03f28d24df699b15cebb710a2 0x2579f0720751a5a11d050638a988f774d13f3970debb1662ef6848ccf4b5d99d33411a6782ca71b3d33afdc348b607d 0x12a3598c7bc81ff24b20cc867ae7459e11910364c1f6f7b72fdb2383596ea454f0571f8a84541998955aa7e86be40d41;
  cs false 0x40fcab01802ded9a17b0e8df01e149f7b054e2ae7db6260b656575534a76a043e73d14176b122b1d2dc3a9f55b79f8f 0x16cb86aadff865287e42139ee67c80694ccc673a31bf4e2f00db87c7816ad7346076cbcb1bc319f9c2b084622c683d4d 0x6254afea6d244770b067f256f6618483a587adb850e59548c4c41756c7199ff4b86cd2d88a8eff9afaf4ffcebebda36 0x153917b6768ff891fe5481ebf8572747cc27bf940bae9e47ba46a372ddc36195fd6e23812e303a713e464a34a28bf914 0x19d1ce794eceaaff6ec7b8a8731247a4153401d65157b1b860f3ff23015a9c56bc798360d5f40caa7488f0410384b2bd 0x198072d0895f853cd9752257088cee192f4aedfe979ca466b1db9e66a338208faac507cc513fe0e4bf35d729e6b39b1a;
  cs false 0xe1c1e5c10f47c857073206e6d3838aaa4f445846d86158f78e02450fc15bdfe604671c518bf2c9c059326a223a29565 0x1e0cf1d6464dbfd0f009e9b6f4d6a221ff020a192523140e88ab2c3d388fb5608b845dd7cb6c61c3aa69f70f657c579 0x1806b5eace3b823267e84475eda0f93019dd1fa5794b08122b68b516a9e19f03e006a7502cb30a0c872f4a648ca13bb8 0x19ae0e5fc98cd8d2a8fafdda735a26f910d4a804bea8eadcdfe401b6ec32f534b92f407fbebb2eda711e8a8ea998bcad 0x172c87ef4f2355682afd92b55c69fa5af3f0f21d5621e71ad19714fa85a9be733689ac6052906a1f7d6ae777440bf95a 0x8ca82182ee243493074a10c37278bd7a9f740b1eb887569ebf2f8d907008e382ae4dc6f28d2b89f93652fca8509238e;
  cs false 0x16f99dfc27bab3177ac72a1500dc9bd6f4b52093e0a1314dd3f95609ebeefdac8700bcf8756e153aec887277c7d553a3 0x178bf0dbaaf9da2fe1bb390474348207f601bec10cfa0bb2a4817a5e0f24a652bac1fe09437d44edbb13a073b49382e3 0x2a7752a9de6a22b6e9eab1ab6ef2284f08114886eaede484d1b61f5d2d37c7c74b58555bf841e77c85f34574472cf76 0x13ad8cb5760187b645d531739edeb52f4637f73223cdbc24fe6c9ad89ca545d8bfde2eaaa8f2edbdaedf1105e2b69e37 0x43a36c9bc0200f2e4bc39ff67ceefa94b730dbbc0f4477bf3dadcbd5646c90b33082297b61377714f5eed68e946ef14 0x163b92f83837fe3ffe12f199e144b1b9b905adf4b2c0e718b614195a1f0bd575b7255736bc099a7ed1f0eec73ebf8cd3;
  cs false 0xe2bf2072af81138ad9688cf16ac749d34df99e2f78ef62fa26f866a734ba408e0149f983a8cdddcc38e2297f17b251e 0x111d53eb4b5b745a3925b0b6a629c4ad21cafe4f35f59564dbb1f5bb27f5b3b9fa6573869511974faba5713474293282 0x55cdf97e06a591e0ff90efbc8f0df2e68c922fe3508d910cb77823acd4c044d515d6ec02ce0a453aa4dc72f3606f149 0x1761cc2d999bc37fbf5ac50f2b51ac5dc3a5dcaaa1faed01bdec3573fe2fe372a0cbc087f41504a42e013310741d7317 0x196e5fedd97ed4a1f4aa79f75dab70ccc81a0ac141904e024437497790e0d4f21b94eb009c7c1173104445e9da171ce8 0x80a36896cb378ecce338bf2d4e42f5513d53e5920e5a27ecf13dbf0da85251363ab11e58283a4a50516fc4511beb3ca;
  cs false 0x8376927982214ec75797ad5c323d0d8efe9634f638ea177ae67e4594bfabbaf3f2a2699ed2aaed9ed8fe5ad6b9453d3 0x9c163f067dc8ee77476248f72828bc566cdf9d5ae7101ff53b2d8f270d0aa21eef123344c7d1867242142f67ba1042 0x190cd71b63a42faebf18addfc8d8ad209031fde90a82915abc70149ac99e608edfdc5c1fa1af4953e898f1cd007e74fb 0xf7012a4bec68902c8cddf0f85d39a8871e7d69471f4bfc79526057a1c5abcf1519dce085b7e69c7ee2259869891c546 0xb3c3606af7d4ecb228d71e37cbe38d6b356153a1af700ffcac41326c3d5c34e00d1282793365c8630ddb9c0c6d1a8a2 0x16086a853a6dfe77fea6e4330d2aef2ac159d78eeb8c39bf7ff94df5a7c5b9d9d06f3a6b9fd2ab7757928cf7b14043b4;
  cs false 0x1291b8cc59aa60a4dd1c1c31444212a63d0603f51fb39ae94747abecdf702ded3bf604bba9ae5ea98295fd43e14a3bff 0xb85c3090f581014776cd12906764ea22e56033b9fc4cbd8f0254f3414fb096c4cffc379d93c696ac834de1d5dc1ae6e 0x13fbf2a58580c7860211e2318b9c5f1f77022330d91b84e47a1eb6202bc766568abce54a190878a0c1668eea65f11762 0x185da3b7091a3b77c927f6f757cc8b59ba3b5a1fe9885e0d4b6bbed7e345b229a539ec20529b822a6afd90b150978c96 0x119a08c8a7e5b44deb4b0301ab3b6d22d0a50cce1a866121e29fb7a318ab6768b408841d83e709879c7e7bd7c55d6015 0x11262cb9b6941cf68d8811cc72ea9919f000bd56de802b2005e4fb6047a0e5754ef0b5f6096b971d3dc37c8149e0d617;
  cs false 0x1cf363c481d16e0fb1b0988b43813a7818c3973ecd8ba7e152605088cbec57308b65674e9de7119c6f4735f34e633b 0xf385e1580be2e19734f056dd53e3b7b107be5b652738c10bb8831d75060938e9b501ac2f49ab23ffffec81d9f27c1eb 0x9b7c7fe1940d73d46b6efc5f8187a5b1ee5b6edfb38316ece19523375bab46b15750c12d9de629c112f5fd8f954fa01 0x47cce5caf66cdf08c4630bddb95d8f565c2bb7dd854cd5f377b8fcfb93dddd64aa7943ff24a343d4366e0920f79e821 0x55a37443aa114ab78f035acaa9db36e59796a364405ed1fb74a1cb0de2d11b13478365f9caa4d4b8ae5cc62a66e25e6 0x305b1163edc5f3f5f51ab9a709cf88953192d2251b5c49944bb505f41ca3293dfe719bfe59ccb9fb929b341dc4452e5;
  cs false 0xf8f678361135748657d4062cd0e351ff9530b1a28db8854a11ffa5d6b938314b2ec912d2c6258b89a0aee12a15faa64 0x818967b8c556ac50a58ecbed29cc7f839e82988672673be3cc73ec9cb7fc46279962cd68f04141c77f3a442d0749267 0x157a0a0c8092a86be4332a32e503712d695eb588b8918bf5cb5741925330f0b536c3cf8e4722e19bc3657b2aa7c444b9 0x10524a149b60257d8fae6a05b6b415a8a8e216be10940d9dad07336e5a7d54810c753684bcc5b4491c7921d7b30e7c13 0x15eae6921702e3ed525ce70fc1eca6da1e276b8da4ae552cd26cd33d4b9175359ee98d1fdeca08854900acf7f89dd8b6 0x6990e324d61156708f391a291af8c2ec0f953061aa48d4f76d396eecfbc1a40c063d8ee41de334519e89fdd1433bca5;
  cs false 0x13bd65095a0a064d7a1c25be33c46d23e9812c56157befcc15979c593db002cccb9d917a5c4d70b692e625057d6076e7 0x5a14dfe31b8f0c74d701ef67bd96ca5fa6f2203d6a0616ffeee013f9e41cce0f4d3bbbbc09abf3b13fcee7a8f5069aa 0x6d9c2fbc97f77e84c920b28f1a3ba771515f9cfc08cd3bb841f58e2361f22e3f225da999954b7800a0cc367f65f6719 0x140460a2627a319772abf3dfa4698b2bd5cde78e31958b2668b26ba4b7bb9ac345a29480ecb60657fd45615e1b47d3ec 0x16fd4472a5e885f60f134dfacac33976244102c45f003d4213eb17208aa43158d3bb3ca9b42d593c4e9325c704504461 0x8d05c3b85a23225ce0da580c1646cd992652fb9a882247cb9edc9b913aa1b9eb92a1690a21de3de69aed9b00a149cbd;
  cs false 0x2e220135614ac1d7ac3ee5d172e469cd7079c5f62a653e16e208069fb0ceb676d522ee92f52e39ffba02beb42336067 0x776a8673ad8f1be1b08629d0a968027b76e1611e207bef0ba9d8c081f3e1e17857634f8be0352a0a036c69d4b7e735c 0x6d6a15c6abdd2b27b3143d6087696afe9db4261864fac6550e9d7ada773b87b282b2c66d42f9f171815dccd28484559 0x661ffdf7c29f81b44b28fe19e4f2207a02170debf9ce124c91bc3ce59d187c14660b18c49f73618cfb79db4b40f6cdf 0xae357eb01c574ee4dfc583d868bfedc397e63d4b303b653496e862df318bf3fc75c324e399361e77e4023e632342f48 0x1870064d1d5b70a62e43fd755a84b2fe5f5528d94292c375fe34aa5538d7f32c4f9d22efae261960ebc26c5ef6a6abbd].

Definition wP (x y : Z2) : point E2 := Aff (e2Z x) (e2Z y).
Ltac wl := cbv beta delta [e2Z zz wu0 wx0 wy0 wu1 wa1 wx1 wy1 wq0x wq0y wq1x wq1y wSl wSx wSy wAx wAy wDx wDy wCl wC0x wC0y wBx wBy wCx wCy wUl wUx wUy wRl wRx wRy wKx wKy]; cbn [fst snd].
Ltac won := unfold wP, g2on, g2a, g2b; cbn [on_curve]; wl; fast_e2.
Lemma wS_on : g2on (wP wSx wSy). Proof. won. Qed.
Lemma wR_on : g2on (wP wRx wRy). Proof. won. Qed.
Lemma wq0_on : g2on (wP wq0x wq0y). Proof. won. Qed.
Lemma wq1_on : g2on (wP wq1x wq1y). Proof. won. Qed.
Lemma wA_mul : g2mul (wP wSx wSy) (blsX * blsX - blsX - 1) (wP wAx wAy).
Proof. apply (chain_run wSx wSy wTabA); [exact wS_on | vm_cast_no_check (eq_refl true) | vm_cast_no_check (eq_refl (blsX * blsX - blsX - 1)) | vm_cast_no_check (eq_refl (wAx, wAy))]. Qed.
Lemma wD_mul : g2mul (wP wSx wSy) (- (blsX - 1)) (wP wDx wDy).
Proof. apply (chain_run wSx wSy wTabD); [exact wS_on | vm_cast_no_check (eq_refl true) | vm_cast_no_check (eq_refl (- (blsX - 1))) | vm_cast_no_check (eq_refl (wDx, wDy))]. Qed.
Lemma wK_mul : g2mul (wP wRx wRy) (- blsX) (wP wKx wKy).
Proof. apply (chain_run wRx wRy wTabK); [exact wR_on | vm_cast_no_check (eq_refl true) | vm_cast_no_check (eq_refl (- blsX)) | vm_cast_no_check (eq_refl (wKx, wKy))]. Qed.
Lemma third_ext (l x1 y1 x2 x y : E2) : E2_Sub (E2_Sub (E2_Mul l l) x1) x2 = x -> E2_Sub (E2_Mul l (E2_Sub x1 x)) y1 = y -> third E2 E2_Mul E2_Sub l x1 y1 x2 = Aff x y.
Proof. unfold third. cbv zeta. intros -> ->. reflexivity. Qed.
Lemma wadd l x1 y1 x2 y2 x y : e2Z x1 <> e2Z x2 -> E2_Mul (e2Z l) (E2_Sub (e2Z x2) (e2Z x1)) = E2_Sub (e2Z y2) (e2Z y1) ->
  E2_Sub (E2_Sub (E2_Mul (e2Z l) (e2Z l)) (e2Z x1)) (e2Z x2) = e2Z x -> E2_Sub (E2_Mul (e2Z l) (E2_Sub (e2Z x1) (e2Z x))) (e2Z y1) = e2Z y -> g2add (wP x1 y1) (wP x2 y2) (wP x y).
Proof. intros N H1 H2 H3. unfold wP. rewrite <- (third_ext _ _ _ _ _ _ H2 H3). now apply add_chord. Qed.
Lemma wC_mul : g2mul (wP wSx wSy) 2 (wP wC0x wC0y).
Proof.
  change 2 with (1 + 1). refine (g2_mul_add _ _ _ _ _ _ wS_on (g2_mul_1 _) (g2_mul_1 _) _). unfold wP. rewrite <- (third_ext (e2Z wCl) (e2Z wSx) (e2Z wSy) (e2Z wSx) (e2Z wC0x) (e2Z wC0y)); [|wl; fast_e2 | wl; fast_e2].
  apply add_tangent; [wl; fast_e2 | unfold g2a; wl; fast_e2].
Qed.
Lemma wS_add : g2add (wP wq0x wq0y) (wP wq1x wq1y) (wP wSx wSy). Proof. apply (wadd wSl); wl; fast_e2. Qed.
Lemma wU_add : g2add (wP wAx wAy) (wP wBx wBy) (wP wUx wUy). Proof. apply (wadd wUl); wl; fast_e2. Qed.
Lemma wR_add : g2add (wP wUx wUy) (wP wCx wCy) (wP wRx wRy). Proof. apply (wadd wRl); wl; fast_e2. Qed.
Lemma wB_psi : psiP (g2neg (wP wDx wDy)) = wP wBx wBy.
Proof. unfold wP, g2neg. cbn [psiP pneg]. apply third2_ext; [unfold psi_u | unfold psi_v, E2_Neg]; wl; cbn [A0 A1]; fast_e2. Qed.
Lemma wC_psi : psiP (psiP (wP wC0x wC0y)) = wP wCx wCy.
Proof. unfold wP. rewrite psiP_psi. apply third2_ext; [unfold E2_MulByElement, thirdRootOneG1 | unfold E2_Neg]; wl; cbn [A0 A1]; fast_e2. Qed.
Lemma wR_psi : psiP (wP wRx wRy) = g2neg (wP wKx wKy).
Proof. unfold wP, g2neg. cbn [psiP pneg]. apply third2_ext; [unfold psi_u | unfold psi_v, E2_Neg]; wl; cbn [A0 A1]; fast_e2. Qed.
Lemma wnonexc x1 y1 x2 y2 : e2Z x1 <> e2Z x2 -> nonexc (wP x1 y1) (wP x2 y2).
Proof.
  intros N. unfold wP, g2neg. split; [discriminate|]. split; [discriminate|]. cbn [pneg]. split; intros E; apply (f_equal (fun P : point E2 => match P with Aff x _ => x | Inf => e2Z x1 end)) in E; exact (N E).
Qed.
Lemma wR_G2 : in_G2 (wP wRx wRy).
Proof.
  split; [exact wR_on|]. split; [discriminate|]. exists (g2neg (wP wKx wKy)). split; [apply psiP_spec; symmetry; exact wR_psi|].
  pose proof (g2_mul_neg _ _ _ wK_mul) as H. rewrite Z.opp_involutive in H. exact H.
Qed.
Theorem w_generic : clear_generic (wP wSx wSy) /\ cleared (wP wSx wSy) (wP wRx wRy).
Proof.
  pose proof (g2_mul_neg _ _ _ wD_mul) as HD. rewrite Z.opp_involutive in HD.
  apply (generic_intro _ (wP wAx wAy) (g2neg (wP wDx wDy)) (wP wC0x wC0y) (wP wUx wUy) _ wS_on wR_G2 wA_mul HD wC_mul); rewrite ?wB_psi, ?wC_psi.
  - exact wU_add.
  - exact wR_add.
  - apply wnonexc. wl. fast_e2.
  - apply wnonexc. wl. fast_e2.
Qed.
Lemma w_nonexc : nonexc (wP wq0x wq0y) (wP wq1x wq1y).
Proof. apply wnonexc. wl. fast_e2. Qed.
