(** The Poseidon parameter tables of spark/pairing_bls12381/constants.go,
    transcribed literal by literal by a script (strPOSEIDON_C lines 47-2325,
    strPOSEIDON_M lines 2327-4517, strPOSEIDON_P lines 4524-6694,
    strPOSEIDON_S lines 6701-25054).  A width without a branch leaves the Go
    string empty, which makes the parser (lines 12-40) panic: [None]. *)
From Coq Require Import ZArith List.
Import ListNotations.
Open Scope Z_scope.

Definition tabC_2 : list Z :=
[0x9c46e9ec68e9bd4fe1faaba294cba38a71aa177534cdd1b6c7dc0dbd0abd7a7;
0xc0356530896eec42a97ed937f3135cfc5142b3ae405b8343c1d83ffa604cb81;
0x250f5116a417d76aaa422952fcc5b33329f7714fc26d56c0432507fc740a87c4;
0x264065ad87572e016659626c33c8213f7a373b9b8225a384f458d850bb4a949f;
0x2bb8e94ad8d8adca6ce909ff94b8750729b294e4400376da39e33fda24bd42af;
0x19051065d05d861ec813c15291d46a328f6201b21ad5d239d4f85fbb09a5dbae;
0x245bd0617aa449618f5bd4550aac7b8e08d4d1c017165943cdf4776cdff3434a;
0x9fb1a1118074ff79d8acbf5b02131e048a1570155e0f2b1c36ad091d491a88f;
0x234ab504bbae8198972741952f78b7eb018ea192f05e54c1484ab8973ff66d88;
0x1f66e509b84c355ae3d4c3513a282fd48f9c8c6439f42a7835fbcfe0f2a324c;
0x1b22f5d69d725e6002cf00dd9ee62d1a5af0efdc4910f54127a920ccc43f91fa;
0x252b55edead135f852968b7f1c4f490fa659ecd5b47a78a7db91f65a6dfc23f;
0x1773ae2e1637c92ad0677c2a047fea8eca4b53303f21871f6892a2c0487d7ff1;
0x2d57b02906cd0ab82a79e76faeef6f87666eac093cf7715645d5ec9f7ac732f5;
0xa16f3a62824b281e8b2ddb8fc391a498fb061317faffa03696f834596313d93;
0x1666f525f7f4b6988d2a37834ab747eae0587757b788eb7f1e26b08e36a08591;
0x5da44f8e0a3b8bb13231f0ca25b50b57f5c82128e1dfec3e541d912ebe17b76;
0x9a39ba9993303ba191bac8bdb3e0144dbfb5f39624cdd9524dc7861633bc95a;
0x6c0fb824a19202d30ee6b418c0029e100e85a6d158f9f2a828dfd2ed0920a68;
0x387d8e056b2b176a9776b4492cb3b418adc660627e52bb3324283bf9522395d;
0x147a1af82036ef5b28a7a37bea40d6ac3013cf1b62358396bf7156f5c2dc9684;
0x3038d92060daeaaf1bd0482bd3f0613d88e8dff90a7a0525f9227e4cb7c6f81b;
0x72940aa1d538a5a39a323f9e5d65616cf6c223339006f9789a97245532908f5;
0x2d3d604949f4e14c70b8a879aedec49b3a367ba216af048f464ed6f15e2b9023;
0x225b9e4f35c7549f80774c2b4d18309b2dcf7c7287b982e49746a176641e73c5;
0x1ea781288fdf13b2190095a2344828e37dfe81c75a09709f0d139bbbf6c70414;
0x8e96c3e7e8de4432b202405458468b90dc6890d4cee128b3502e5b6cb4aeeeb;
0x5b43da7c8aa29af6dcaae57d070b49d29ce889a64a4ac183e85d55b366c805f;
0xbec98a034e3b8af7ba4861f1ad5a48dcef7c996e7a51c7cdde724d8f610e52;
0x2eb67ccfa29e2b422b9f84a5d0575fc435b30fcae303039480be384ee4ebe72a;
0x102bbdc21a3f147bf04eedee5d70bd084a7105c631c86ecd2c4e8749a13915ca;
0x274bc16c88721babfd5bbe8d8562c1bf127ae38915280fbb8e3115cad3582f79;
0x185cece417549b25283de04511f769101c8850b409d4928ab831611351bd9938;
0x13c73fb043f7e978bc9cfb55c7faacb4f4c823674abe17737059ac0a32c36007;
0x24b3a1d83308742b360c9c60595673e201cdd4cef5a4145c933c4e5969481d70;
0x18b5ae94df9ec97aaa2a8f0f42425bcccdc8266a070f866ef0f48d7a3744398b;
0x20eb398cb958cc2ccc7cb1fac38501abbe38169b2d8522d9e5f099f2d5905cb4;
0x1e588dd3ec8b0d252c2c7c0c78a02b22bbbad1f4dcaa2e78a8b8eef2f4e29344;
0xf8bf3bd6c22ba3b1bf3ab2e3fb40818cd4217ffbaf294ca42331d4e3043a0a6;
0x388c9fcf30fc2841d648f46bad01dd10bee9dc184d25eabc9f617021109cec3;
0x2bb7f397c5941ac67befa8b232f15c8853dac263da793555441a90cec83b6454;
0x17f389b52f9ea7a98874a4a31ef6a7beb43fb17db0e499250bb3f0181c59fb21;
0x3a2090eacb897a31fb10561d560a9aeec24b7ad14d17b145f20c875a0b28c7c;
0xc398534f0eb580f1fe4bf64553389e67cca4714399430e09619dcbee17ba099;
0x7095ac9fda46afa7f181259e3635feffa7f11ee63f3ee777a5cebf4822328c4;
0x2046f7cf1c8f13ef2b69cbc8bc0d5d809f82568abe2b33d1cd060958b1ced683;
0x2c274136a5de2849de6e7f92f9097296501acb68d56138fbcb660c4cb0f69107;
0x1c4d5178acb5c6b6eceef23afc6f16ec7b0383094cb6467e8d0f4507b3cf74c3;
0x65b1447d0d64ceced116785b92c63a6a7dd9701507dcbe8b909325e28f7b8d3;
0x2265d7e244881220c81a193d979330409c9bfa333438951340e023e7b72a1961;
0x15b12b355af7e05637a1c76e67f9cec6fca8a6449b37669f6850502256b30aba;
0x1a1522fecc6ae028e4d3e3029497b88f35c2b48c687af168ec2582d9075b4387;
0x22f56e79e81b7496e472a641a053c414bcc53b0a9350e2589240803076f58f26;
0x202ddb66d0988994e7aabad692ceac4e2324672a17ab8417d1ee278afd17fd0c;
0x12b0701e8813c5b21a8e30208f8f1158b96cd428ae77bdea72f84510f73edfce;
0x1e63fd20e706e1407c8838ceb26b84c9fe693fdde0eb1e1a9df7e84e53eeee7e;
0x20a16c5a86256deffd15af174c39f9d9aa11500676ac7e570088280dd1896259;
0x1c8f8bf8e153da55ad5aca2eaaee38da563e0435c0f2f37c27558fb9bae0a3eb;
0xd7732687bb7bf5f3aabcfdcc4fbb67e159c1983213e416c3880124fddf187c9;
0xcdd04475a86999a2edcbbbf8264b195e108b3b60b6475d835f6ccef9e2f6865;
0x2fe65586cd4e754b4c63a88c2ed3f9ba0e3bfa43f547b41153560c214fe3cbcd;
0x503cf963c8273604e659128ec29261f62399815d98c56dbf4f2837c727ad4d9;
0x1ee48ea27839061b78379936f6d97ca9400b393ef5fdf38ef1475c8742cb334c;
0x1a423f8d8fc892b22d7cd5bf0197c575c579e83563d04859d73b2c1c5c0413f9;
0x69a0da50133e9952f00e61778972a7be0e8d8ab76c95616ae465636abb97ec7;
0x1bf7879dd42f2cbb91c65a0976356f67964c2f94dfbf0e44cf2b9909165d8614;
0x1b23dccf485822065c8fc0afe610be7164e25056267f6c4a805fffd4547a0b98;
0x2ebe90d6f6fdca420e0c2e004ce5c5a4409e564c9c4f3671e3011f627bec7c2e;
0x167cd6930535a816dfebe81d20c376e77687760f3a2fa0da290b2f4d6c6863f7;
0x8865c10f4a633c54ccc8b68b79df285f19f1210374cc64e3c8a966d4f90264b;
0x1de902fbc0bf01951ca25abb39d78894721b37e071851b03a72cc6b833b7893b;
0xe3eca007699dd0f852eb22da642e495f67c988dd5bf0137676b16a31eab4667].
Definition tabM_2 : list (list Z) :=
[[0x66f6f85d6f68a85ec10345351a23a3aaf07f38af8c952a7bceca70bd2af7ad5;
0xcc57cdbb08507d62bf67a4493cc262fb6c09d557013fff1f573f431221f8ff9];
[0x2b9d4b4110c9ae997782e1509b1d0fdb20a7c02bbd8bea7305462b9f8125b1e8;
0x1274e649a32ed355a31a6ed69724e1adade857e86eb5c3a121bcd147943203c8]].
Definition tabP_2 : list (list Z) :=
[[0x66f6f85d6f68a85ec10345351a23a3aaf07f38af8c952a7bceca70bd2af7ad5;
0x20e3e914631964e394d269ae59f17efee3fecee512cbb163d32cc760be574bd6];
[0x2b9d4b4110c9ae997782e1509b1d0fdb20a7c02bbd8bea7305462b9f8125b1e8;
0x10a44ed9dd9ce568563394632833d8633690d329ae737c8c7220a9b197ee3f46]].
Definition tabS_2 : list Z :=
[0x66f6f85d6f68a85ec10345351a23a3aaf07f38af8c952a7bceca70bd2af7ad5;
0x1fd20dcb58503896fd52998d6a5be6f12ec33b3cbd590c793e45de825ff8cb5f;
0x8c8295df0ba11861e97f0cdde8f202a7096c1e6452d33d64a11b5be4e0a1efb;
0x66f6f85d6f68a85ec10345351a23a3aaf07f38af8c952a7bceca70bd2af7ad5;
0x2458ee6d7c526073d165d2b08b95cf8947e20e05a76bc12b401b996421e89835;
0x18c235e6e723390aa65baf06ffa557829f78a2fe1fbfb44eef84e938209c92f9;
0x66f6f85d6f68a85ec10345351a23a3aaf07f38af8c952a7bceca70bd2af7ad5;
0x1868e106689f8ea2e9c561b4b192899d07b52e58595c393436c37df24976a584;
0x2d5161804f0ec6445cb8904ad3e8e9ec21153350df4075c9cbe840b7b609ca92;
0x66f6f85d6f68a85ec10345351a23a3aaf07f38af8c952a7bceca70bd2af7ad5;
0x3510550ddf6292355c690f03b9b815aab2dc3f4914612da7ecb79ddcf7b0b90;
0x9a2e7bb3b278a1d5f264a26345ad8365efe0058403d8a52909cf2d5f6ee6170;
0x66f6f85d6f68a85ec10345351a23a3aaf07f38af8c952a7bceca70bd2af7ad5;
0x13dd4148c491a166b015a7a4233f4e488ae94a0e6439be66fe149b50b55759c0;
0x1d2d3b261f5beb3fc010f42ec3825649d90150eee4ce55dc9f86ddf110295550;
0x66f6f85d6f68a85ec10345351a23a3aaf07f38af8c952a7bceca70bd2af7ad5;
0x221b4477678dad4e2abcabb47eb5e7a4129190b3855ae4eecd8ba68643ff77e5;
0x16b76448e9855f165f2043f5f09bedf1830a4998ff45ebc25f1d40e8e8fcd6e4;
0x66f6f85d6f68a85ec10345351a23a3aaf07f38af8c952a7bceca70bd2af7ad5;
0x2a10b6a2cbae9578142cf66104b69e448eae6d3bd53ac8602363460e2286c92d;
0x2db84dba4a9d96cebe94dfb1d59edfa58ccfa871b9c067c522e31949b69f2bec;
0x66f6f85d6f68a85ec10345351a23a3aaf07f38af8c952a7bceca70bd2af7ad5;
0x1ca9bbf26402238296ad897ec1a55b4fc273cf20c1f68f03d5c149be890e7b60;
0x283d37fa5e35d25c83d1b9d34ecb00cd03848ca730ace52f367e0d7b5fde30d6;
0x66f6f85d6f68a85ec10345351a23a3aaf07f38af8c952a7bceca70bd2af7ad5;
0x349057941b141ceea5a063a0ff8ab221271e618a174e5d8009ab5f9c791d960;
0x1af2e1d98c3c09908503883d3b9ed50fe8958eb1e5d6538016c344d40070efc2;
0x66f6f85d6f68a85ec10345351a23a3aaf07f38af8c952a7bceca70bd2af7ad5;
0x5b7bddacf4522b0aa3082e2c05448962743d0023bb6402291f592e6c1da4679;
0x1fceeccf337e8a903cf6a0c21a6445da7ff8c4a0bc78909c7e704131c8a35241;
0x66f6f85d6f68a85ec10345351a23a3aaf07f38af8c952a7bceca70bd2af7ad5;
0x2f30a25f4d843e28afdd850f31d1920ee058dfb6d91c322fc960473e917a6768;
0x1a55160bf49a4936bcc59162617026194574a89e5857751b68f3c08f7c07ce87;
0x66f6f85d6f68a85ec10345351a23a3aaf07f38af8c952a7bceca70bd2af7ad5;
0x19c66ee887ab4763b17573b6ad192b7df1af24f54761998b03b342b95709041e;
0x1a82828b7f87eba7f5f8624b31e1115506ab3e723266777b3789c9104f9c781e;
0x66f6f85d6f68a85ec10345351a23a3aaf07f38af8c952a7bceca70bd2af7ad5;
0xf506d3199d96083de9fc4e71b250825e84a242d81ae3a81d99debc7faed3385;
0x1cac7482d91faef657db9072a97567ff172374d99987a8b24b2c04472aab9f83;
0x66f6f85d6f68a85ec10345351a23a3aaf07f38af8c952a7bceca70bd2af7ad5;
0x249b26b1d4e333b23f3192f0e4f52884ee63d489ee153ecc3216939a72848150;
0x13d1aeb10b225e2a8b97131154407d1bf145972dcd3a0073339dca336180dfb1;
0x66f6f85d6f68a85ec10345351a23a3aaf07f38af8c952a7bceca70bd2af7ad5;
0xb90f72b7fcf867eb2e0f9400787d1dd52720cbc14a7095784e4116624d16df3;
0x25e346edd8dd55142abd2135951398230f0c8d08bc5c365c5a6cd70011a8f39;
0x66f6f85d6f68a85ec10345351a23a3aaf07f38af8c952a7bceca70bd2af7ad5;
0x263003b8ed502577c6427b0b4589ef6ceb87b4e21b7c424e587f2630a7b868a2;
0x2d92ef6b8bdc53dd1b6c5b1c92e5a8248eb9c12255b910ff89c09961ec12ead7;
0x66f6f85d6f68a85ec10345351a23a3aaf07f38af8c952a7bceca70bd2af7ad5;
0x2eb36b6d0bfc593a8d6d9459a7af04f0b15bcae4181bbb123543870c11316681;
0x1e48bb591146f461c1d2f085f3979139e37f4a5c2354952c833b2791f59034e0;
0x66f6f85d6f68a85ec10345351a23a3aaf07f38af8c952a7bceca70bd2af7ad5;
0xe759913751418871f0351ee180ca466cf8a03f541079c1b51bb001550d8162a;
0x1e45e194b16936c5b1f81c72eb0fe8c62e859c4661b14b7e327503cf49eca55b;
0x66f6f85d6f68a85ec10345351a23a3aaf07f38af8c952a7bceca70bd2af7ad5;
0x28c8b58c9e4cfb830a51af4529318b6269c4f6ac1867ed1174ce4aefc57fbeb3;
0x255b293fcb1be27d9e5aafd4cd28c26746fc3520889367eed1355c2c41b93016;
0x66f6f85d6f68a85ec10345351a23a3aaf07f38af8c952a7bceca70bd2af7ad5;
0x1db1367a8e37c5597835365bbfa66f6ecf40da775a54c35d5c94da70415544fe;
0xcdd97951c2f0b885edc683b9db74f08df61286578a69989a9fed7ca34c5b4ce;
0x66f6f85d6f68a85ec10345351a23a3aaf07f38af8c952a7bceca70bd2af7ad5;
0xe4d4e42cacb9fa6745c6dd3630ec5a4cca8a912b7ec28576ab3ba29c57306c9;
0x2141a925c279e4c4e351641744750d4702d90ef2137d1905dada0bae3c7b3af6;
0x66f6f85d6f68a85ec10345351a23a3aaf07f38af8c952a7bceca70bd2af7ad5;
0x8f9f9b3abc79ed89c20597cfbfe49021119cc50648ce401dc50cb042a54d167;
0x6af6c072313d868cd945c9f0eb7d4eadb24c8d4763fa042952b99353df2b236;
0x66f6f85d6f68a85ec10345351a23a3aaf07f38af8c952a7bceca70bd2af7ad5;
0x8b43c97bf4a40b4f376d1fa0c5e6e6955cbf9ba301f878ed3eae4ac812b79d1;
0x11e0e607ac6781ca34a714e6c5b7a4f839852377446520032420e2abe16115a7;
0x66f6f85d6f68a85ec10345351a23a3aaf07f38af8c952a7bceca70bd2af7ad5;
0x2dd7f0e1b303f425cb7e6b1c30ca428b3bff751e7b651152eb4de008b2c00da6;
0x107d7f92d1c6a24068b917120f993ae3ee84349aaadb71eaa4128b349812dda8;
0x66f6f85d6f68a85ec10345351a23a3aaf07f38af8c952a7bceca70bd2af7ad5;
0x10ab9e8e4ec9ad5fdb1166c64ed2fc3223c7e16dd982f66dcd820a7861ae1463;
0x3000d3b3ddb3fb864ccc729984468a7317397713303544a84d7de1d209d25cb1;
0x66f6f85d6f68a85ec10345351a23a3aaf07f38af8c952a7bceca70bd2af7ad5;
0x17610359e624e7feb3eede8099a1dc45c4a0c6b2debc2dc8f200fa27a0da6ebd;
0x2affce5b7a7d8c5aac04f6c2708794cd01a8439b65d74df5982d24ad2a944eb8;
0x66f6f85d6f68a85ec10345351a23a3aaf07f38af8c952a7bceca70bd2af7ad5;
0x2d439fbefe8d2b65ed32658bd21fc5604408d5fb69e1f64965e5895ca61c6e09;
0xb51cc2a1b1c329fd72a286d4938540db3cfc4320de363a3f68a7935cd193ab9;
0x66f6f85d6f68a85ec10345351a23a3aaf07f38af8c952a7bceca70bd2af7ad5;
0x1468ea2868d31f7ebafe78af8c24656a3185963272f34c51d5e2695c43bd3247;
0x29553949324f27f4fa7bd734920e9be7b662a0ec5797fdd4ed3fe19464879b95;
0x66f6f85d6f68a85ec10345351a23a3aaf07f38af8c952a7bceca70bd2af7ad5;
0xd9780ee7d395f7c977fd4b86329f6cd720047a7f9d1672d18d2cfb428343afa;
0x210a098afd451fca3997860e220106c7487f4716831dfff78036de18f17cb31d;
0x66f6f85d6f68a85ec10345351a23a3aaf07f38af8c952a7bceca70bd2af7ad5;
0x1cedcfe2751b360e73d6ef5af88cd5b75a2b2d97c571889a0dda87a0dd90ad81;
0x22719f26e16723c1bd45a619e91836c340a304f3648672f90de2b047880aee03;
0x66f6f85d6f68a85ec10345351a23a3aaf07f38af8c952a7bceca70bd2af7ad5;
0xae0cec959c4c7859f670f19c7490f8eef6ad66346e04613c1350597be000be2;
0x177560de731482bdb7316c238bc38f20a16cd03edda2e0393b1c515ec64b0727;
0x66f6f85d6f68a85ec10345351a23a3aaf07f38af8c952a7bceca70bd2af7ad5;
0x1f19a267da0b8fc2b4850a4f458add5514edf0aad6f7a7f175aef0b98e816a40;
0x1da77cdeff9cf822b54509031ea2888f6f398051ae1870afd3770e7724c09f31;
0x66f6f85d6f68a85ec10345351a23a3aaf07f38af8c952a7bceca70bd2af7ad5;
0x2d1e17aaaa96743665a869970255c267ba338cfd43ec9b33ecaa764f48f17a8;
0xc376a8ff1da39dec980316ea26ef66fae5c86877a8f82266c14670024329d12;
0x66f6f85d6f68a85ec10345351a23a3aaf07f38af8c952a7bceca70bd2af7ad5;
0xbb856048ef43a77b39560adeb3c7a9a783db5cad8e3f422495a69c56680a79;
0x1d81808a3c73be1bb2c99b6403f3ac4a532c88d29ad652cbb20061656006c19a;
0x66f6f85d6f68a85ec10345351a23a3aaf07f38af8c952a7bceca70bd2af7ad5;
0x15e52ae83a9db363d24cc5900df8ff0b81e445d4409a0e2aafd3223c354add62;
0x2aa2fc03cb5f72e237f7d88ef66f765a159be533354ffb88751abb8885203ad4;
0x66f6f85d6f68a85ec10345351a23a3aaf07f38af8c952a7bceca70bd2af7ad5;
0x10afedad881a1da7dace5c69546d0890bc35f41992b1062a7c7789b03ac932c0;
0x1d18193701979ad24042446e947dfedfad22a6e7d4f6bde875fe2d8c882c858a;
0x66f6f85d6f68a85ec10345351a23a3aaf07f38af8c952a7bceca70bd2af7ad5;
0x2f0b8457690e4d9770beb0300a09fc7001cd417061e826bc450dd96d7b24f36;
0xdc31897d61d70e16870e0b02b9776bc53b8b9848be3062f8da18ff9d981effb;
0x66f6f85d6f68a85ec10345351a23a3aaf07f38af8c952a7bceca70bd2af7ad5;
0x203c94bb7694f9cdad3a14a7603e3cb69c141200fd46bdc9ebb0d5d73663525;
0x2b778a231f21f8a6cdaa3c84372933e610eb985dcc81af9926fe8b09f1afc81f;
0x66f6f85d6f68a85ec10345351a23a3aaf07f38af8c952a7bceca70bd2af7ad5;
0x2c8a0376c766055e6a9d5272a2466a28faa7e359db111e84d98b2138c8c9d5d2;
0x2ffda33f5b85a4fde16ba590ae0cd49fce4ad01e095f94f49138fe44aaa8c778;
0x66f6f85d6f68a85ec10345351a23a3aaf07f38af8c952a7bceca70bd2af7ad5;
0x318af53cfd822ec2a7f4d40614f72fc6cb27f44067fb58d15789bbe15444844;
0xd24997465c5b23d4e7436a4ecef2f91ce9f8910b6fa8a4a3ba6f884bd7206cc;
0x66f6f85d6f68a85ec10345351a23a3aaf07f38af8c952a7bceca70bd2af7ad5;
0x1ea39e4d9edebf65d648e42880b396a6becfa66b3c5e47ff9a33577a3d2a658;
0x15e4e016c94a026fd9ede9bdcf11268f7735cf5ebdbdd4a092fda1ee8b50f2ff;
0x66f6f85d6f68a85ec10345351a23a3aaf07f38af8c952a7bceca70bd2af7ad5;
0x2ef185c4b1cdb7072a82fd43fe4bb145c4dbd04973fb3ef76e757b00392eac9d;
0x15cedc8a4ef6f7017d1dd3d92255beb54f1d7d1e3bb0204cb07ab81c71435902;
0x66f6f85d6f68a85ec10345351a23a3aaf07f38af8c952a7bceca70bd2af7ad5;
0xdbf148ee8983db0c117b111270f1c2c8219565733684494eaf5ce0645e5749a;
0x2842f44ddc05dbd5b319b1efe6b3eabced380b99ffc42dfb08805ea2b4c48aab;
0x66f6f85d6f68a85ec10345351a23a3aaf07f38af8c952a7bceca70bd2af7ad5;
0x1aa07e7ffa4a036f1b7efb2e124e75028426fdf5f1e4fb8bb62e1ebf3298af2c;
0x1e5a2abded8c7022a8ba97ea683b605d09f017fd43e92296656561eb96d25d32;
0x66f6f85d6f68a85ec10345351a23a3aaf07f38af8c952a7bceca70bd2af7ad5;
0xacf3ab02c018573bc3d36b0cb73de6df11e8cc1dea223e98a2a0cfbc028d2af;
0x1bab48ad2c31dcec5fcc6df1f02dc4164f949202122673b06105f7ff1beabb29;
0x66f6f85d6f68a85ec10345351a23a3aaf07f38af8c952a7bceca70bd2af7ad5;
0x1a36af3ad1c61cddc06a2a4c6967dc004b589a4a8b358ded11a38cce6a7f31c;
0x125e0e822514cf49536fa643a66e1d2fa6788cb5b4805c9cd3cb69a584e0d8d2;
0x66f6f85d6f68a85ec10345351a23a3aaf07f38af8c952a7bceca70bd2af7ad5;
0x85be8486ecb3dbf71d63940d8d689f9b142434a14d5d4f8c93d7d0f17bfcbd3;
0x275651360d88063b2feead8bc71ae9c002d5db9822ab63b058f11e0d506b17e3;
0x66f6f85d6f68a85ec10345351a23a3aaf07f38af8c952a7bceca70bd2af7ad5;
0xf7eb245596d9ac5ecc21446ed94c80289db1e1f9f620c18f7815b247b228a6f;
0x221862a04a00f406bc67f7677ab459c9d887c8bb88091513f0fc2fb103ad549c;
0x66f6f85d6f68a85ec10345351a23a3aaf07f38af8c952a7bceca70bd2af7ad5;
0x1bd575603b7085afcf0a588a5fadf8705cda7eb1d4ab7e70137dbd47fc26e3a2;
0x146d1d176245ff772db8575d986a82e931079de61e67184c4158a6f62db446f1;
0x66f6f85d6f68a85ec10345351a23a3aaf07f38af8c952a7bceca70bd2af7ad5;
0x2202ec1e7fd85c4749393664f024d578d392d59cb12a42e2ef4fa728da4cd3a;
0x1c0e72693a0e12bff0ab3e12a1203c846b5dfdb9dd5ba26a7309c6970371421;
0x66f6f85d6f68a85ec10345351a23a3aaf07f38af8c952a7bceca70bd2af7ad5;
0x2b3d8733bb4872b6cbb0bd83378163ab14a585dbf5ad9758c07948de056071e0;
0x185d12aa30aed1a0575b9d3dcee6332f4fa34643a429cfdd8de0fdc87a29640e;
0x66f6f85d6f68a85ec10345351a23a3aaf07f38af8c952a7bceca70bd2af7ad5;
0x1b394227301f28bee29bd3dfc35dfcc8e1c60ec6dd944dd33593a9a77675f641;
0x15b1cfd522bdc418f6c08a3deb114a4ff48854b4a496537d41eb3a325f2265e7;
0x66f6f85d6f68a85ec10345351a23a3aaf07f38af8c952a7bceca70bd2af7ad5;
0xbca3aef46833e8a30a9db0a16b59abc619800d2da15da01dd5a0713ff4cbbb8;
0x529062596e51b8ca2c2f8c7cf4adff0853150015e2e6b4ce7af212500f5e6ca;
0x66f6f85d6f68a85ec10345351a23a3aaf07f38af8c952a7bceca70bd2af7ad5;
0x2fda517f4261325a7366a45da1e847cd150d022be2982eb6105dcfc31fdef60;
0x1fec5a09cea4d25e5b7ff9d2fbab64d264db993e8d8629b7154a1539d12dd1cf;
0x66f6f85d6f68a85ec10345351a23a3aaf07f38af8c952a7bceca70bd2af7ad5;
0x2d87776eef5dfabbe5605094751af17b831717fa3f8e01943b74d1a9a42eb1bb;
0xd257a437910f3995aebd0afb9be584967afa4188c4684958f68c39f9f01ff19;
0x66f6f85d6f68a85ec10345351a23a3aaf07f38af8c952a7bceca70bd2af7ad5;
0x98f0aa06092ed2cbcbac004f90799e6e1c32fc24a9f0b6066f8d7289716aee4;
0xcc57cdbb08507d62bf67a4493cc262fb6c09d557013fff1f573f431221f8ff9].
Definition tabC_3 : list Z :=
[0xee9a592ba9a9518d05986d656f40c2114c4993c11bb29938d21d47304cd8e6e;
0xf1445235f2148c5986587169fc1bcd887b08d4d00868df5696fff40956e864;
0x8dff3487e8ac99e1f29a058d0fa80b930c728730b7ab36ce879f3890ecf73f5;
0x84d520e4e5bb469e1f9075cb7c490efa59565eedae2d00ca8ef88ceea2b0197;
0x2d15d982d99577fa33da56722416fd734b3e667a2f9f15d8eb3e767ae0fd811e;
0xed2538844aba161cf1578a43cf0364e91601f6536a5996d0efbe65632c41b6d;
0x2600c27d879fbca186e739e6363c71cf804c877d829b735dcc3e3af02955e60a;
0x28f8bd44a583cbaa475bd15396430e7ccb99a5517440dfd970058558282bf2c5;
0x9cd7d4c380dc5488781aad012e7eaef1ed314d7f697a5572d030c55df153221;
0x11bb6ee1291aabb206120ecaace460d24b6713febe82234951e2bee7d0f855f5;
0x2d74e8fa0637d9853310f3c0e3fae1d06f171580f5b8fd05349cadeecfceb230;
0x2735e4ec9d39bdffac9bef31bacba338b1a09559a511a18be4b4d316ed889033;
0xf03c1e9e0895db1a5da6312faa78e971106c33f826e08dcf617e24213132dfd;
0x17094cd297bf827caf92920205b719c18741090b8f777811848a7e9ead6778c4;
0xdb8f419c21f92461fc2b3219465798348df90d4178042c81ba7d4b4d559e2b8;
0x243443613f64ffa417427ed5933fcfbc66809db60b9ca1724a22709ceceeece2;
0x22af49fbfd5d7e9fcd256c25c07d3dd8ecbbae6deecd03aa04bb191fada75411;
0x14fbd37fa8ad6e4e0c78a20d93c7230c4677f797b4327323f7f7c097c19420e0;
0x15a9298bbb882534d4b2c9fbc6e4ef4189420c4eb3f3e1ea22faa7e18b5ae625;
0x2f7de75f23ddaaa5221323ebceb2f2ac83eef92e854e75434c2f1d90562232bc;
0x36a4432a868283b78a315e84c4ae5aeca216f2ff9e9b2e623584f7479cd5c27;
0x2180d7786a8cf810e277218ab14a11e5e39f3c962f11e860ae1c5682c797de5c;
0xa268ef870736eebd0cb55be640d73ee3778990484cc03ce53572377eefff8e4;
0x1eefefe11c0be4664f2999031f15994829e982e8c90e09069df9bae16809a5b2;
0x27e87f033bd1e0a89ca596e8cb77fe3a4b8fb93d9a1129946571a3c3cf244c52;
0x1498a3e6599fe243321f57d6c5435889979c4f9d2a3e184d21451809178ee39;
0x27c0a41f4cb9fe67e9dd4d7ce33707f74d5d6bcc235bef108dea1bbebde507aa;
0x1f75230908b141b46637238b120fc770f4f4ae825d5004c16a7c91fe1dae280f;
0x25f99a9198e923167bba831b15fffd2d7b97b3a089808d4eb1f0a085bee21656;
0x101bc318e9ea5920d0f6acdc2bb526593d3d56ec8ed14c67622974228ba900c6;
0x1a175607067d517397c1334ecb019754ebc0c852a3cf091ec1ccc43207a83c76;
0xf02f0e6d25f9ea3deb245f3e8c381ee6b2eb380ba4af5c1c4d89770155df37b;
0x151d757acc8237af08d8a6677203ec9692565de456ae789ff358b3163b393bc9;
0x256cd9577cea143049e0a1fe0068dd20084980ee5b757890a79d13a3a624fad4;
0x513abaff6195ea48833b13da50e0884476682c3fbdd195497b8ae86e1937c61;
0x1d9570dc70a205f36f610251ee6e2e8039246e84e4ac448386d19dbac4e4a655;
0x18f1a5194755b8c5d5d7f1bf8aaa6f56effb012dd784cf5e044eec50b29fc9d4;
0x266b53b615ef73ac866512c091e4a4f2fa4bb0af966ef420d88163238eebbca8;
0x2d63234c9207438aa42b8de27644c02268304dfeb8c89a1a3f4fd6e8344ae0f7;
0x2ab30fbe51ee49bc7b3adde219a6f0b5fbb976205ef8df7e0021daee6f55c693;
0x1aee6d4b3ebe9366dcb9cce48969d4df1dc42abcd528b270068d9207fa6a45c9;
0x1891aeab71e34b895a79452e5864ae1d11f57646c60bb34aa211d123f6095219;
0x24492b5f95c0b0876437e94b4101c69118e16b2657771bd3a7caab01c818aa4b;
0x1752161b3350f7e1b3b2c8663a0d642964628213d66c10ab2fddf71bcfde68f;
0xab676935722e2f67cfb84938e614c6c2f445b8d148de54368cfb8f90a00f3a7;
0xb0f72472b9a2f5f45bc730117ed9ae5683fc2e6e227e3d4fe0da1f7aa348189;
0x16aa6f9273acd5631c201d1a52fc4f8acaf2b2152c3ae6df13a78a513edcd369;
0x2f60b987e63614eb13c324c1d8716eb0bf62d9b155d23281a45c08d52435cd60;
0x18d24ae01dde92fd7606bb7884554e9df1cb89b042f508fd9db76b7cc1b21212;
0x4fc3bf76fe31e2f8d776373130df79d18c3185fdf1593960715d4724cffa586;
0xd18f6b53fc69546cfdd670b41732bdf6dee9e06b21260c6b5d26270468dbf82;
0xba4231a918f13acec11fbafa17c5223f1f70b4cdb045036fa5d7045bd10e24;
0x7b458b2e00cd7c6100985301663e7ec33c826da0635ff1ebedd0dd86120b4c8;
0x1c35c2d96db90f4f6058e76f15a0c8286bba24e2ed40b16cec39e9fd7baa5799;
0x1d12bea3d8c32a5d766568f03dd1ecdb0a4f589abbef96945e0dde688e292050;
0xd953e20022003270525f9a73526e9889c995bb62fdea94313db405a61300286;
0x29f053ec388795d786a40bec4c875047f06ff0b610b4040a760e33506d2671e1;
0x4188e33735f46b14a4952a98463bc12e264d5f446e0c3f64b9679caaae44fc2;
0x149ec28846d4f438a84f1d0529431bb9e996a408b7e97eb3bf1735cdbe96f68f;
0xde20fae0af5188bca24b5f63630bad47aeafd98e651922d148cce1c5fdddee8;
0x12d650e8f790b1253ea94350e722ad2f7d836c234b8660edf449fba6984c6709;
0x22ab53aa39f34ad30ea96717ba7446aafdadbc1a8abe28d78340dfc4babb8f6c;
0x26503e8d4849bdf5450dabea7907bc3de0de109871dd776904a129db9149166c;
0x1d5e7a0e2965dffa00f5454f5003c5c8ec34b23d897e7fc4c8064035b0d33850;
0xee3d8daa098bee012d96b7ec48448c6bc9a6aefa544615b9cb3c7bbd07104cb;
0x1bf282082a04979955d30754cd4d9056fa9ef7a7175703d91dc232b5f98ead00;
0x7ae1344abfc6c2ce3e951bc316bee49971645f16b693733a0272173ee9ad461;
0x217e3a247827c376ec21b131d511d7dbdc98a36b7a47d97a5c8e89762ee80488;
0x215ffe584b0eb067a003d438e2fbe28babe1e50efc2894117509b616addc30ee;
0x1e770fc8ecbfdc8692dcedc597c4ca0fbec19b84e33da57412a92d1d3ce3ec20;
0x2f6243cda919bf4c9f1e3a8a6d66a05742914fc19338b3c0e50e828f69ff6d1f;
0x246efddc3117ecd39595d0046f44ab303a195d0e9cc89345d3c03ff87a11b693;
0x53e8d9b3ea5b8ed4fe006f139cbc4e0168b1c89a918dfbe602bc62cec6adf1;
0x1b894a2f45cb96647d910f6a710d38b7eb4f261beefff135aec04c1abe59427b;
0xaeb1554e266693d8212652479107d5fdc077abf88651f5a42553d54ec242cc0;
0x16a735f6f7209d24e6888680d1781c7f04ba7d71bd4b7d0e11faf9da8d9ca28e;
0x487b8b7fab5fc8fd7c13b4df0543cd260e4bcbb615b19374ff549dcf073d41b;
0x1e75b9d2c2006307124bea26b0772493cfb5d512068c3ad677fdf51c92388793;
0x5120e3d0e28003c253b46d5ff77d272ae46fa1e239d1c6c961dcb02da3b388f;
0xda5feb534576492b822e8763240119ac0900a053b171823f890f5fd55d78372;
0x2e211b39a023031a22acc1a1f5f3bb6d8c2666a6379d9d2c40cc8f78b7bd9abe].
Definition tabM_3 : list (list Z) :=
[[0x109b7f411ba0e4c9b2b70caf5c36a7b194be7c11ad24378bfedb68592ba8118b;
0x2969f27eed31a480b9c36c764379dbca2cc8fdd1415c3dded62940bcde0bd771;
0x143021ec686a3f330d5f9e654638065ce6cd79e28c5b3753326244ee65a1b1a7];
[0x16ed41e13bb9c0c66ae119424fddbcbc9314dc9fdbdeea55d6c64543dc4903e0;
0x2e2419f9ec02ec394c9871c832963dc1b89d743c8c7b964029b2311687b1fe23;
0x176cc029695ad02582a70eff08a6fd99d057e12e58e7d7b6b16cdfabc8ee2911];
[0x2b90bba00fca0589f617e7dcbfe82e0df706ab640ceb247b791a93b74e36736d;
0x101071f0032379b697315876690f053d148d4e109f5fb065c8aacc55a0f89bfa;
0x19a3fc0a56702bf417ba7fee3802593fa644470307043f7773279cd71d25d5e0]].
Definition tabP_3 : list (list Z) :=
[[0x109b7f411ba0e4c9b2b70caf5c36a7b194be7c11ad24378bfedb68592ba8118b;
0x1e6f20a11d1e31e43f83dcedddb9a0236203f5f24ae72c925a8a79a66831f51d;
0x1bd8c528472e57bdc722a141f8785694484f426725403ae24084e3027e782467];
[0x16ed41e13bb9c0c66ae119424fddbcbc9314dc9fdbdeea55d6c64543dc4903e0;
0x2d51ba82c8073c6d6bacf1ad5e56655b7143625b0a9e9c3190527a1a5f05079a;
0x1b07d6d51e6f7e97e0ab10fc2e51ea83ce0611f940ff0731b5f927fe8d6a77c9];
[0x2b90bba00fca0589f617e7dcbfe82e0df706ab640ceb247b791a93b74e36736d;
0x11e12a40d262ae88e8376f62d19edf43093cdef1ccf34d985a3e53f0bc5765a0;
0x221c170e4d02a2479c6f3e47b5ff55781574f980d89038308a3ef37cce8463bd]].
Definition tabS_3 : list Z :=
[0x109b7f411ba0e4c9b2b70caf5c36a7b194be7c11ad24378bfedb68592ba8118b;
0x3f0815ab463f1b76ee25a9b8768b3231a89752f427f4f063ab718e707576b31;
0x15648bf46f60d82954c7e33029b3617357012a3d3b1d34c8e008859f1dbfb317;
0x127e00c2253de07818ca7f2eafdd7564d05ea850cf61f1daa0cfefbf7fbfba85;
0x66365afd18a41ef9382fc0b1d265cb4d3ce470a8cbbb878f7d48051630747bd;
0x109b7f411ba0e4c9b2b70caf5c36a7b194be7c11ad24378bfedb68592ba8118b;
0x219d14f823513140dc69a96f7fe7e086f4fa24c84e57dcf2b099715c4404aae7;
0x3a30bfbbf2cb86d4a6a63a8050d91f9f14f4d33696d37ebaefa9ac2302132d5;
0x2121bbcdeaa33a35b0270fb7d5c9f94edad5a84d74b06e3385104b0b41935bcc;
0x196b544fbeb0a792cfbb82c289e579b7cd5580c2e338a389d053ef8b3d10e70e;
0x109b7f411ba0e4c9b2b70caf5c36a7b194be7c11ad24378bfedb68592ba8118b;
0x2809c3a1547c0cee89c1db270ef479c26973ec73edb4bd4e7d907ea0202f560f;
0x11c34446b083ef92ca157585a02b8b342a4c67175b31f4b5d40d4e96dfc5c8f1;
0x253ea0b33a8bf3b2367c030e3289cbe0f6242ad7709d90b86d9d8026e2e39925;
0x30467dc1930f6afe90c89d4007ad29fc4f5a19c006d1030438c16df85637bd5f;
0x109b7f411ba0e4c9b2b70caf5c36a7b194be7c11ad24378bfedb68592ba8118b;
0x2f9d4b55495f7e377e20e6f5a3a88af7aa6a536458b38bbe13c8ebfbbba54f44;
0x1d9e9d5c736e3151f11d36d499e7e093d8ee2353be18aad54cfd03ff0feac4b8;
0x124b617b43e598f9ebf622f7823a3de7d1bfedb87e097c315f343de301e54841;
0x198e7cfc66ae45774055cf073bedc945a5f9c5b19cae08d789cc5748ffe199b2;
0x109b7f411ba0e4c9b2b70caf5c36a7b194be7c11ad24378bfedb68592ba8118b;
0x2eac25b3498dfadffd124ab3aad57789eb945ba57443099c5bb6c27ed977fe24;
0x1ee02c175cdfe1871b378305c1bb9c904e8af1d4454ed3550b3c6ab5f4f90126;
0x616f8c34c607266b29ea8f9d2dfa47ff6fbb1d9745c48609fa98301d0f679d5;
0x181d68b0a188504958b9f19cbbdb972a853e51ed385e4883a43a42832803370b;
0x109b7f411ba0e4c9b2b70caf5c36a7b194be7c11ad24378bfedb68592ba8118b;
0x2d5397ce863464a25d6b7f5b015d579181d1ce2f24cbabf6059e9327f5ba7004;
0x15bf817491b94d71e8912940cc0b80277713e7d32da2b6591724d8dbd4bc2618;
0x2a7cbd11460b177ab76feab28b69485ac8cc687740bc910994a3827d29c08714;
0xf7cd5ffa4661730ab56e447fae5cc1763cb462da80a85614c237b290de9d502;
0x109b7f411ba0e4c9b2b70caf5c36a7b194be7c11ad24378bfedb68592ba8118b;
0xe0766004b4c4176eb13273508eb6575f768137d86d305be644ce04531008100;
0x625fa7145813481f6d148be6b9c8bb7b54ee3c1afac00104e1f763000b9924c;
0x7c5472508b459916ee0f5461aad2e0b19cd9c7b184f515b65136318ce2c6a5;
0x567375470d189b693ac77ab3fb7557231d53073951d43c54685879cb7a89fcb;
0x109b7f411ba0e4c9b2b70caf5c36a7b194be7c11ad24378bfedb68592ba8118b;
0x1d0406bcbec83f8d5165f56c063e42108ad21f51ea4bfc71601174ba5c7b8bcc;
0xc02b18eef22332d280a8aa1f86405f3375f06342f8696ee7c73b46c63272cb7;
0x17c1fc174cd9a6ebeaa7add2f801a664823509ad4fd1b15aad053a55ad6da4cf;
0x5f843c23024eb1dab7ebbc86709a021aaa6caf433f7ed258a08638e9584b32d;
0x109b7f411ba0e4c9b2b70caf5c36a7b194be7c11ad24378bfedb68592ba8118b;
0x22df2420697ca28b5cc51c53165e002727b45ccd90a55c87589f792f0ad8cb37;
0x2f1438303a7b49d473400aaedf0f48009fd3af804b76be86417588efc4d7302a;
0x2323d5fcf2da8965c6b2b7b4fbf9a24bbaa7f4dccd35d5ca6155c5463093b23b;
0x26c85b9dfbbe48fe83b753a5e7336b9f40f7b961e9c54f94e37700073d4d26e;
0x109b7f411ba0e4c9b2b70caf5c36a7b194be7c11ad24378bfedb68592ba8118b;
0x31511000251ec86feb38b5ab4e335f070b271df4c20979528e41d65384c318f;
0x18e588324a9bbaacb42fa69e5d90a0c0e27cd16b941e34a60ff5df9a26c03af1;
0x2642b5d8e16b953b070635775c8d3c9498357d6ad9bef2e7d99f03c10ea1f95f;
0x21fc313ba11c60e8e84ff60db906a0f031189b0b48335c4221f909aef836c133;
0x109b7f411ba0e4c9b2b70caf5c36a7b194be7c11ad24378bfedb68592ba8118b;
0x2d3562e3d4b42bc6890b698cc6ab89f7311298bcbac6e4e9f2f4d93d06dae151;
0xa74ef541d360e842e3e0b6ff7e5c7c77934a5f67616f01c189d886dfd2e0808;
0x140564b53e0a812ac3983d6e3b433afa43f434087d9e754967c2c9b1b02caf8a;
0x14709e32d98ae4cd18b400181e71ab9759c436c8e83fa6993adb6f2db6bba9d0;
0x109b7f411ba0e4c9b2b70caf5c36a7b194be7c11ad24378bfedb68592ba8118b;
0x734b2366c59e394423f179e1266dd392372db4f2dba651f4a619a4b52bdc010;
0x11fb2d705c94b08d5ad3e3c5fb6629abe963ed92913642c7d02d7e71088fd2d4;
0x27d03abf5c1f290e5d715eba19371050ef6eb7f78fd84be834e4cc3618059484;
0x13ed9e9e6b452df27fb3353cfc2cd63ebe817f212a39c6a8bb9b441ac1395861;
0x109b7f411ba0e4c9b2b70caf5c36a7b194be7c11ad24378bfedb68592ba8118b;
0x1319c51cf37aaa10246cdaaa04a12e88795de4452604263a7c5b79ab99cbd23c;
0xbca25588d187b7f9dad839f2c8cb526a4cf444eebbd0e715b6cea019ac3f2;
0x1d837ea0341c5964181226874b923cd01a069b493f02f7a3c01be23cf51d593f;
0x1b41ce9ed3634cbd42c427ce4c5c83774149e2a6dbd25f24012090db7de4e7f9;
0x109b7f411ba0e4c9b2b70caf5c36a7b194be7c11ad24378bfedb68592ba8118b;
0x671f0e3b674ae7cddc790ecc4e946f4bca74b98b78a127c7b56bd6673f1ce1f;
0x19fc073797a39b272e40cd30615f55fefeb682c1ac14143071d0449a5426e4e;
0x17bee47d262a497fd1f7c5c6d5a7c70fa4209480bf5d97311c5096619e9fd13;
0x2073cff92d3141b480763539cff2978a4c7944721cc937ba00cc8527274471e3;
0x109b7f411ba0e4c9b2b70caf5c36a7b194be7c11ad24378bfedb68592ba8118b;
0x3bd7b3e2c1885877f43182a55a91d48f9c58d152e730fe2c7aa46b1fa663baa;
0x226ebc9a538b5bbaff128edfb9bbf5fa0ceb100719a14c8dfed9ffbbbad9b6b7;
0xd395f0b08b9fede0373a06e1552c0e634a49572af1d830dc6e394e8a5d3b21a;
0x28242439b524540a30d49b68e19e31ba5284bd3bcf1e0f2f41f77d5331f99ffa;
0x109b7f411ba0e4c9b2b70caf5c36a7b194be7c11ad24378bfedb68592ba8118b;
0x370d6fa19eaac142d2de034801ab85e0b457e129e91f929754b48c6154d4df6;
0x9a16f573b3280f390762abf269579eaa37939bc0c753feb0a2b2e0bcbde1659;
0x2228e360fb5b162b496ac443f98127ee3c0021a690b71b268d99981368231d97;
0x7e42c2ca633d2c49fabf83991476d209431e34d8032b6a1b97675f3c567f944;
0x109b7f411ba0e4c9b2b70caf5c36a7b194be7c11ad24378bfedb68592ba8118b;
0x2ce12d7269663770c3cab85a6215a32eed35fda1d8e9d753a50fe96097724a9f;
0x3d7427704c61e2009eeb9b1b45a0125084bc4daf70973a7ba0b2231815b15de;
0x10f8abf0764185861c1267fcf4b4b33ca096fb4ddc4626732d86921e553e69c6;
0x17ccaf6f26f7267a025d7cb456e3aeb251a1a620aaf6568a5c95644c7c5914cc;
0x109b7f411ba0e4c9b2b70caf5c36a7b194be7c11ad24378bfedb68592ba8118b;
0x63bb306b96310051385c3ce00ca820ad0e3651a6e55754d59de6df28cea4d51;
0x1f761ee5553c5e86f2c304a18095ab7403242e0b65e608bc920cf993a4169974;
0xdc5f00bbfd7c1d9a23c0e666859ba6564bcde8761b45717cd6bdfc09de4e8f2;
0x6de511520e277b7df07c3536381c13eb44cf790a230abc391089760bfc40ef2;
0x109b7f411ba0e4c9b2b70caf5c36a7b194be7c11ad24378bfedb68592ba8118b;
0x2a134348c8660efcf9ef54863e70528a1fd4481b50a1fe21f24a8c06e10cca03;
0xaeb5023bbb9a64c4bd80089e99edf8ed5f6f1ffb63a7dbba1b33520bcfce37b;
0x141a6d0810366ae225ecb5f0bfdc9995406c5960ab26155836fc51fb7cb933d1;
0x9d2ea05ef54dadbbe776f404dca6626cc0b2539990bc0b8bfe87497f1e2c5b7;
0x109b7f411ba0e4c9b2b70caf5c36a7b194be7c11ad24378bfedb68592ba8118b;
0x1e56d244a8e41be5d104d5f8ef70891d22d4a5432441bfe8ff1a16e91719cdde;
0x1d4f020c57c4f14aec908b2f99b5c4fd5e09447fa85c2fd68ba4d5c5f50c7b49;
0x763911a3a92a4f0e09f4e14cd03398d8d82a1e09db80fb0ee1e833764c18fd3;
0x12857275be2fe6b9ba2ec68f9061643f1fc5d9a2c5e47e55684366e54b302946;
0x109b7f411ba0e4c9b2b70caf5c36a7b194be7c11ad24378bfedb68592ba8118b;
0x2ed11ccd2e2e2376655ffe9a96c4b81adc0a60353c5d83d4d0ebf50d1bbf87c0;
0x3e31de8958e82645b320d5e3e966ef4726d5b1c2cfbb4acd288a21543c6d594;
0x11e880dfefdbd08858ae890046533d58da28a608d7e905366ec2ca4a36e71963;
0x1835b275deaed2d00704a9c3cc21ab7a44a34662978d53c190dc25e969a507b2;
0x109b7f411ba0e4c9b2b70caf5c36a7b194be7c11ad24378bfedb68592ba8118b;
0x68b75315e25ed4ace5a4a9480e1d82ce5d44f76f1324240419f372ff8d3c3f5;
0x1b7ef7d04aec73d62b052d2ad12b92a4268fccd795c839d698ad3b22823274d1;
0x28c0c848022a90606f6193ff5501b57216b670727f4b8efcc240d30bbaa9f03f;
0x13bda49296cbcc51686a7bfb1c39f3f254370985a16660efd6e5d82d4f068e1b;
0x109b7f411ba0e4c9b2b70caf5c36a7b194be7c11ad24378bfedb68592ba8118b;
0x2e7987ea8204389d11eb10b34265e378a945729f86c3e0e2fd38490d3a594141;
0x826d4a2324ad3aa4b2b45c10a190fedef702aeffda3226ce5415fffd03935c8;
0x2dbeee85eaeaa9fa3675ef541c9df7bb964a85435c3b59685f93b434036ded;
0x227ee7a945edaee6919418ecb3279b11e6fa44f5f5c5abfb966a4be599cb86c7;
0x109b7f411ba0e4c9b2b70caf5c36a7b194be7c11ad24378bfedb68592ba8118b;
0x1d0a6d1a9519877805ac90d696faf2a5ffadc23986de8c698d541471c7244220;
0x2208aaba508ae816da4f333b7854fbbcd10eea1db284ec3e9f4de02b25f6e9d4;
0x28a58901035b2c99e36a7d29b587a215c9e59268e2f8e01a175720971ccf04ec;
0x112f6d8d42b0a0d123a07865ca1376df317a2a14ffc0191226f38a8adfd6238;
0x109b7f411ba0e4c9b2b70caf5c36a7b194be7c11ad24378bfedb68592ba8118b;
0x8c6eb19c016d1833174dda182d266d5c727f97fb4d01f1daf906b6d3c6e2308;
0x1359d2d6c8b5a116d0b38b95f9c642df75b1be9a48c8698ecfea9103f73f1879;
0x10c5052ec67ab9b6a467c1cc1878d91aaa07aacf7725f8a5ed42b699c4af3ca7;
0x583c4d292d54f3cdb708803e6338fc6afdb188d5d4e9f060193823684c96c75;
0x109b7f411ba0e4c9b2b70caf5c36a7b194be7c11ad24378bfedb68592ba8118b;
0x2d94a1c55be382151a4054c5b96322e7bcd1fe2b3e076e16ee2c18bfc06f57b4;
0x15e3402fdde8770fb997369579c1b1703ef77c671927ead80dbc64dd2211c3ec;
0x185be98784817f22f7b21e6b867d5a71b5000bef8bb902eb302677e20a727be3;
0x18db4321c721c03666ed8927c89890aa8aad1b00c054547b5ca14cd94de467b6;
0x109b7f411ba0e4c9b2b70caf5c36a7b194be7c11ad24378bfedb68592ba8118b;
0x2a852b6247f5d61f0c390b3f3d799188528849bcd2cd0aff4eb2134a039b5126;
0x2510aeed51b7f506e65fb9a18ee0124aa5276f6de1cd771b165930204da58f22;
0xf2074a32eb8260fb5bd3a236f03a47b47b7fb54dcad1d7977d6486513bab5f2;
0x2f4c69297866bd45a8270e19941926cec3531c9e12c4c2c84971404bfa044090;
0x109b7f411ba0e4c9b2b70caf5c36a7b194be7c11ad24378bfedb68592ba8118b;
0x154668727d2dbadf05d083a65093c0d0e92df5fd5f3fd75e9b792c562a37473f;
0x1e6ffc5d6a1ff5dc4fd77fc5ab5c8c4e8d3e2e375bcd1194a91e5b0f7b13cadf;
0x2cf1a1d7c44309109d75acbc9395cb8398c8b2d428538571fafa389da29990c6;
0x140fb39a89f26f6d87cf76cd5ce8da47aa5d8a023e24cf016ecf64cf793c9880;
0x109b7f411ba0e4c9b2b70caf5c36a7b194be7c11ad24378bfedb68592ba8118b;
0x1289d13d58a17b5bf0712b201fb3cddfce2c16dac159990b8298a93a8589f9e8;
0xf45cf974d2c9edb5781e8d3d207adc8370cf56bc5218749610920fe98b2db2e;
0x11909c81a16518046b79edfd24f5abcc585a81d1b333568b8687a1c9eceb44d4;
0x2990b23c81882f7709f3b891a0e3da4d6917672f2d5a1041fd7bbd6792330d16;
0x109b7f411ba0e4c9b2b70caf5c36a7b194be7c11ad24378bfedb68592ba8118b;
0x609551b14716ca3cd5560e0821e7285e0a083ea9a16dc102ecf461e4aef7277;
0xc8c1abdfab99d03fd93dced2467354b6175de1755f4f93dc0880eaa08d03f77;
0x138bd098c4923b9fbd02f33f8bec6c730db3fed298ec09f78a7a55d08f2e0b10;
0x2e61e4bc021630114673f0f77161ae55dcd0b45ce07d9ae3f21bb5a3190f14c0;
0x109b7f411ba0e4c9b2b70caf5c36a7b194be7c11ad24378bfedb68592ba8118b;
0x124860913e3df8f65a9c4060ce3297c626abd1c22401c905ddb408260d8e910;
0x13807f89c394a133ec104804d955cbe125f24c5701d98286c6ac8b7ed052ec8;
0x2e88d1a6938f0788132aa9eeaec08d2f59aa444050c8f4c4e85578abb0fc2fe5;
0x1f3d24f17cfc6050a0cbf64e1f1787e2257be3c3ba607c2e8fcc1f26abf3104;
0x109b7f411ba0e4c9b2b70caf5c36a7b194be7c11ad24378bfedb68592ba8118b;
0x1fe1cb0e2ae169f83b9d4f133d41fb5b3fe6c76a82a916bfd9b62f82f0f8d0bf;
0xef79351229409cd353329221229827e19946f3d8d1c48bf5e3377f9177071f3;
0x18fb2e46fc1b90fe1c4893ef77a9d111507551883127860e89088608373beda9;
0x77afe2579f42ec14c32ef0761e23a3cc0ad6263a68c5cb61916bd57120d1868;
0x109b7f411ba0e4c9b2b70caf5c36a7b194be7c11ad24378bfedb68592ba8118b;
0x79769092daa5a752642c04ccf8a6ea54e2ac9836fdd65d248b186f1490b7b99;
0x1d8bf229c19968f0254eb6e09c5c8bfd67eb9734606b676b663c76cf76bab4a5;
0x2a33b7d855e7fe55f93556e49e4b37737664f14236f17256428f29f6ec1bddad;
0x25b0331d7e2b15af4ec161c86e84ba6ab2056077e7aa7536340dc3187ccca8b2;
0x109b7f411ba0e4c9b2b70caf5c36a7b194be7c11ad24378bfedb68592ba8118b;
0x762098f5fe26598ccbf45e4810211b0ffcf8ccbb92c16e2f4f13f22342474e2;
0xe234d720d70b2886d0da4c007b1bda42362e144185c70716dece2b6172c2514;
0x1d82bedccd2bc8a06e3742e720b7fec2ea72182f11c0c60d135c811152aa4b60;
0x480064d4b3eb0ada5e9a3e7d05930b7c3397fd6b94d481314bd1c690a17c979;
0x109b7f411ba0e4c9b2b70caf5c36a7b194be7c11ad24378bfedb68592ba8118b;
0x10a892763b3cca9ef7593fbb1140edc8c8e4580568560cf41867f7464fb0c11a;
0xb5ec64548ea841ac921f9b2553680785978b315667ae4714dde4cd7f4de8b91;
0x10554aca4e348e5949761bd7131dfaebd78010edd030e1a9ce3c65c9db931d46;
0x15be66f38d86b0998b93655462b1f475b9be9de306e150d4ac648fab3db0cff6;
0x109b7f411ba0e4c9b2b70caf5c36a7b194be7c11ad24378bfedb68592ba8118b;
0x176ad3600fd3491182d182957ffad01bf6c26e9d4ab0c23caaf308e427d3dbe8;
0x2b6f355b3dbf65f09335001d705ac125e3beb20f4fc11bd3ce82b5cf0af2e6f2;
0x1c85c06a6d5d40d81d7c89edefb32d1a8448c51288fa296b6de9ff788c77451;
0x20e1e876c4746a0cbd9a51d76b2e25f82361c389e43f7d1f51a70aaac2460d79;
0x109b7f411ba0e4c9b2b70caf5c36a7b194be7c11ad24378bfedb68592ba8118b;
0x20e46219f684186d2a024b637bc35a29ee3b08ce737701392d987dda9217fa08;
0x2ea7279db9f2aa0f654e987907277c24480766367a8bd90e28be0f2ed6091367;
0x136be2a7f18924c9362096d472bc75ca0969dc077c9171b1641be95091780f74;
0x1ca2033501baa3f73067c4300fb0f51119ed5736fbc8f1f6c924baf0df5a0e9e;
0x109b7f411ba0e4c9b2b70caf5c36a7b194be7c11ad24378bfedb68592ba8118b;
0xa82f199c2505277ecaa75e495f34e3525824f7a4a9d9fa1da810832b48a50c7;
0xecf10485307b4bae92fefb0d7f7782a9f37a2722e7ed9eb7925a2dea580b7d5;
0x7b642138dfd6a6dd12aa22f08a8296d68615c8478f13af16aebbbb339a3936b;
0x1d9dda43a25593ffd2256d34921fb86ed70e760ba76d61e9cbc3b6dd0f1a2150;
0x109b7f411ba0e4c9b2b70caf5c36a7b194be7c11ad24378bfedb68592ba8118b;
0x2f1af228520c8b751dc91136c91c6bccd5367eb08213d392958ce2fd3d7d2fce;
0x1fecfe833ad540455c6d6c1ab3de4abae61ada625a1a2b6b18551a45a6cde123;
0x18fc8e608c735b2b3b0d7583460227575657ff8a77abe637bdd3ad28e4a23c88;
0x28f740bc1182e9706ebf03cb3f53aba8a43ce0b618783a5586388a7547faa815;
0x109b7f411ba0e4c9b2b70caf5c36a7b194be7c11ad24378bfedb68592ba8118b;
0x47998cc0af5a26b94ad301e4b998d29e960a4851cfd13822bed35b7146966a4;
0x1b5f1525b31db911dda43e415e1b9a3a9725c7b52e880ee130a14a692b777b70;
0x275a83fa5d19b4535f65e965a90eac9bf770ae9bd1d7b1af945fa57ed5c8de6e;
0x2e8789257ed2cbcccb430568e49bc9dc2a563359808c9897ce3e40a6f6a27aa8;
0x109b7f411ba0e4c9b2b70caf5c36a7b194be7c11ad24378bfedb68592ba8118b;
0x927f46cfe80feefeb2721a4c09e9d17f60c34500dcd6e41e2925a39c8e2c7c1;
0x1f868ae04832a5dbc37619bfe6ab6a97fd8fb2cfbc1ecf9e0e484bbfe7698101;
0x9d7a11e27d2f53109b73f745b2defed65d94ba80f308fb19ce6d56c9b45eff4;
0x282d857cfe8da3b5104e1c2823fb7c5b9a7b25924fda5995b0c351aa2b879dff;
0x109b7f411ba0e4c9b2b70caf5c36a7b194be7c11ad24378bfedb68592ba8118b;
0x20ba8a9fcec815b13f349ff830ae663b27576e135c0744f6987fb0f6ff49c217;
0x11b6afc91e32f1ca4589fba12e657d226d57b471ddd2ab1b66a8ae4dcbfb136e;
0x2e666402ac9cc588316e335c7d93db344788eec2c72ddf3f908141736cebc3be;
0x17522e0e9e64f795a202a110e283faad7057aec5c9ed9a1a74920f2794f18595;
0x109b7f411ba0e4c9b2b70caf5c36a7b194be7c11ad24378bfedb68592ba8118b;
0x2d2ed17f7a1f3ee9e20b470cad4cc7319e6adb40e2ff24b7878cb9878edbd3b9;
0x1a81efb19d7e1edaa96fa276e89e85d08f75e54a8136f4d73c937da16c7bf9f4;
0x27ff57c1ca847e57210a7b44e52e5630f299c5f451c7a0d515a16bb3bd33e237;
0x1c1a8e22230abcd13c5be96031bfa167840d117b3c6a5a0a11be26a7f5fb1a94;
0x109b7f411ba0e4c9b2b70caf5c36a7b194be7c11ad24378bfedb68592ba8118b;
0x2a1c3f15d4927c843627a9cd533e4250d81e7774d2c32b59d5836f9c19a5657;
0x2ddbb7239eb904d81c52499b37cb4be1af0373a10ac112e185acb219899357e4;
0xdff198393085a754e0d6faec54be81d8edf8bc25edadab48a86fad6da0afb60;
0x10d50c2473146bbc76275fcc589d038dec8db28728789f28b6d5f504bd1645ca;
0x109b7f411ba0e4c9b2b70caf5c36a7b194be7c11ad24378bfedb68592ba8118b;
0x61e8328fb5593f92a53dfd40e1022e6231ba45948506282536b08b4476c1538;
0x1b589243847198ded90b644bee31ac58067debf3f07d3c51cfa5a0dd9f6d9784;
0x4b00c0da1f851e59863b053bd4c6087190f0bdcced99d5ce6f67a420a3bd1f7;
0x239941a46c2b93d9126a70163009a7ac27f8a8d42e35018b3bec8cdcb5ddfd67;
0x109b7f411ba0e4c9b2b70caf5c36a7b194be7c11ad24378bfedb68592ba8118b;
0x204f26ca7993b03ac2c35377cb0a3712bfc9bc3ec0bfecb4e87ef6814acf2ea2;
0x85aff9c7fdadba039d832d8be165a1e5747cf7308d515e348ef117e926d721c;
0x249042a8dc111f27c4ae9db044c0b0b3f10e57d05e093158efd375df00ea2068;
0x6e799bcdf2b4a74542854f3029803e2f84550665203327b3e0825977413e96b;
0x109b7f411ba0e4c9b2b70caf5c36a7b194be7c11ad24378bfedb68592ba8118b;
0x1cb3caed4bffb6aca9f4d2c002921bc3fffed333cae12085c612496183b87996;
0xb47e9755fae480128a128bfd4faa6a3dd6ea03cab566889dcd99e84d310d51c;
0xc7e4cea365c2061920a0c9fd2c360a6506293bc024fd1ca3f0bb730da886a4f;
0x21da1f701bac77bcbbaa30d964d6f6f63dbe1b20d9d6988c8dcd7ba4187215df;
0x109b7f411ba0e4c9b2b70caf5c36a7b194be7c11ad24378bfedb68592ba8118b;
0x9ae612e8ba1ca1370905fb67899d10db86b47bd19965b6edd1a9486e3c6cc55;
0x262e1e0b56cac47fc150f284491190e6aab75445b0c99373fe1f7a0e3b95cf3d;
0x234bf4a7dce7587c2c87c293e3bb7c9e2a7bfa5f29fd4ddeaa5d3f67491d34bd;
0x2f6cbac694c886b02d0a527cac744fb658d2690e213d7432eee67f6cb69f70c2;
0x109b7f411ba0e4c9b2b70caf5c36a7b194be7c11ad24378bfedb68592ba8118b;
0x22accb18b7c49b4b7bb8c9fdf78b7aded52aa1842fff818d9a3300876dec3ad9;
0x81e2f0652f898c6d659f22d2c77be302eabd9182a0b3d3cbf623a1df7f8f2fc;
0x12c0a25e70d006eccea3ada75d669b8c534b962890f3ffc016b3186ad675b935;
0x10ef9c23848128cc2fd6fc869df24d7ab56efd349edd56f49f8d4f2381df3259;
0x109b7f411ba0e4c9b2b70caf5c36a7b194be7c11ad24378bfedb68592ba8118b;
0x2161cd280772819dd4a81262b71df1bcc2c1d41b9491e0620bda347962b240f0;
0x2cebb0ae5108318eb406590041b5248292533364f799bc41b7f4fdd12cb8d38a;
0x2b2092f86b5979a7fe4f7c22d9561f3bf2852283a656880fb759e08709a0a62f;
0x1566b3402d774b8c08146188425a442450cfc900cf643e7382b2d8507a065fed;
0x109b7f411ba0e4c9b2b70caf5c36a7b194be7c11ad24378bfedb68592ba8118b;
0x11a316aa31607f268fb4c56d6c57ba01627c3635fccf8d3d1a163e601d1a0173;
0xde7ee069c934256b782648b560e595408a5e8434644609152e353d9c2874e44;
0x2d36f4029245704cc84df0297708c5e5845c36ae706c72e67128b8949eab1af;
0x1b8cc326b5ee160f53198c217fb34e899bde46cd82dabdc284d7951d546f858;
0x109b7f411ba0e4c9b2b70caf5c36a7b194be7c11ad24378bfedb68592ba8118b;
0x27625da0f73ea07110689fb2187b71694cbf9203fd4ddf8a96ece85407550ebb;
0x1cd8338a3e5b1ad7cdc0da581a6950f6dea349c3edda06cb99ba025b94e4790d;
0x5ea02d65b209f6da763856c94b6438c78a8aed8d3e67e877a10a84072741a56;
0x9f7cb68d4e388f85366cfcf284a895d8b6250ced627e810817743ce03330a55;
0x109b7f411ba0e4c9b2b70caf5c36a7b194be7c11ad24378bfedb68592ba8118b;
0x18c6230ddc0f896827b043f5e58dbd1aec13995a202e4ebcdfeb969e9d5c1212;
0x73a6114b997285e1a91c0a0fdccdaa8452e4f07bfd2e1a10578232096db6dcd;
0x2e78746340b2a6d222c6a1fc0838adf5fe013f39b1660ce7a3e7742b2f37be7f;
0x7aa27e7150baddd06303ad8e5e4bf4249b7ea846553def28e675259d3e5c851;
0x109b7f411ba0e4c9b2b70caf5c36a7b194be7c11ad24378bfedb68592ba8118b;
0xb66fdec210ea4eabf623d2712cf4d9fa90273ccb4643f680cbc98345715ead8;
0x2fb6a29d9f394a589b633b8a4d6be51c9c0601ce0b140be641acea41c49aa5e3;
0x29025cc66fd041c4fc845e9c1c2cd1288569fb243d049bd675a69dc889b2ce2a;
0x150963f0aca9bcbe4126214ab9c627a6f7ed731cfa695168b85d534b17be3f48;
0x109b7f411ba0e4c9b2b70caf5c36a7b194be7c11ad24378bfedb68592ba8118b;
0xed59780302257663f72c1bfc6656eb7b5bca2e47bec0d5798a08a32a61a8a65;
0x7e19cb8a893369b3d30ae188c767f391c11888a3000debfc8d30c06143cc084;
0x600c7d2b6946345e5f1eeeafb5eb8ec2b6ecfe528d2c052cd860afb4a3aa272;
0x596083b6c972bc13022a1f33d6523b4773f2cd0a480e19ea0125119f0385705;
0x109b7f411ba0e4c9b2b70caf5c36a7b194be7c11ad24378bfedb68592ba8118b;
0x210b5c36f27a07d97f98b9d8663d85db2e64513099a8e1ef6db21043631e24c4;
0x13bb2764bf1475cfc7bb9f3d563c5cc201c2489874e9159326a8f4930b7883f9;
0x202cf557d625c26080eb082862a76757287872b181e89997219e4b7576e24d30;
0xe561c3f8bd4f76e76d49e97142d220601fbc5a03d905a4728ea1f95fd8824b2;
0x109b7f411ba0e4c9b2b70caf5c36a7b194be7c11ad24378bfedb68592ba8118b;
0xde20097480e7555471785de07bd9809d57dd859bbe827307c33ae9ed7890597;
0x72f2a6287fb984bb810df8c5788eebcfd2825613cb72bb80cde8edd76d2e97d;
0x2969f27eed31a480b9c36c764379dbca2cc8fdd1415c3dded62940bcde0bd771;
0x143021ec686a3f330d5f9e654638065ce6cd79e28c5b3753326244ee65a1b1a7].
Definition tabC_4 : list Z :=
[0x19b849f69450b06848da1d39bd5e4a4302bb86744edc26238b0878e269ed23e5;
0x265ddfe127dd51bd7239347b758f0a1320eb2cc7450acc1dad47f80c8dcf34d6;
0x199750ec472f1809e0f66a545e1e51624108ac845015c2aa3dfc36bab497d8aa;
0x157ff3fe65ac7208110f06a5f74302b14d743ea25067f0ffd032f787c7f1cdf8;
0x1b0f68f0726a0514a4d05b377b58aabc45945842e70183784a4ab5a32337b8f8;
0x1228d2565787140430569d69342d374d85509dea4245db479fdef1a425e27526;
0x17a8784ecdcdd6e550875c36a89610f7b8c1d245d52f53ff96eeb91283585e0b;
0x9870a8b450722a2b2d5ee7ae865aaf0aa00adcfc31520a32e0ceaa250aaebaf;
0x1e1d6aaa902574e3e4055c6b6f03a49b2bbdb7847f940ebc78c0a6d3f9372a64;
0x2816c4fa6b085487e1eec1eefd92ee9fef40f30190ac61009103d03266550db2;
0x17359fd88be36ba867000e83f76ffb46660634efbad15dcf4d4d502d427ff51c;
0xe3004cb44ba455a3f16fefbd0c026404cbac203c0f236baad879610b8661022;
0xa55f276af1ceb6ebc6c6820f334b26f11ca4af98c833bc1b496193d6b04a7ca;
0x1ee4b0458adcd4c4861a27adc1404a5981d320b6b8e20e51d31b9b877e8346d;
0x14315e2753e7fb94f70199f8645d78f87c194a4054e69872b3841da1b4f482f1;
0x2b7b63ecffd55d95c660f435ad9e2e25f266cb57e17ebd1b6b0d75e88a6a56d6;
0xbb56fa3e9fd48ab46d4e7295bbe1204b652ebe958221860f56e38db80d83c0;
0x50653bf5dd59edd6d15fa6071f5005057218b33a8f92a58b9c2656081249f82;
0x2c575423e24b522655c5a976c65d069287900c8d5825514098c5b13c86f1fcdc;
0x2ff3a2ccdee91e09a32f74232b704cdd99f72c1f78557a2ce568b07e218071d7;
0x1144734901a81c1543b8bc6fc9d365f50469eb89949491d3693dbe9c6238d90c;
0x1eff9a954e24bcd4af20b6ab74d89e1cd38bc694a9e75ea6da217a98db80cd22;
0x14707de7496c5638f97fe9bd7d485c20ead6bfdbfc0599791e49fad0301cd6df;
0x13d0de341ba819f90fe3ef1f7ce0a54d8538acdd9b3ef840a91d48ee536042b8;
0x26520ab1d20055daded712d59b07088458c18afbd0da58aee9f151a903372ba1;
0x68cb4827ac485fc6e7537a3c0a06d08a4c2790f5c65d9866d75296999f7495f;
0x7d6baaa2e587c21b03dfa0eb71136e2982cb389b438c8bc282748d0e674e89e;
0x15b92d36db02cb16b831eeab2e6ed75d126ffbc274cc3362370851526de13d27;
0x277b9ce89133de7b7918ad5fcfab7323ef5b9c1916b588cd7e5a0d814cbc3395;
0x2ae847b66b3c5d73b70b733040aa86c51f737092d65c3492d529000fa1802b24;
0x2fa3e8ae1fef974cded6aba6dc25cf567e16e0af29e675706643f21bf8efd651;
0xb1d4b9508cec4d19aa53f4efe46c57952dbd368fcbcd454a8b1087bc18a2088;
0x2d381014d01578b888b3273270babdc393ac392e7958be0478947fafa569bb0;
0x2e79a827c85406242523a94431007021bc865a45cabcba4368c41d4486fefec8;
0x207c99b7d594a5c61d7e60cc2365c4c0c804cd434098af6244f0a00c259b347;
0x119c124086ea58ebb83f14f262c693424360e97e6fb42ae8596badbe9edb2dca;
0x104ff38cca0f00173ccd0b68bddba09fc543f074f753bd8e413f8334f887a251;
0x2f5b5377bd156f89845811eb262436638dc038b8cb10e147a87df4c0e2384253;
0xf70e8e02d1d23968930a8e0db69b1c20204f3e3b4cecd101f81476d0b5ea996;
0x1ac4653a51071ae722f90a03f006d8575814db782b7f19f607dae4d56ad586b3;
0x12b12600e3bfd8e7bdfae5ef9c4f3805fa41e74acabf7de817823017a8b23db9;
0x11b9d19908919dacb7e0f8d0ba77286d417529a18a1d89c405ed1c30289fdd28;
0x2c350d245f4f75864744f88dbff8fe335b00f4fb688895c1363a7484ace820d3;
0x16a7f76fd2b2147db6ef94c22c78bff782de17ef73e52da7df82603f422b461f;
0x1d18d8024be1e96ec25626af06a139f6093545aa504033dac7e285d1cc3db3de;
0xc8cab1ad5998072945b9b88228f53c295466819fb94d8f6a9ed449be8f7c18c;
0x1a68d133d703cd406ca30041913ce3423c73b13384187ab1530109b756ad4f7a;
0x24a58b9e86ce823ff4c45342941417ff23d03c80fcdef9498ca0d860855e01a9;
0xe6315c93fbb89d38021148b6c35320fb793c41c6a4386d6aed6acfe2f952c57;
0x2c3806d99a69ce63299e876f5f218c7295d87224795d7568d558696e34c692f8;
0x59c893a771e94774d49a356494568dd376856ab89705dff25db8273860fa04e;
0x1166d9819c4faae8982243d0deb1f8977027d5cc56bf52ce260bec5e27e8b0f5;
0x12806fab3fcb09fc2b79406c3c203c4965fc7259112af2104312e1537327e0a3;
0x172015e0e33736058f60aa33e82d3dd73dc3ead89f98ded0dba35dcc1d8bda2c;
0x77ba18800d852d0a34f70ae8cfd68a080296bf9d47a1b40de7e6fd6392a0d30;
0x2094ecd768bfa8f0df0d78d0d946e1aff4a2d38e029e41479d6e3c0fe79fa8b9;
0xccebd302afe84c20ff774d3c1f650ca7cd0bca08baa1e261da9c7441a823f89;
0x5b9303053bb40c73671f5d55b4052e0d5549871f1b5283f01485a6b568cd05;
0x2527289084ab492275b4cd67d38311a2b816eaa68ee6bdb2389eeefd6ba4c721;
0x2222f9738290d8d5f2a3eacdad95f12cd4e7417ed2661b012f6448c7503877f2;
0x226c8208f26d69e6b7e02fe26557e6bd160fcbe27ee741fd1e581161c1789354;
0x216b208c0261f3c91faf609e15f7a9d4853e40d9204496b2441115d73c2941c5;
0xe0d660e046a259f3bad6829729b6ae3151fbcd75de33b122fe134ca3d5a4dd6;
0x240f039d2026b3266f39ba5c4ec48ac6ace88aadaef991498cd52daaa0ffbba8;
0x28c8cccf7b40a2c3cfd2eee0ec4d160a876a4dfeb408ffe333e92fa5e1ee4d79;
0xd7f81b4b46d4f247c4243f045a852cc957d2b2923d28eb2fa77b5a9844efd69;
0x2be432f87b2c5094a82c788457651dd8cdb0200ac3b42860cbf54475996b772f;
0x13ea39f2d63d9adae187af14dd07b533d45a63435e0ea4e5e555d35e70d4016b;
0x29e3b1afe1973be9cd1cf4b047325abfaa65cf2b98ff3aed47870461977ec921;
0x8db7d684e6b841b5e9692498f95a1f950a1cf1eb638bb4e48f3bc1a3c571197;
0xf4f1041a976aa05196da1c042124e3277ea1a28fb6eeeab4bec1243bd31618b;
0x5a9d0526d6f18c86b255f00e86ec34e7f8a26c251b51c21fe4c12bdc4c0ff1d;
0x284b0304dd6ce669bcf650c5ab85c89d4410d472aa6eb00df1b8d17e52f2f3ff;
0x2363e9b01a0163598962ff86907002f95902e725049294ca7ab10cc7aa3f06ba;
0x2c2db12647c4c0461dd3290a75c5f2fd8d7f115b3e040cb05dd7e3ad260d842;
0x2e3c42f671431f9560f3d0863ac445052422d5b993e9fda6b81486b14ffe3a74;
0x1d38441f228c0ce22ff2882560f5d7ee3b4c0caa101371cb7782ffd97af5fff1;
0x268141b0e49c59eab1d573ead4e2e1f379364dd133f2cec574c25ade2c794287;
0x2209cb2e187df1522810d3f28868da6cf52af9a65dbd7b806049f472d966374a;
0xa5eb2510e6f804d1830d7974ac1677d082034e5388bfaee91a319eca7c1ffab;
0x1cb2864c38800736f8f3ad98669d3ad7a9d5ee52138e96b8a7015e1089e36ae0;
0x2af8ed05bfc8f8ada547ee9bc6c7c6c5e8c15c6c0d380a3f9aa277273321b54e;
0xf85d1593b35be03f79b222885555a252bf1f0a3911d784132c49b1a96ac0f3c;
0x29095192ec53e0b859eba456295d95bc4567d351a6dad391b8b89707855008c5;
0x1a92efde1f5fa56aeb02b4c4b8f51ac80831f898c7843407113fbb6011177854;
0x2a05e8deeea15e4377c080aa70fd6a86dc73f3fdfa6b55f5610614c184b0b02e;
0x12119f3b019cc3fc46ecc80893e86f510b1dd4030b2ce28c9dadcd1e71ad4891;
0x42b6ffe687bc23a2bf6b73317286a543c60ed122fc225aae742c3a1c2dd3a1d].
Definition tabM_4 : list (list Z) :=
[[0x236d13393ef85cc48a351dd786dd7a1de5e39942296127fd87947223ae5108ad;
0x2a75a171563b807db525be259699ab28fe9bc7fb1f70943ff049bc970e841a0c;
0x2070679e798782ef592a52ca9cef820d497ad2eecbaa7e42f366b3e521c4ed42;
0x2f545e578202c9732488540e41f783b68ff0613fd79375f8ba8b3d30958e7677];
[0x277686494f7644bbc4a9b194e10724eb967f1dc58718e59e3cedc821b2a7ae19;
0x83abff5e10051f078e2827d092e1ae808b4dd3e15ccc3706f38ce4157b6770e;
0x2e18c8570d20bf5df800739a53da75d906ece318cd224ab6b3a2be979e2d7eab;
0x23810bf82877fc19bff7eefeae3faf4bb8104c32ba4cd701596a15623d01476e];
[0x23db68784e3f0cc0b85618826a9b3505129c16479973b0a84a4529e66b09c62;
0x1a5ad71bbbecd8a97dc49cfdbae303ad24d5c4741eab8b7568a9ff8253a1eb6f;
0xfa86f0f27e4d3dd7f3367ce86f684f1f2e4386d3e5b9f38fa283c6aa723b608;
0x14fcd5eb0be6d5beeafc4944034cf321c068ef930f10be2207ed58d2a34cdd6];
[0x1d359d245f286c12d50d663bae733f978af08cdbd63017c57b3a75646ff382c1;
0xd745fd00dd167fb86772133640f02ce945004a7bc2c59e8790f725c5d84f0af;
0x3f3e6fab791f16628168e4b14dbaeb657035ee3da6b2ca83f0c2491e0b403eb;
0xc15fc3a1d5733dd835eae0823e377f8ba4a8b627627cc2bb661c25d20fb52a]].
Definition tabP_4 : list (list Z) :=
[[0x236d13393ef85cc48a351dd786dd7a1de5e39942296127fd87947223ae5108ad;
0x2b257df708d2f3d6785ff39129c7f268c13aef87ee92e9096bd6bd8d2989a74;
0x224a7cc70daf93a67ba74c0f2d80c5b0aea7ec1bb1f4e17ea21ff147c58b0a1b;
0x18ce43c42faa57788e66b11b59c98363b6970c4fbe9206a0986ac7a4438b96c9];
[0x277686494f7644bbc4a9b194e10724eb967f1dc58718e59e3cedc821b2a7ae19;
0x27907df41fa277d8c74c3725e5b8be54f4b35d3d0b6e57b26ead3cde3d431897;
0x1b7e85dfcfe013c45746d870fb2114991d43131fadbf80494c01d5b105d44a5e;
0x2c1597f81dc951f0b27440567676ac64ea1b184e65eb25292cc4da61d8bf9824];
[0x23db68784e3f0cc0b85618826a9b3505129c16479973b0a84a4529e66b09c62;
0x2460a032cf84ecd1f57096c9d21f5d48d1b21abc6d70277d7a75946997aed17;
0xc7a2ae4396db1838e5cb1ee490a768c1777efac919031924ab242d19be92806;
0x8c2147f957a152ffc37eec7b1cb029c07ecfabcc84489502a6e052aa6f94288];
[0x1d359d245f286c12d50d663bae733f978af08cdbd63017c57b3a75646ff382c1;
0x2456b3c4841aabbcc4bcb4950dae4a0f8e60cf0511decb8b67afdabeca0dc590;
0x1a2e45b92aba8f36f92110d68941ce37d39fe27d02b794d53f7b961b7ed377c5;
0x182d95b63ec720b3af3a3bc6d0a6012d4885ba5754f32aa1f1d92ba130fe5745]].
Definition tabS_4 : list Z :=
[0x236d13393ef85cc48a351dd786dd7a1de5e39942296127fd87947223ae5108ad;
0x2ca7b911ea4f6a11da0bd5e72ab3cc621c5908b59ff3d76c609ea9c2fba8fa41;
0x2de5f3a5bbe5b20d77ba6a6f8ffe2db01ff5000901b9ce0140df133385fd9506;
0xa150cdbffe3c60c7a52cefa903bbee4d3846d24339f926c3655cdf9f81f67fb;
0x2026ad7e03636deef47934dd0d5dd29d87056d172e993bf5e96d6a3bb32d2e9c;
0x232507a3d48ca163c5e1b6f5bf391141524733d9cef80d404fdf78393c90151d;
0x1b16b96e6aec89d326a5a6c18336ec3c56e7189f8c1fe74c5c46074b865a1d83;
0x236d13393ef85cc48a351dd786dd7a1de5e39942296127fd87947223ae5108ad;
0xfdf5d15426498ac82411ff8a7a3884894f02c5242eab1dd7fdfca1cfdabd35b;
0x97cfa1218fe00b4edf8ce61cd20b4f8875ea5c8282d90f6f7153c9463bfbd95;
0xfd1ebd67968d1e49926c3952aaf96d3558aa856acbfe48e5a9fdb4285ad9bda;
0x27d5dc47f678316695d548d3b4fd1b00244a11d4cb753edd917d849cfa02fb8c;
0x2602ddd7ea3a280860321a70aa806562a57bebfa5a0f5d2770f3a169b88ae244;
0x2fafd30b7fac7a6699776892b07366b40fa387bc4141e009ee42070337088a89;
0x236d13393ef85cc48a351dd786dd7a1de5e39942296127fd87947223ae5108ad;
0x1b2ac2c9f97eb32560cee0b8e8320f52866b17042d2c7c13178dbd963936517;
0xc6db19118e83768bce24e1556ab9d383adb0f4f2b63c3f540d5b5e4deebb1f4;
0xf94cafc14403845ea574997bf75caba6b2016ee5a10de57ae35923c9c6a2261;
0x9145c337938ac3f71b78022c80fcdce4c1742f47dd2190c31c3cc5a41980f5d;
0xa0ca462d8ae218e235b6f24f4c17747886524aded7e4f3a59631497a4f98863;
0x1851288ccce2bdece3a7f68ff33b00cb961e6292f2af29c775cdf6ce3fe0777b;
0x236d13393ef85cc48a351dd786dd7a1de5e39942296127fd87947223ae5108ad;
0x9ad33992db79124edac791c80e82876cf3a60a043edfcd7bfb5a93ee3feab08;
0xb320d1000c50439a989886c4c11e711bd26667e61c50afba9d347cbd4b312f3;
0x26123488a4f037ba7b2a51391f25f91642ae52bae1435dfe32c5f47ce63f68a5;
0xd7a4403c3407d64ff5f63275add86c161183b2f1e88dab842607a8f3fcaa270;
0x2cad68fb4be69ca135d9b37e2d3084557efa6423a9662f1fb24150b310c71727;
0x2e122deb202b0e2c6a25e15226c09b9564cc57a8fc0d3645be77c36f8f27d4fd;
0x236d13393ef85cc48a351dd786dd7a1de5e39942296127fd87947223ae5108ad;
0x23e090845b17c18cc12ff83ce7deb2e58cff2f37771c39cd0b68ba14f4cd65ac;
0x8b041b40e47ef1883a30a5e631cb1e0596543f5c240701002be9d495d59a775;
0x19d0ad6176cd87e6109b92dff1b863104182e2c85bbaac5330b2b7a4b56f9a6e;
0x11296e1ff67a98dff758d023ea74c5fabe372a797f86a621bac4bbcdf31878bd;
0x1b0943c04cc4c3885335624a4df555ff89e439a40e6691d5db44732aea1b36ab;
0xc2cb45703a55a050e57ca3e51bf386b2cba4d5dadeb1749f8a6e047c5e9ac1d;
0x236d13393ef85cc48a351dd786dd7a1de5e39942296127fd87947223ae5108ad;
0x20c061a0f70692748ab2f61b7e52e5ddd5e704e51de165eb19312700eef604a9;
0x2aeb2df6a12c099b42c03dac1557681f03947ecd76426d6cb8a749dfb9f964f0;
0x111fa84f899677752592a75d53083c3188d97a72d8aa1be3835b681bc6813270;
0x1aad37ed6a2102cb892b98a7783fb019752cc8c0327190be544ad76165251f90;
0x1be6d262a580b10956cd6163ef221f3d9b0dc3e5cbc7ab04b3f8f2a0ffe86be9;
0x19fb44907e93686f59b9f17c0266c8139f8f4d8a5d212503bec1c6ef72409fca;
0x236d13393ef85cc48a351dd786dd7a1de5e39942296127fd87947223ae5108ad;
0xccbd07f12f007d8f30c6150e395dacffde4eae8fa51bf6bea1d6a7c421a586d;
0x9a3428b0108143dc9c78633aa3bb37807bcd9603406be211bb286e42b58cb52;
0x2a7ab6ca90a4e66f52e863c4b0f515148798ac8f92661b2b816902e915d8227c;
0x179239cb6d96131ef12f09a58f9535b66b23c4367bcfab687e9a7c3c880a040f;
0x7f9eff8cd62907b5d607140bd0b0944d175f17abe2b2eed814b6463ad29b8ce;
0x2f44cd6674099eae8cee5c6f84e9b25cfd7c801e0b457278e83fe4b511458c8e;
0x236d13393ef85cc48a351dd786dd7a1de5e39942296127fd87947223ae5108ad;
0x241d4acb53e51cee878b7d23223fd33311ff0aae81f4faa07816546eb732d8d9;
0x13016b694f63245a8a9b2f09a84bef7c0711bb8838b3ad49e0b7838f6f644560;
0x240a3ff47c2e7332534647a5a2fe278aff069cc479fa000d7c31a78ce2929bd1;
0x1a510b683ed295b19be81ace3dfbf7cf1061b07a18579325f7cd001d38146c30;
0x20c4eceba419b0575a95e295d84e71bd1a928d5ccca5d79a809059de3342c9cf;
0xbaf9899a51723a56cda43c1aecd6c096a499b57ae1893e16a28908bc5dcff6a;
0x236d13393ef85cc48a351dd786dd7a1de5e39942296127fd87947223ae5108ad;
0x162315c3b31a4d5b766510f46974ff89071424364fd69c9bfba1b6e0bece8eac;
0x2f6a4f9489ad4e1439c806d757799fd6ee58ca5d0560d15a8f658c6eb86f47d6;
0xf67999a01cf660e19180113f770041cc147a335e19f545e3f31a61bb6b4efa9;
0x9146d7f035d379789456542d3d727b593a6fc67252a631ec407053635478fa0;
0x2e44a6eb2efede0a5768d8491e4c86bfcd63b0ee2f383b74d62af311cf91de5a;
0x160631bd9c54749181816c9aca5fe004260ee7a56fd35fb56977ef04911d5e71;
0x236d13393ef85cc48a351dd786dd7a1de5e39942296127fd87947223ae5108ad;
0x26f7f151e37cde405da94d5b7e897e9768862af285902b590b636e12bb43c7af;
0xeeffd18325f8754d15db8adf98d290ac816cab0e4315306b2418068e78dd02f;
0x284277b5d2b0fd66df351ff703419da6b1aea5ee405bba09bd4a369e6eaea49a;
0x13584c5168cf2fc77f884d111e05fa8512e7cffec60dd3a105503196d682ca12;
0x1ebd55190bbbaae0e9dd1af991eaf3ae13af0e71fa686312224c886c97e9e2f9;
0x13a449ace196028aea035af0cd9d5b763d29f8d292443a762d8be06b1e136dfb;
0x236d13393ef85cc48a351dd786dd7a1de5e39942296127fd87947223ae5108ad;
0x21fa424cf90bf0b715656aeb3d02acc326cb56880bcd91602efacf66164bd07b;
0x24694b5ba9200603bca8f52d73d0f3fea26c0ee1939d2cec8a9bc5f961cd68c7;
0x1a6d98f744fca59c910dfb19ad89d7c25f2c719332edbbafb6cc85c190e4e170;
0xab904b12244246c2dd95c69a28ab91d2c34e641f697b5361bd91d1625c937dc;
0xfd87c8923668cce921af698cda67103c048864129954800460374ded5b86770;
0x2098ce0512ca13bea1141e48f14bc691b410cf81de7f597d062465e1431c4c2a;
0x236d13393ef85cc48a351dd786dd7a1de5e39942296127fd87947223ae5108ad;
0x4d94ebda7313ce25cd0dfcd1dde7992439daae630c054d7cfd6d690a85c27e9;
0xaf2fa274dd5b1e16568fc4613e76c9ab4fa99d09d10105e98bd9b92b82ea455;
0x19153b7441c48cd270b491762e96e470858714e9650aac65169577d2fc755af4;
0x2a5c69d030248d78f70674af65d92a908a7c27c34f32f9fd2417450e0585254b;
0x436d86f139382ffb61085560e2592290518eced5230894b4a8bcdebe06a88fb;
0x23b40e7f1bd0b7fae8cf2ea0608ace9299b903ac8d9994f7448bc2e46090af99;
0x236d13393ef85cc48a351dd786dd7a1de5e39942296127fd87947223ae5108ad;
0x21427832371fd1ce0efebe904a3ffae941142d4f35ce77e064e256ab5937653a;
0x1b527a15f36d4f03015a6ff483cfb5c18f8b331a7caf79237998fb914dd46149;
0x13d847e25b71d35789c6cde81ad9ad9c1afa6ace79ecf363920dc233e5646338;
0x238b13365a6b8fcd6580ff9f4bf267b01366a41d7c326c826be7dfec751bd480;
0x2fdc1ab225df187a8fdece2e14114cb71f01ed887085eed22731ded19882966b;
0x2fc9fa00830e2671b36e8eeec5c369a6b3fc27bd96905b5fc220fcf0458d1c3e;
0x236d13393ef85cc48a351dd786dd7a1de5e39942296127fd87947223ae5108ad;
0x101b70dd04be642aa07377610e3ee7d630bdb12e3b26295806b92e9f482151cb;
0x1227872231f192f1c81440c79fdebe597ce8ad03894cb07ac9b3423e4db90d10;
0x1d01d734b7090603174951fe6d338fb3cccc00c0accf2ac8d45859f45166305c;
0xe593e9c0177976f4caa991e54fc7eeae897fb723a9fad08a811b296f3e7b10e;
0x2fe9b7637f54d7060ff768205f9e161a4cb3bd9dcf14a8bbcb37743b6fc60c16;
0x26ac179b67db2c393739a450573022142905e5faa7e8efdd1c717eb603a6d9c2;
0x236d13393ef85cc48a351dd786dd7a1de5e39942296127fd87947223ae5108ad;
0x2e26f19972ff8bedefb7803e3284690f4fc7828cb0bcf3b5d5697b82714a171a;
0x7f4790a30254f654fb0a465c42217421998843693e2c2320e58cdf31a77ceea;
0x16adbd595b9959b8b903db7df15187e66b7f6fd433fd2ed3ca0dab8d45f8d031;
0x1341399558f697e9e3b49e50ad3889a7a6ac1b7a169ffe1575a3172a4f33c75a;
0x2c8e714ec99e38714e1d01b984f863c0d8e05b8c3b7ff6fbca20caacfbf3bf4;
0xaeb4122ca96285c5eb5b52fe2c26355db417406c567aa6c35dec7fc58ba6176;
0x236d13393ef85cc48a351dd786dd7a1de5e39942296127fd87947223ae5108ad;
0x24f5e61cac001b78c4664cdc75cd8d75bde602e45c6dac698f3b28ded5a75604;
0x158dab8b85f4412fdaefdee4d4f1fecb22f433672964d2ee7730b03663361f1d;
0x210a7fd894e483be032c8e6876957968f2152a9f1eded11c3cd26539ab12a213;
0x27dd83e178817fe22e022c22e620afb88e02fb15346322b8f70bb26485b813ed;
0x28b60c3bcdd4693b01f111dab969ee5dfa4a8840defdbf2bbf38604ce4e23e70;
0x5c56f683ea2d1d507676f03c411a29c9925215ca5d8e7f28a3da73cd7b513de;
0x236d13393ef85cc48a351dd786dd7a1de5e39942296127fd87947223ae5108ad;
0x1ef913d33b18f5ca1d000c2209646780c4580869163f287c4fbe537e270c308b;
0x2f77767437b926272dcdeecd45416aaa588551a79bfeb15fc3c76d938d12afcb;
0x2da62c50f92d8dcc0f6fdd909051708b0c8f21f966ad57ba303370f00209ed21;
0x118c1924b687d5268424af23862f95eb629e1c699a7c27de27c581c495ef159f;
0x1c20f20b601f89d66abc8e1854d3f29489de9a559584b9df842fb988980133c4;
0x19078ba50370eef76a00f6c89217183bba9da58fe15d8a07c565caa019147772;
0x236d13393ef85cc48a351dd786dd7a1de5e39942296127fd87947223ae5108ad;
0x90d697c32be00d8b71f734d1f9023cdd11a587b51581e763bac5b3c766c5043;
0x28309a912afc86848b67f7d85be9603f34ddceac4385e702f3662b3c2bdcf9e5;
0xb100f36ac254ea63a6b92996445318f7053603e181261d07051400f302dc3bc;
0x1931597f6dfad68193199a2166736c0c7e874189ca4d4d2555ef9d964b06c93e;
0xb26976995fcdb354ec5c6c50e1b29139fc3c0a64709cbfc2fa992effa833800;
0x2dd919c2edc302e56e0ece7b8537905feaa8c6dfa6c6130f94d68f7380bca019;
0x236d13393ef85cc48a351dd786dd7a1de5e39942296127fd87947223ae5108ad;
0x278b0231cff85bdeee497f6274fda5e07cefaac1ab05ce89f863db3fce5eeb29;
0x9ee1dcae79dc90e4cf0d0fb5e6bdee96fa6b751adde822d30e3a80b1a5bb506;
0x1769f50fb961ba50df8b9e03a12fc37bc965265fce93f9762b274328fd04afbd;
0x20a99da43235a2bb30b0ef58d708d07740510f517b2eedb678a94aaa4edbdeee;
0x11b7181ec0f9a1485d84cd91c342f70e1924c7a85f48a33e7bf8b5dba2b8b7a9;
0x23453eb1a5e44e28b31107f29dc6a7bf4818a7ce156d2c7e81dff75cc02e937a;
0x236d13393ef85cc48a351dd786dd7a1de5e39942296127fd87947223ae5108ad;
0x2abc91241e3275e2028d68130f5533d6c8e3d1ec2942632fa4b91a49fc762880;
0x21653a887bf627cba0b5a35ebb3329f4602afd8440ada0050c31b249d962f86e;
0x2ffee525440cb92eafc518b16135ca00df2ccd813bf1f9bc458252d7ee478def;
0x104bce734fb0322de9a91058ffb340e35c212a8af5c5b6ce1817344d82137d5;
0x12db34f34145195e64455a298fe597ce8b757426784cc53975ed5a439b91c12a;
0x13a9a61ca0008c1b911748f5593bbeaf633308428e4e85378214be04aef88b1c;
0x236d13393ef85cc48a351dd786dd7a1de5e39942296127fd87947223ae5108ad;
0x14ade7cef88a7726d51eb001357d8bfce8d1d8ec79472f6f2531d94792d4707a;
0x24baee921a2b827fe96835346b85a3e94ab75b4eb9fcab4235cb9c54d0a077a6;
0x4dfb441b179922b9e2ca9458de6d3aa0c653beca2fa7317a5d1fc4138e8782b;
0x2efdb84c3c6faceb0f58fefdefc09e447ea2302291d3ab11101d487f3c679ee4;
0x24d861650389f03a0da9d720f25df6e7ab3796ab597ed63d38055431655bbba5;
0x1f8b2609f6999f6b15577697e90e891fc7b691c30c2695278042c2d152aac2ae;
0x236d13393ef85cc48a351dd786dd7a1de5e39942296127fd87947223ae5108ad;
0x242fed5519f01070752e2e3779757e5df21033baaab86a9fbdb1a54d11cd4db6;
0x6dff8e392f51302fd8864de5068b943a2b04fb0b239c38b679faf689d69e1a9;
0x1ce5db5cd27794bbda0f7215bd9404f46502d2b601f74fcf2cb1a5b7fd440fbc;
0x16aea838ec8bc6e8b8f48309cd6e783cb4a337b92728f66f701f0d5efb32a80a;
0x1fd21a8ff13f0ef12be5a125bfbd5e952ef1e46b4f3747f3fbd8198209d4ea95;
0x125158b21d677618076854954d977c35a6313a1f37564e36bf6d072d2500df6;
0x236d13393ef85cc48a351dd786dd7a1de5e39942296127fd87947223ae5108ad;
0x2bb8e29cb323e3e2879d93d36e9312bb3c38a922cc6bcc1689f72793f5d4a18e;
0xd0e2ecbd08e247ae7aff1bce2bc54ad1603fc2cf0ef32822701feeebf4e826a;
0x2e7df0f7b842490b3f39d0d87bbb35a90cf23f3cfeef3c8a4fe4716a47699470;
0x1d9dd609a2944aa782ecb1a08acb5c0bb857c7489920644f6839c93c10b37837;
0x11ad269471d4b36fb23aa243904a0290608c32759020f082cda8b4d538752109;
0x2d2f546cbe60a9822e205c3f3fd187bf89f6def774c3f988de86e4eb91595bea;
0x236d13393ef85cc48a351dd786dd7a1de5e39942296127fd87947223ae5108ad;
0x28113fd3a8d3b95ebcf29f2ddb54c6d9ea034a51e3bd1198e4c1f4f1dcf068d0;
0x114ed46d49b389b14c202ba1c069ed4d836c131dcec2472f4bb78f803b90025b;
0x14a217bf8737fb3570e38b75cbc97b316ba21db8a3f316aca5a26ed35c0d1424;
0x16c9e7a58ddf141978209561d930058233b8adbb9e3aec9702ff674c22b009d0;
0x1388b78b9ec0242e402906d75be419cf92e3dbc2a5152df9797318e004632793;
0x2a459318d3f7156d87e3c666a8f7626cfed0d30fca28ef7927513b1f7a294b07;
0x236d13393ef85cc48a351dd786dd7a1de5e39942296127fd87947223ae5108ad;
0x1f3df3ca1c4b854792a69d107bb7e6e7be2f479be397de83c94cb310e8e821cb;
0x2869447a669cafc20f1f9017028e3098b38a82fdf3cee59d9de2c888004b41e9;
0x25eccbdcaf0a67d5ef15c7baaef8bd2a4eaa1a6d5d70385ed777c10db4796ff7;
0x24c26970e999f27e6351f1be0a3211c0a177cdb778ead13baea9b7b4be3534a5;
0x731afc922ad48a9f0ce9d635e26ba013a7d4ae8d52d4fb75f0f02409d83433b;
0x217044abaa3c9ab6c51927ad1061d0c1cedc63a90b01b7b5f1c10974e66f879d;
0x236d13393ef85cc48a351dd786dd7a1de5e39942296127fd87947223ae5108ad;
0x26cfa9ff210943f6b07c08691c2eddb1bb1d2167a417912ece724706b5c20b0e;
0xa5509b4fa5bc8be630a2ca7c40980904713b196e36a7e9f839c4474037e049c;
0x1c4dc788b6131f9dd132c2edffc7a46ec50b000383faff5419392f0d291c3475;
0x150bdab59767a62d994ce37edf2c3cd5311abd0bfe541fb30968e19ee2601053;
0x25393627a593730f4cf25a068932d447c1581f251f9a7b7d86cf9e392aca0d31;
0x10598af7a84cfdb4c458ca7625dd8b18509491e7109db65bd8a0f80d8778a6ae;
0x236d13393ef85cc48a351dd786dd7a1de5e39942296127fd87947223ae5108ad;
0x1fd5ba5922d7109795d5dba77bfb57ba6aef1bb6aef0baec38d0f916d35ec9d0;
0x439026e268ca0fa85b1f6ded27c854552eed2629ddb59e6a679d4efaea6f218;
0x1d5d47eb657ce510b9f9a17e9a49d6f0040f7f360399dab7f053faba3f06286e;
0x5cf07dcd831c1c51062ea271b402941996f46dd9df0fbb227305a550f42697;
0x24ef1615afe18b0ff998bf9e1fc69fedf38db66b2257f4bac76adc04ce92e029;
0xce1da26cb97828162425a7236c23e8f4b7778bda9d7d514b1b8fc9328087c2c;
0x236d13393ef85cc48a351dd786dd7a1de5e39942296127fd87947223ae5108ad;
0x1355e415b0db4001ca01503bc20232a49e67f0e816dc90ff18a4280437e9e9b8;
0x11fc9669cbe3bf176da65f312e409d635dbee3fbf8f3d1d6b056b48473cb451;
0x1d6c1910236789557b4c42df0191d2a46cddd2838ec6a74b7c308f023e71d4c5;
0x1626f4d2cc7f2d46d7c9c97030c1b420d6c2d55033f7becea7d377541b19f57f;
0x210c4bb43d712b400d4bae4bf8dde436786fc88bfcb82570b3e235ddc2982115;
0x213fd23b04ea9e58ea915c1fdb460f3a0ac4b0041afe80f6ca1ba9e1a0e13825;
0x236d13393ef85cc48a351dd786dd7a1de5e39942296127fd87947223ae5108ad;
0x2ea430efe8ee1f2c72ac009258a1ad98b87725c00f72d27a31c445046bb9a80e;
0x2d694e23e1b3f6b632b646584e76fb7b0d35aeda598fa5069d73c75136bd0272;
0x2ed754f34a22fe04fbb3635776e0894d21cdbf4cc6e03b8bf33787883c1a0db0;
0xf23e64e2b59d750be3bd037f4df62f7fbf16899400e69554b893f4afeaa41ae;
0x1cd301878d6d778480ef82b2a3cb9bcc36362d198e44c204e490cc524a2bb2b0;
0x276d797b67c8b3d935a71d2f8342bf7cbbd68de537e32c466f95a01a5a207f04;
0x236d13393ef85cc48a351dd786dd7a1de5e39942296127fd87947223ae5108ad;
0x16e8ab5ced34e81dfe00c24c7fbd0f4188351be2b1b26b6d63a1e02b84aea6b;
0x1caf3b10ac5814656ec2d5852b5439f810c8dc0a4fd6ebe82d9f33134f60c7a7;
0x225f97bdaeb6a565372c547e9d6c354c1f78fa1998cc3d92c28212ec7edb634e;
0x2d828acba9e58e0f3adf239a3689449515a1ba244c13b0186c827d600b7a7358;
0x1f9da4066a62e0cf290cb839bf62c9a49cf79b0ea1affe03696062ab8cb9d39b;
0x240706e2b81b5b65343b41e59330666d2b405258c4b9b177495776c2b1b6816c;
0x236d13393ef85cc48a351dd786dd7a1de5e39942296127fd87947223ae5108ad;
0x2d0f43029750f58be22d66c5b2963ac6b15b18c6e9d009b717044859fef9618d;
0x14237392b60352f6c8aa0f5c08024beb882ab82dbd3e790cda3898886aa3e9bb;
0xc8f3b03657beee6e1f94c98662b6339cfb7db5cb431fb9813587ee3f194d260;
0x18700b515de19b3256513482566afcbf490e55633dc0ba574c2fb4efad1ef118;
0x1c3b0a6645d002a9d1e18721a96d1e8b00217bdbea74ff1340dca47e6a326e26;
0x2979c4d21f80db612fa98aa90bbd65e2cecc1ea431849612005a904c08bfd014;
0x236d13393ef85cc48a351dd786dd7a1de5e39942296127fd87947223ae5108ad;
0x24509dfe357470309be062b07c05dd3df57d7cca62caa26001991820ce3af97f;
0x2bedda6eaf8901b78a0e53e25dacd92c60673046c86deb333ce4798bcf9357e2;
0x1f1d984e06825a3da53ac4066d4910067f6e0ff13ef83152cce3977ccb273404;
0x1f592946ac103f244d168802c352a7e2dc52bd2e53d3ef2f4a7571af810609e;
0x1a975c6688744220ac1e3d5295126f8ee0db7ca6283a176585e8dd5bce060ff9;
0x1a78319fb62d99297737e9dfdccd57fe6ffe0329195b8ff713a2d6d33596a6f6;
0x236d13393ef85cc48a351dd786dd7a1de5e39942296127fd87947223ae5108ad;
0x2fb4c2f41520052bd4498be87f445b3c62e86ca7d872dae8fa99c67b5977d11;
0x3162b367e9f34180f2228d505e54dbb7f2f23a3a8fee14f3084aea490fbf3fa;
0xda5cb94995f668763e7c6ecf96dc6bc13943abf3e49c55a702d37f36f79114e;
0x2575cdf1a61befe9fb7b83e880e8cc23d82600f35598ea2f81ad1bec1bd701b9;
0x1f83d6c20646a7e089a8fd0ad274021af2fb24e315f400dcb3d26a99ab5a35ae;
0x2c774cf487f79664580219c9d698781249e47b432767b0cbaf5169a5079fdb42;
0x236d13393ef85cc48a351dd786dd7a1de5e39942296127fd87947223ae5108ad;
0x203c1b59256ff5c004e70c2c5125ed51cc53e99390a8de9018e647e1be8d9888;
0x27abfb2e0894c5b4279b39b9319fa54ccbabd1efc509b31d906a1b5f764963c1;
0x2fea2fd0f35fffa4f84894b6525b3fec299c821a4766a78c829c2e7e69efbf0b;
0x2451d54dc48cb608f2e96698b96fd545816fef09dcaea75c9928179373a66fba;
0x17c5d4cbf713d33eb7c1f915dd2b0e439bebc5510cb409594adb43f94b7a0e9a;
0x279fbf4382e4b2bc46c1a8f719063ddb4226bb09c10cd68008b37c7f32d469c;
0x236d13393ef85cc48a351dd786dd7a1de5e39942296127fd87947223ae5108ad;
0xeb7c1194600e6ced3d8dc88c8689704d4188dfe89970dd790bb9cb600652321;
0xa0e776c12cd108cc589b14e8493dc743d85046b1c4ca97715ec501fcb166ba3;
0x1a8a8487cb8a60bce5774f64f62d0bcee791dc32d3a6f872f7dc626e4a732948;
0x16f103fdba708db2bce8b58c467a05bb8878939c82852921e94e5e955aa09ca0;
0x27a57324ff8193272833550d82f749d1389b493f98c8d3473f1a98900376325b;
0x26e4040378441fe8a60d1a5319aab70076c82cc203530d82e758844070c04860;
0x236d13393ef85cc48a351dd786dd7a1de5e39942296127fd87947223ae5108ad;
0x71846aa99eae694fa17d73eae87534f09c4539fa5c3b79ea6bc56d888dfa9c1;
0xcf75a0326b8ca3e2ad571834bc835c083555587a928fef417730656217faa2e;
0x1b80702e894d74821bfef8a2dae36f71d4802940f63a14fe64b3081340c4f11b;
0x2cc49fb1ce9198b927ab098ec9f454d205342ab49677037f9ff7f08e3f07ce71;
0x1a6e74bef4b0a5b3566facbf770a14bad98d8b6feab3e45995a328135888e924;
0x2ef1e0f0bbff91312b2c9b4710ca04f4e978061ba53657e9bc1893bdb2e7c7c9;
0x236d13393ef85cc48a351dd786dd7a1de5e39942296127fd87947223ae5108ad;
0xbb77a79511909681081da11a13c7abf3107373ba413ecba4d47ee5a0c288fac;
0x23d8b2e6869d7d05101d387c1b8cde6b85b7fe860e7eed2944c50d099053bfa5;
0x3023a8bf03a803eda3830c500d1c0e061fa85c4c15b72459475e3de290616ae9;
0x2b27c41a943be0d396ed3630098ff7018767161fc1a24d25f47969f1a44e20eb;
0x2a73bceed9ee2a7261290c8590e2ff679582a3a6c5988254ddf6f108f1103e13;
0x2579c47b76db59c6206ef023b59884fae08ef6a697acf7e55b6f132fd7733bc2;
0x236d13393ef85cc48a351dd786dd7a1de5e39942296127fd87947223ae5108ad;
0x2a5993c9c2a80be0f4b0a6f9c432e2c0604cf59d5bf5bf24609572d7d0acb900;
0x10faea103aa36e7d5c7bf760b355e0fd381a393feca3c04450d7faf0f6a22804;
0x2e98e92bc9904ca92c3e6d68fdd79e8bef6123ad5174f01d5dc04a240d8f47f1;
0x119937bb5d5d9029f290239eb94fe86069f2db6bcedcda8a1028e0b7a434428;
0x7c67a48f20850fc8ec8c735b73e07af2a08f52e7bc90084e9609e97f070cf2;
0x2da7855de0bdab6e993fdc9ece5fadf00c5d39d58f6599a56438aa2663cc35ee;
0x236d13393ef85cc48a351dd786dd7a1de5e39942296127fd87947223ae5108ad;
0x1a69a3840762376c3a2aec1bd8a434f2a5e410a7e92d23dbbb20a0991aadc46b;
0x57e27ad9218a311c3627a25345c879508fb856d68b9c0aca90276b1dfa4bf15;
0x14307851c6b079c4f3b26689dc5f62b8ac2b69ccf33f3802e9ada26718881832;
0x26c71cfb532662f6e681dd310fe112703b78f8ce1e3c39183d5d4889ce304271;
0x294cb0c139a1a5a345bc094d8a53f21d90e82cf47bb87e3d5e5bbd761e6d82aa;
0x84133bb35d1cee7f10a2f61953a4c77e09c4661a5565646654ddb7fec0be900;
0x236d13393ef85cc48a351dd786dd7a1de5e39942296127fd87947223ae5108ad;
0x1807d1d910cf5420087bc575b795cf7b77b590b7d14d3e3d2298b302c875bc1a;
0x1df001fd3c1262358bfa1198116229dc12e112bcd91b4f3962c8136c02c57e9a;
0x2b424b88ddb0ae2ff74d14a89099f8942df4e737c63f61f695ecea4842f9ff07;
0x189b086bfbbb9da30885f11ff9cb213c0a353710153cadd96203c7f97203791a;
0x1bd472ab81eb7d6c92809c07a387b1dad43a3083fe658bc88d1c3ac1672e2ec9;
0x2bcb32de32d02f4b8f8b1d100459f537cb0e4e1f14cfe5724424107a9929bf8f;
0x236d13393ef85cc48a351dd786dd7a1de5e39942296127fd87947223ae5108ad;
0xcfc7baed4497a2252d54cdeaf8ce6f23773209abb5f341ca2ab616f0516195e;
0x1cbfb6629ded2640c886dd504a2ec58f96b441839b79e54feab04260eb90b128;
0xb3e19811df2edf55549ac304fb205cdae326abff1e7febd20f350af8752f2b;
0x17e85c4c6fe808534124bb66995e5c663eb5a195ac1a26d8a096db675ca0dfcf;
0x31cdebefacdf2b2dc708ff87cee0315f36e97308369e304e8d2654c342622dd;
0x17c33efac12fd569e1ff7c0a0165c4cb8d23c279d442e7bbd073cadbe4f665b2;
0x236d13393ef85cc48a351dd786dd7a1de5e39942296127fd87947223ae5108ad;
0x866a0d2140ed3854d5822fba68985764126345cdafbf547ebd33c39aecb895c;
0x2bbd1e9f3114413c347ee4037d08f914d4cb655617c0cfaab77bb09ced39950;
0x1ad0d5f7480a78dd4e048c459479d5622ed65f87880f675cbd2c4d97e7bc7847;
0x1b88066e99b993f70306cde87ea47cab3efa6d698c9d3b1ba355b2c9f3453b74;
0x25fa0cd0dea157ff4ed741b0dc76e0095a51fc30c799500e80d0b821aad7b9f1;
0x208e0d0378f2c7d87a6ce8abcbd4bdd979a4d9dc80268cb96d84ad440fd0f99a;
0x236d13393ef85cc48a351dd786dd7a1de5e39942296127fd87947223ae5108ad;
0xbcb27a9e590ba76102f8bfa6f1c64726558f57a0027e6ddbc46d564eb8b09da;
0xce91923c51960849a75b3f8fd1bfe1d9754dc7cd48144f964a0c91a4e08dd61;
0x1fac92c295c763fe6b1e3c0f3604f0c7d618def2133ee2f869d2a1e774b4245d;
0x87968a25cdbb96cd471e88fc2cccbf3e5b8bd1037b4ee5332adac070a82a109;
0xcc8d9f53ff98eedd6fdd5c5def364a45d12ace1ff5e3626f760773b5de0e624;
0x2b95310fe6307070e985d61390a351ca5e1c4a9f5e2c539602136fcd080f4e6a;
0x236d13393ef85cc48a351dd786dd7a1de5e39942296127fd87947223ae5108ad;
0x28c0a6ccd9587d41eb73206239493c9150e52258eefa598382cf609d4559b2e8;
0x165c6c313faa07be77275b235bcccbf30af0740ca973d6acce2cafa9462491d9;
0xcdeb047d8e50b00253e926dff5f95b4279be0377669908d6759612cb73259e6;
0x10140d5f85f2f329572c2c9b7535776b7695d62d6362ef27285485abbf9db018;
0x9501340c196da04db07c8b1c3bc1461c228e926c9ee26f5e26364dd894b1468;
0xf607855b7f42530fc19f6431d53035a74eb03f7251d71567982458698c93ac0;
0x236d13393ef85cc48a351dd786dd7a1de5e39942296127fd87947223ae5108ad;
0x255be79d8de4168c44cf8a26522391ec6b67e30f2474bf2cc7c792dd25a47046;
0x1ecb792391cc746710b586800234267adcd4d9841c4e8f1e76dfc5dd15eaec90;
0x292470307f3a20d0205a19091cb044a8f9e58d0156f0364b21f3b6025b65d016;
0xc3d7b0383d1377489843e884a06ba72245f0498e71043af2acda8353a47ecee;
0xc610cb1971aaa4ae5f87fb14ed536198648cdc876c7c6e2f531d7d5d1ad625c;
0x1c237dcaf124be157c5897960fe7f22af44d441d2d4590028a07bb249711d7e2;
0x236d13393ef85cc48a351dd786dd7a1de5e39942296127fd87947223ae5108ad;
0x2a5e583e4003e7e747a1d39ad6027a9f347c7de946a3cfd00750a9a102c05e3b;
0x16ccec4b4960d2331a960804ecdb0442ecb1bcddb9bab42b306c4736510675e9;
0x2d0db3092b03a54bdb861c291c1a1f522112f9e457e3a51d731851dd59b1365f;
0x16f1469935ef074ab1ae192294dd62af3e14ae22f1e294032222c5ae19e2adbd;
0x67c4106d011aaf52f2539ba2f8d1fe65ce9ae081858ad629b9ebe8148cc0878;
0x12c6eaadcc69ac3b7344b8296ea4a251facc1c96356c84e8131b662f3d5f34a3;
0x236d13393ef85cc48a351dd786dd7a1de5e39942296127fd87947223ae5108ad;
0x2ad9831069e1f113495cdaaaf18733aa4a4eae1e850d58c06665a1c787ed6049;
0x1a6d2b5f928d9f0a9c4022b9520d707e5eca0ac9cee84927a71737a036628f6c;
0x1d92d368ae1f42256bfe712909a03c69a46bcd207c17461986a6de00e0952945;
0x10ad1d35f6f8f499e64daef032a28251b50c622a28429d2b2107ab377784faaf;
0x150225afc95fcb450fa9b2b7723479ecf7c3143eda0eaa257df4f1a798cf6375;
0x13c542f46f245c790955fd30c8cfe7125534ebcf6df7b1d9bedbe7205eddb980;
0x236d13393ef85cc48a351dd786dd7a1de5e39942296127fd87947223ae5108ad;
0x2fea3116266bd3005b05649b48c70089e572a077ed0f8f9730b63cbb9134a368;
0x1bc4f0df44852b392b2a36846030f42fcd462c40b04d0c90e71129e621842af6;
0x83b244ee2ab819a95d0c4bcdb9d915dabb6832b4dff9bde7ce0515827d19cfb;
0x1fe91590b6942e9c496a9c696c067b3086fd707b01290a7711d4f398908c8917;
0x2e97a6382c9007fb2b6ac74186070eda269b10506e8e4a74ba82274d154268c0;
0x19d731e981d3dd374362f4b4f05c5ee9600b5396567615c3ee94e0a80c8cc4ac;
0x236d13393ef85cc48a351dd786dd7a1de5e39942296127fd87947223ae5108ad;
0x1299ec83503dcd0c6aaece92e6c2cf7871b61e43318dc82a183a5039044fd000;
0x27059db058fd253b71b341d077246299734497dc31f2159918c64a78188b85e1;
0xf8c2dee7cdc8dc90eb57f025076157a181973f6347318feeb0c99afeae085d0;
0x1053d862218c7ad87cda3105ac23bcb12c92e883006c3d44fa3f9166e827cfd6;
0x1442ee0343b9bc2ae95f8c4f59cb32bb461a4c7b40a12e89b68b6990a4b71933;
0x2ef147fa908e6186fc2ed54fadf20555ef2a1e9b3babcb6863879adf84a3472b;
0x236d13393ef85cc48a351dd786dd7a1de5e39942296127fd87947223ae5108ad;
0x297d7f9fc303a0f583f992f7347f68b50b5bbd791acb93e2d8bc8efdc4c1ab53;
0x2b4e8b40ce6c64abc1c906a956e5aaf5ebbdb7c98110e171adac573b81b16195;
0x316fe041d68e38cbaa5d728d225ed818f00b2aa9ffb1ad3d9ec24bcdfccdcbc;
0x168c57b725731fe3159d73e0d94c0ebf35171e3cf88e1267c2b556a5456ae6c1;
0x90666d655622b3757b5ae5283432b4aeaece83148a36eb57821d241b3efbd3e;
0x2c91164e87fcb1bd07143870286eca8a29df3678768bae50817569f48bd7bdf;
0x236d13393ef85cc48a351dd786dd7a1de5e39942296127fd87947223ae5108ad;
0x110f901d246c2e951c579bbe91467a2950e69ecf241d8b68c4a4c98f05284b26;
0x484e7feefee9a459b2861009d6007e8b15721afb4a35f3e5c9a6f1f70334091;
0x11300deae6b73e9e5129595f0996c10ce002506c2c207bf672676a130aba8364;
0xec4bcec59f43f5b5653a3cb0440d71118ce31bb60c75b9c6766b6a5e0524968;
0xefa65a66b38b03467fe38d8669207d9fbb9f38faaf70d13a67c6bf71e1e71e6;
0x27806883684a018d11ee2ecabb971dd9f690cc5a22ffe36ce61f17c6ea5fb4a8;
0x236d13393ef85cc48a351dd786dd7a1de5e39942296127fd87947223ae5108ad;
0xf4b7f229e28a7a9e7bf019b18ce7a36280fff22f7a99e60bd84d1baa891cd12;
0x20b53ef54ebd25d7c222d418e017b7cc5e00a9ae5221191a1ff561b1ee3177b8;
0x14efc55a08da5f53635520e21890e2e5eaf0cc1fa1fddcacf1302dc65ee059c2;
0x1b701800b22e5765059fc4525bb4aacfac8dedf2ed37253160baa818678ef374;
0x118648d759ffd92fb5bcb86acfdfc4bceddadd6fb1679c317cbbcf686651c67f;
0x2601544a6e67f78415a0c2a6e8f4665f5910909c58bb2eb03f7854519af15f0;
0x236d13393ef85cc48a351dd786dd7a1de5e39942296127fd87947223ae5108ad;
0x1bfdb6da2db944b4b79fc0ef825d6ca2acd350cbb87ff12187db30a1798d0dcf;
0x969ce62c18f96eb6c6e3d0c5a7bc7b2b1de0cb7ae0474b47d16445f2d067cbb;
0x13d54abe37dccf2eede120eeaabc5105b997f3647874179cfebc1c9b022b8215;
0x27b42d0a347af048017cd6e2a577e959c0b6b6b8c2ae405cd9b05b793a2643b3;
0x2737758ec335fcb4498d54d210c11bce1d2cf1b97b7ebb835c4bd17b1cf8d54f;
0x1f9696df0bb5e293dc20d0579dba1866adef8f6e6d3846f42380861f5b54ca46;
0x236d13393ef85cc48a351dd786dd7a1de5e39942296127fd87947223ae5108ad;
0x2fa9dd289eab48f0424a48c9a2b4f51d2de3ae6cf2d5e23a10b0366938541d65;
0xfc755141d556a5eebf1efccbcbbf72ead5eecb5ad93e9814b715c4d388d7709;
0x26127072286989c57c665090b20dc85c5fa983ae80c412fb2d8ad02194843981;
0x229663addd9b99e225513a7d0ed1b43c0b02de97a57466355e670add9ad636b3;
0x3011613dbd895a56a9dc81ca4f61a03f4e77c18834c6c20a51be01d4ef9062d2;
0x5598cd7707b28488e2a0d669ac14e8464804e51537d7d3baa45a7c80e489c5b;
0x236d13393ef85cc48a351dd786dd7a1de5e39942296127fd87947223ae5108ad;
0x16dc1f58a2e54f8f78d4a2bc67c5dd242744ff2db0ea9533a9fb3de2afa831e5;
0x2a274cc1ef7dd9e160541523dd6b2c159fcb0f40191b63a8d0a877777b8dd060;
0x1e8f3078f2fd0b0409460ab369a100d5a82cd93b3dd947644aa6bb8fc2f4f863;
0x2ee81ae8b9bc0eb7d4417e09a83dd467ca8dcb6e8f0c8758b9cba555123dac67;
0x367cb4b603a227e6b02ba57173fe7391e93db6078be2d56ef2e9164b6fd2721;
0x184637a267f328df1bd119191fe0d1158eab799713ea537f01bebfa4fbb640f3;
0x236d13393ef85cc48a351dd786dd7a1de5e39942296127fd87947223ae5108ad;
0x27649a3a1db5ba83511b2f9fb3785dbdf083f1f5d4bed38b76fd379545d9ca08;
0x8f84f219781937a7bd7ed5aecdffbcad92a1d31262fe51761c94a0f19973283;
0x14f65d95f7359b8f9f3527527ba9722197df3e698f773cf3027c00bc4160f989;
0x2a75a171563b807db525be259699ab28fe9bc7fb1f70943ff049bc970e841a0c;
0x2070679e798782ef592a52ca9cef820d497ad2eecbaa7e42f366b3e521c4ed42;
0x2f545e578202c9732488540e41f783b68ff0613fd79375f8ba8b3d30958e7677].
Definition tabC_5 : list Z :=
[0xeb544fee2815dda7f53e29ccac98ed7d889bb4ebd47c3864f3c2bd81a6da891;
0x554d736315b8662f02fdba7dd737fbca197aeb12ea64713ba733f28475128cb;
0x2f83b9df259b2b68bcd748056307c37754907df0c0fb0035f5087c58d5e8c2d4;
0x2ca70e2e8d7f39a12447ac83052451b461f15f8b41a75ef31915208f5aba9683;
0x1cb5f9319be6a45e91b04d7222271c94994196f12ed22c5d4ec719cb83ecfea9;
0xa9c0b1916a8e41d360d02e6e2e5d1b98c34dfcec769429c851867e46e126fa3;
0x1dd6ba3731e49d21e8d36e9d4d1edad245ebf9bdd9ebb60a252e4804a6390f6a;
0x24ae2a67c3d521c11a11b7112abbdee30647107b808866a980837d0d7da4e3e0;
0xd20c9310b5c14d9ef12866af5a45eae3ca9be16d200497066c8b2ee96781d70;
0xe047c9821fe94d55d400d763a66c4c6169993abed543c7284b4a35430019445;
0x29474ab799b1e13948eff41d2ce79bfad335d09110157076988ac207e10c81dd;
0x3899f139d0dc4b281be3b74ab4c70789b7f41e7aca47ea2722a20d79afbca93;
0x1866624f761ab8dd7a91c5f37af5e47639951d5acb6b1bbf3b96ca273f71029d;
0x13c119f36718f7d5f09ad8541325a13acf6b34db6d9ee2af7ea06061240f3009;
0xe4a1008158077402b11f13c08890b739643cc8e93fa44487b5a1575dd867fd7;
0xef505fd44ac10a251b670dafe14cabd9ada9e3002210ac9c3876f37de4e7ad8;
0x1d31e4e2a5978b7491c43d367470a5a5d1445b6b8129a5b9a6fd238405720de5;
0xa979ad5428d481cb624d9d504524a9694ca5cb4421b5d1dc6af2c030fbeac39;
0xf7fccd2ec8bc6ed9ce3682f38aa291deea9373f4995778bf762ade36d6ab2a0;
0x2691b924dfa123005f7c078d9bf8706defe99c2ba99bd6ee53b153e9fec7bb80;
0x2077df6510b4860e56b913bef3a80dbc464b0e4678add60dea7a9517463220b;
0x29ee09d8af9d24ca49350ce2e0aa47d00a3dc21bafbfac1c9ba61c58e2993e8c;
0x8b292c661d427506b9a01916624f3cde332aaced9f1a494a733cea6f25bfaad;
0x2583699ce536a757b22e4713edfbb050092c84abc72c90ad87393a1da9a4cf90;
0x1e3f1b660223d65ad88999475374f6e25fd4148eb8110a0b12cffa19657b0b66;
0x20f3ecbb37c34aec79131455461259e59b222f0ee8e02f3194cf62a9ad4c3448;
0xdf4f5088e4444fbf87d553ba62dbda95696d8b9cf6210b1c85513b1776fbc64;
0x2b348effd4c9cef00a1cf4dd67dd664b2ffe361a807c589a252c63bcbfc6833;
0x1ba1e522fcb153676cd8f20e82256f0327c000fa96b1b462fc84b556f26a86c7;
0x294c44df8e68c96144e964c37bbc5766764ed3550aff80dbe9d3fa74419fe50;
0x313716eec6dcd8a602ca040700498dc04c77dfe2194753c59bc818c1d2636a1;
0x287dec74696d663e2359f68225de955384d960bbafb90967429a442e19e3ec61;
0x25e42f72c6be0942311ba097cf365683db4962c8204fec9213f0f8f72c1946be;
0x12b6881b96654fe1768c242acd5399b08639f081a94896f5ea6da70b6b475c91;
0xdfc2b54546fd3267d7be55c716cb243ef18118ed9498c8270449bd9418afdb5;
0x27dd55fe0d5c0ff56ad4890fa029c27c5f36d04cdc73899ab99b2872b28eedf0;
0xc60962711aef16e7a2ce59f587443ec8b41ef8dcfccb38188adcbddd32f173f;
0x2edc09feb267c6b586e62fffe32bf5f16c28b585986b81116684b7e8b40d42d2;
0xaf8386859db252ff295a19466d8d100622c90502137aa1cd4c4bcc9656d11e2;
0x121f218392f73d4c16abe382102a459e6c080b3ca4eda51a23e651a13a680550;
0x1ea38273f5d59e65061f8c775c571ffc75ef67d29405b5e02913cb3019d56f8e;
0x9bd2349005699bcc0ac35b627e2f8f08bfc3b0bf30b146f37742ac1556187fe;
0x91c505b1e92448c11aea22aaac4d44f6a7f2132f89e91b7f55f9404696c1433;
0xb316f1c29689d4f490f7fcdd5e9f2d256d443ba14cda4bb799b0573a931a99f;
0x2049251919a8f3f4398188b81f99d2e2d0e3f5359cfa55bdf3aa75fdadf367e7;
0x1fe7f9eb6788101908814168e3e4cf7a899a105bf9e584af0064188a4aac55bd;
0x158e6579b0388153b0acd630ea94de8f6d966d529c2d01b9e9b1c67c1ec1d570;
0x1994f82f27153afb9de2aa3f4be05c4b2c487e393dcedca2566aa6b7fbc3696b;
0x1b6250553e8629a5a8a40b568432ce7dbd83c87603eeccc8dad572ccebef6e1d;
0x20296940a7d1eded2ae79fd78fa2ac11abb2210bf24542feabee71f0d0d7c9e;
0x2553943f9e0ffce9c297cd31c29f1fa5f01883cc9e504fded7a905032c170c89;
0x1c56eb362896c2f00ad18faeaf04d577f5feb4db4e077965c38f2eaf5f7be08c;
0xed8857205e0680055de7e822b6f7d62ac0f75fef67da1ff7b7735208885cf90;
0x118f91185a09355f9d8c3f556367a2bebe79e7d9528a8d72a592681671aac75;
0x2a71e6a67abdb25a78010fe6fe0a20d1d84e21cba75ad55937dc1834c13af0c5;
0x2327dbc05997ce8575680e4b8929d4e9ed25fb9204277d603061986dbee57e0;
0xe05235e01f21cc3f2971c382d18c14e41785a5ec8d447cd93d13281792e6d6e;
0x98afa2ea7ff065b2adfc4ab00f3b04496c1e490eab264d2370b107e5a49204e;
0x27bddb7bf06eaa63419adae44209dd25a4e35edcb863b009bd34ccc4905d204b;
0x2704406bc806f4ccb19085cb9d3771b12ab5ce7aabf0601e9e06a2bc98837ade;
0x21c75c54664b9fec86756aa9027261975244f42cf91c9cc0b33c2a62b756a3ef;
0x2be84c1d84c16038ea5f933290699daaaa8164c5ea39a02bcbddc66cf69fe8ec;
0x2c970e41d48649cf013c676c8c688ac165563720d1d5f32628ac5b239488a96e;
0xe1ad2660a2e958daa1f2654b3a37fee60546ca0327150733070742edc806435;
0x2060ee7fdf775fc7e389a55376374c9e35d5c8763d597f426304e236f577b829;
0x1e0116818c843ed86f09daee0a581af10d52deeadad77656e736eac08e6f0f17;
0xa89c1498ef25a383d886bb58424e6940ac399e3e557e9de951a697c54a7576c;
0x303743d6f36d925e1097483350f5bd2cb297d4ec9239209f63c516b849a67e6;
0x8cf44446d968430232df175d462b9c9b0e2e2c37e8406764cb96c7c3446018d;
0x2419811cbaeb3f551b0a9232eee5d53e3769fbcf5239533074375f1b00777f16;
0x4237c622626db376b774849dbbe876809082f1b13f5824f4c58369f27fe7b6;
0x1e5b490c72eeb607e114a5cb87a8494b178937cdee34b9e8e947342c14454558;
0x4265333e59e1a5ff749203cb4a5d1415a72862c61380b1c242d0f32ca15b97a;
0x189deaf74258451ac4da682532be43d24a5c683293c1ff7486de26d35d982e86;
0x4ec516b0fd42fa53a34905cfdedaad021b36399d03d8263ae08c46af3eca76f;
0x2ce1c8a00845a82b3aa1b6642fc988578576cef86196525e6d595c7701ad700d;
0x247816fd0d34f9d3b396917478605c94a1c052a6ed663bdc344e7aee9686b6b4;
0xc676dbe6c494d5609c444de622bcf60cf555091a507fce86477019daea987d;
0x1cb395ade530fc2407aa7b2148d2dfaee30f4ddf258fc149cce3c5cde80a85d5;
0x190e1494e3cfdada3b9e65d8fe3c1ec769540da023f9ec2e56259f6a56890b0e;
0x18f2941b2335138336c351a792343222a845ee0a2ea5a3b9160c1d6d9b229fe2;
0x14ea23ce8b2312e07df57e0aece1da5d2c0e01f757e6a5c86ab5e403688544dc;
0x2818ad1005f4efb5d554361a29f85ea10940d6e71f38e8369beff3563a660bbe;
0x23ce3a9a522915a281793977b49054c37d65f90b841e0ca90817bab49d79db4a;
0x6c2ed2be876309a9b3b44ece37b1c42382927dd04249658a3d41e3f38d5e022;
0x18b6740f72d77ebcf642b945ca2ed6c8a9853a3749d7fab6051e4ca36f44fc42;
0x1feacb9eb2a6878061374d069a9dae328369ee63e75a1b99cdb06a48b0d9976a;
0x1a44ee4565a967647300c75ed2b2543d8d45d5477fd606a356d1073bd13831d2;
0x41f3b3b5b1050c16bf3d62d87d5d273b067da484679103231ed65a18da9fe48;
0x1fd958cc4fe0a290bd0fbfb8b8a513acb5898d63bc0d7e585b7d081c49eb5659;
0x175daba07c5edbf84f09c87a8c34dd73325943a48fc12cb839dca47512561d2e;
0x9cf0a4e6e31dc24dfd5a5a27a77833e477d5b2d92cff5fc5ccad9528c43ba78;
0x12d49465bd4120cbf78e5a3414d44c6530bc963bd701c54d4c6418a6cebe80b1;
0x101b2f2b675804d3b26b2bd1e07c7365af0bfc2edf010916eefb39e28215d44a;
0x114fc65faba09a59749e0b5f111930783529a0638456216232cb7e5a339736aa;
0x1dff99b52799afc802c2bbf9b67dd044d3cb51017dc4f88358ddd67366d3a9f5;
0x290f4496a52dd4dda59edccd7325038bbdc0554ad3a9a0be7931c91062a67027;
0x91e8704663c516c3b96721d2033d985089fb992dca48c8ddcb97d7d15c7e188;
0x2dce22599de04196a0169fc211d0f9c8692643aa09728eadf6d50bb534c0e323;
0x29a7ff0720e170c0e67efde72795328fecef66daada5f0e2ca858a8c6135fd48].
Definition tabM_5 : list (list Z) :=
[[0x251e7fdf99591080080b0af133b9e4369f22e57ace3cd7f64fc6fdbcf38d7da1;
0x2a70b9f1d4bbccdbc03e17c1d1dcdb02052903dc6609ea6969f661b2eb74c839;
0x2f69a7198e1fbcc7dea43265306a37ed55b91bff652ad69aa4fa8478970d401d;
0xc3f050a6bf5af151981e55e3e1a29a13c3ffa4550bd2514f1afd6c5f721f830;
0x2a20e3a4a0e57d92f97c9d6186c6c3ea7c5e55c20146259be2f78c2ccc2e3595];
[0x25fb50b65acf4fb047cbd3b1c17d97c7fe26ea9ca238d6e348550486e91c7765;
0x281154651c921e746315a9934f1b8a1bba9f92ad8ef4b979115b8e2e991ccd7a;
0x1c1edd62645b73ad931ab80e37bbb267ba312b34140e716d6a3747594d3052;
0xdec54e6dbf75205fa75ba7992bd34f08b2efe2ecd424a73eda7784320a1a36e;
0x1049f8210566b51faafb1e9a5d63c0ee701673aed820d9c4403b01feb727a549];
[0x293d617d7da72102355f39ebf62f91b06deb5325f367a4556ea1e31ed5767833;
0x28c2be2f8264f95f0b53c732134efa338ccd8fdb9ee2b45fb86a894f7db36c37;
0x15b98ce93e47bc64ce2f2c96c69663c439c40c603049466fa7f9a4b228bfc32b;
0x1c482a25a729f5df20225815034b196098364a11f4d988fb7cc75cf32d8136fa;
0x2ecac687ef5b4b568002bd9d1b96b4bef357a69e3e86b5561b9299b82d69c8e];
[0x104d0295ab00c85e960111ac25da474366599e575a9b7edf6145f14ba6d3c1c4;
0x21888041e6febd546d427c890b1883bb9b626d8cb4dc18dcc4ec8fa75e530a13;
0x12c7e2adfa524e5958f65be2fbac809fcba8458b28e44d9265051de33163cf9c;
0x2625ce48a7b39a4252732624e4ab94360812ac2fc9a14a5fb8b607ae9fd8514a;
0x2d3a1aea2e6d44466808f88c9ba903d3bdcb6b58ba40441ed4ebcf11bbe1e37b];
[0xaaa35e2c84baf117dea3e336cd96a39792b3813954fe9bf3ed5b90f2f69c977;
0x14ddb5fada0171db80195b9592d8cf2be810930e3ea4574a350d65e2cbff4941;
0x2efc2b90d688134849018222e7b8922eaf67ce79816ef468531ec2de53bbd167;
0x7f017a7ebd56dd086f7cd4fd710c509ed7ef8e300b9a8bb9fb9f28af710251f;
0x14074bb14c982c81c9ad171e4f35fe49b39c4a7a72dbb6d9c98d803bfed65e64]].
Definition tabP_5 : list (list Z) :=
[[0x251e7fdf99591080080b0af133b9e4369f22e57ace3cd7f64fc6fdbcf38d7da1;
0x12873658ecf188d299b8ccd568eb14a4d4307c5caa95633dc296f05cfc966598;
0x153cf8033d8e8a15cde2c5e6b93da4018c5954d00a9274ec5ec6d5101ea22761;
0x9f15a882446823fdca6f6ab15dd8e250d90c84470516671afbdfb0de80fb00e;
0x167c655bf6cf3e0fb64c9075773bc862b24b4ce2f69c8ec198add2758a2ce216];
[0x25fb50b65acf4fb047cbd3b1c17d97c7fe26ea9ca238d6e348550486e91c7765;
0x27f9160806de9ef57ddb4243f839e4b7e8bb293ac176fdc5b5419ed73a07999f;
0x16fceedd703bbbc2bc6f1d792e501939105b044b1b904d3b110110da983ccdc2;
0x2eaa925d06b6f5a77c0d5cb20598742791495cec84593a57ee9fc4c9115ae7ca;
0x279b324735fbc883e24f191ca7039f9986115b9e6fcf4946cf45f08ceda2dc8c];
[0x293d617d7da72102355f39ebf62f91b06deb5325f367a4556ea1e31ed5767833;
0x97d71f1fd579a0d0f436a6b36165cd23a9fcab03ad25e7872cdb09b4a0ea0dc;
0x1a9fd26611128d592d594f51c251dbf4eff6dccecbcf2ebf310e34bed661337e;
0x21eb30a57e5912ab06d18573fc546b2bf3be840d5f5ede01f91dd2bbb578dcc2;
0x13abaf72889b31372b1e6f48759371ef65bc57d28ac2f60e6d227eb008b96ced];
[0x104d0295ab00c85e960111ac25da474366599e575a9b7edf6145f14ba6d3c1c4;
0x19bb8abf6a012cc7b8b974039c6be6df31446a51702b39a8d90ae4be7ec33ec9;
0x11075889bc0dcc9d6f06af3012f04aadcf9049de04fc775f8fa091702e70b9bb;
0x2e4cb25599a3dbf07de338827b28d16b9c8fcab8fffe8f2a16161be6a521a358;
0xc7a700b33fb23fc642e0e8671deb84d05ded8ccbc968d15171182e158684e85];
[0xaaa35e2c84baf117dea3e336cd96a39792b3813954fe9bf3ed5b90f2f69c977;
0x2b5d28e8d648bffe0fab59e3c7d983a4099fa0a4c548df0006e6d0f4e20206c1;
0x1a96c37c461ab8a38ee15bc2784c5096d30d1482e57c2f861bab95584b90d84a;
0xdbdd3171308bfcd3cb8b8a676592858b8652e902142beb8fe4145002fba8e0f;
0x17ac4855f295a3b8fb8ceded7f4b39290647a0145af56b03b01e957808d66fa7]].
Definition tabS_5 : list Z :=
[0x251e7fdf99591080080b0af133b9e4369f22e57ace3cd7f64fc6fdbcf38d7da1;
0x351d582486c39726623750495e297970b0e19787b49173a9388a0d5b08788ab;
0x10e1a3beae297a472a31a3b51514c664abb12ec2d15860a29d2a9352d3ce8ba;
0x12395fabf1c14664faf3ecc72a84623c1d5cb7b5e5744e602c886a5773e5f06d;
0x9b91873151f00b299a173a5b736f73fbe2ce543f0b4d237565bd58758935cfd;
0x1d53cf618f93c90852172c773264b8f49e938bf22791cff829e95ff6942299b;
0x1a78e48450798918f254396fa7417bf2c5ff69259200c2a8d53af5f2c4d8ba1e;
0xd3d4c1eb9828c87afeca8ea128d1d533750cf555c6b70d70a8520ccf16feb;
0x3af062fcd1ca71ba6de0ca4436f1a5a0698a3f49abbe4ecf3daa0ea2e4dc84c;
0x251e7fdf99591080080b0af133b9e4369f22e57ace3cd7f64fc6fdbcf38d7da1;
0x1ad1ba4f26d401924b25657414256b59767284a692897ba5cd53a7f5322005fc;
0x1133694747d2cb4890f4f5982564eac6019ca5a9091b302d2c10b87297041d5f;
0x1b46c42ff1aa475972e26f559a88164024234f7b392039fb2a2171be631bd8de;
0x1954aa0a79f14968c817000929e2e744262871011f238d986086e7d9574936b4;
0x7aced898db99ae9796fc7191a103b9de4c77f0e08ecea6aa593974f652ac4ba;
0x18a5a098d914f6221726d42ada7683a1605e20217a09489c9b2d84c3cdd2c39e;
0x13e00cf4ab3b1e028165af8d41019ca20a21aeb40926592a180f9806083eb5a0;
0x478f72938b528ec79defe09215b46320801fb752ddc88d638a48790561b4e2b;
0x251e7fdf99591080080b0af133b9e4369f22e57ace3cd7f64fc6fdbcf38d7da1;
0x8ff43b0eda2134077b96d7e4cc37a6871254910ab4c58a4bcc78c1bc6ce3937;
0x27d7fa3ab9c438b6ad1ec5a60e8ad91aad02e4d2908ff7192e5ac0cebd91f928;
0x1e9ac8ae7cf2b40d629999251be50d9771391326a664dfc206f2abec8efbe56f;
0x2d6b56b4849de82b636d81f2e98476bb6c35cbc8962137b615bff86f8f261971;
0x21e70566d2f4bb8728fdb3749da99a2143a0d90bb6c1b0d6d02125aa1fe63092;
0x1c01c050dd9b0b8ec8e5ee1eaecac1171bf69a8f3d477eb7ec3a605b010d4ea5;
0x282e8dde73a0dc74ee10816aacc1dba10c142109c14ad7954eb7b56ca268a16e;
0x767cf96b16035a96d19fcc57edcd92e746d226cfe84b733454c7ff9a16d25cc;
0x251e7fdf99591080080b0af133b9e4369f22e57ace3cd7f64fc6fdbcf38d7da1;
0x18974b9f253b6bb681f82ed0f2d3e6b4f70ca858468b7f1bd3ded1a581ec21d9;
0x18153fe8966abfc450a25222a6a27f6175fe851989776dcd2111a5a2de99c2da;
0x2da1e2e775539490c2fe2c827e65c00e382a4a5d6c49a8374381d39c627f36c;
0x2608589b9cd3f4c12b4e832e05fc5ebdcb403cd6560a8d7ece8d17ac94e79e06;
0x5b4b074edb1366d35bf1c1ec1451a36cff351b407a8d30d563471bde491f146;
0x856cc5a00bc37dd0217920da66c5765dea0644555e35822d7fd464d9eb38096;
0x2021dde3ed193bdade457c9db5ab799e6b3fca640669d2f6295b4852f54d446e;
0x12e3785f05f36bb797b2c9f03c5a55fab52e88b0550b7155d6013b706574d41b;
0x251e7fdf99591080080b0af133b9e4369f22e57ace3cd7f64fc6fdbcf38d7da1;
0x118084c76d1340b3980add4df3878df4ffc6e9fe26f0b5c4e2f9579ee6fe2c1a;
0xb9dacae8623c514c622c85753ef7b994d9102ab46620f956c26e9c62fe53050;
0xdaea6d18a826bb2ba972ae16dc621cb8fdf9ecd531ee3c9f9d0b4012da6769f;
0x8f2a5df6437e253b579921fc3208b3c176e5a18dde267a4f85b7afb7f79ceed;
0x6a91d7c75e34fd43d9aa53b7d2793e4d5d70a5fecc5fd5653b162ba2631aa68;
0x207579e33c36af2d20d759996c313f78dc339878c0a289d5db58b6b3d6069c56;
0x25562540cd12084b3392c8cb8cda95ffc9c2dd6f8a75054ce16acf87ba871b9f;
0xbbf47feca60b93dd0501ee0fc294c2a82b103817b4acf0af6979183afcdc87;
0x251e7fdf99591080080b0af133b9e4369f22e57ace3cd7f64fc6fdbcf38d7da1;
0x1e0814ce223453b24804a1ab4ce39815e35aed2fe9f7510e6288abb9d8b15711;
0x18f9aa2721d95963399ae18d6d95a6f81b78b528e750554eb2613d6dabbd72a9;
0x2ea329822ad302ab8831c559c64080e7ba6bf4c98ea0caf9cddd929bbb5875a6;
0x29910d86bc27b38a93bca80677a3647c01cb5262ed19cd0c00872925a046a338;
0x21c0a05ace45015ea895e01d630ce6b7423f3c211d26e8b6ef54d3dfc0660ab;
0x25e7c463042f520ed2ff8c68be30bdddbd7ea5cdd7a91224bc6a32a3f5c0fcc;
0xdf5b7e7663197f911e0dcd1ff4237ffdf080234e9b92201538ae7db6b6a7d21;
0x94d0fcd9592b4771d2b9bfbc2bd78defef3b6ca923c68382650f9d63ce37c85;
0x251e7fdf99591080080b0af133b9e4369f22e57ace3cd7f64fc6fdbcf38d7da1;
0x270361108967ed0391a49d4b7cd6af9bdd544e8bf048658c4fab36aa12407263;
0x18bbf89e7cae93044c847bea654101914dbdd1656483e54e07ae332857821961;
0x4aa47a0ede64ecdfa83507a2b8947b4b587758d75239071f6b4d3d66777bc1e;
0x182d30ec988fca803ff7def1470c06aa6a596f56710184909fda17d354d3ce02;
0x223c27171e456846dffc59cb1a53c761afddf85582e4c70ebafddf10eb1f8448;
0x7d46dc97554a25edb78ea4d862c48bc5a08e9ea1eb369c5c8c2e0903114c915;
0x1bf473a2e982e519523b486d264941d8e32cbbad362bdbf736d7ac04c4d2a964;
0x12277b175bf54c3f2b0a57eb189e77714cf21630ace1fcf44d39397aae5b6da5;
0x251e7fdf99591080080b0af133b9e4369f22e57ace3cd7f64fc6fdbcf38d7da1;
0x15c0a2cfffac7feab86a185031f489a9f83e89e3337a84b51dfe6fbb57feb15b;
0x2b83199ec584185de52190f5a415c1fbb9efd4bb9eae4c4e2763abcf99359ccc;
0x28601b9940a312c65b02adccb76937ef645d4e451c940ad4241b2b0f4925d7da;
0x1a187b4875be24a2420729e016901b94ec0566c8a6936978c3f21e8d611996f7;
0x10ed1fd44722d10bc7e44824e64978d36e68d56de2a465a0201b8e31065d5c57;
0x2c4b6867179a949d377a9bfd3efe48456f7e70f02d859c78684a3573486dc227;
0x15cb2c17aabecf7aa0f61655a8bb35a7afd87d0e20ac38fe21a07da7b388dfb1;
0x4dff03c742111aab3e61f4166a733e87699c1ffa889fce179316e39f7d845ec;
0x251e7fdf99591080080b0af133b9e4369f22e57ace3cd7f64fc6fdbcf38d7da1;
0x17baac874eaaa88de70cc92d5a72e00be4ec0e5e99ba7cbac2b0d98cead394a1;
0x1dba338b4779919a2fb22ba949a050c85a73983d5ea4752cd73f664fe05f6247;
0x1e33e7fcc41f32f90de5771d69e58f4486290c7b856becd5cd967d8e7739f719;
0x10877ad7cf0652a2ff93977d3862e3ffb5d87d0c040f02a4f98612afafc9b604;
0x115d3675856ff59ebcc9110defb9d6c70df6af533d4b0875d0e5eec430350595;
0x3d74b961ba9013a874e7bcdc782f478da6097537549db7e6af4702ca749dae5;
0x2563411e29867500a8fd18e4eba3c9a2b7992e44d263c29f7e06000f74887cdd;
0x285501c4e0ee1b3c3e6b1b29160d6ec0f1af4dc2f36a4a1e654b7b47899738d7;
0x251e7fdf99591080080b0af133b9e4369f22e57ace3cd7f64fc6fdbcf38d7da1;
0x209194489c86891b179e33103a81d969c5c75e941dc30e7228c04ed8ba68704f;
0x2c7b2835cb79c29852926900cc168b2315aaf03a89532dd9fc162c2f7ddad845;
0x1df181c420308c5b0bf00ee21c16f248edff686e9e835869d1022dcd4a8a635a;
0x1ffabdffee2481d8cc1233506f708d9acabc1d758bb99c329142c866ef4c7474;
0x8955ed55c2bec07027e4355a694a9b6ae1d9d50126563b29d8a074ea65540f5;
0x1ab4b24a4db7c5758471846eb375163e7587791417cbc355b6ce93b64fd01da2;
0x25a3439d2838ad459270bc633164f3a68215e11217eef1d605ecfa8b1805c609;
0x65240d63179ae83013295a8251fbe17dd988ca5c84761ccb6a6ecb2bfbf02a6;
0x251e7fdf99591080080b0af133b9e4369f22e57ace3cd7f64fc6fdbcf38d7da1;
0xc1a91ddc1b24113bf876a2ef895c3315cd1b109cfa569b79f3155ee12b1c564;
0x146fe8e28539ae36ae921069f4af83f675f1b68399efceb18989cab5fdd36ac9;
0x1ba8c3cfa46425412e30790090980db139810efed7bdba7a38adf75e1a0d3641;
0x83a58c9d889b74e66636bb8418db624726b0f1374f59eafb4d269ba1ed234d8;
0x2b812a76ea526ce18df6032192ef033541aaf99d1c61839a0edf0336142a25f3;
0x295f6d35fb9e57a50a5d913600538030ba8c09e021c16aa8634488cc8eeba645;
0x1de69ba07e3b9f90c87eb67b1f64660c71befe5138061dbebb752296032542e6;
0x24734fa363e52c64ee0162a86578ca899796e89caa1a3a3533b0965665208f59;
0x251e7fdf99591080080b0af133b9e4369f22e57ace3cd7f64fc6fdbcf38d7da1;
0x2d5fb67efe93e8386fac071fe3522be1dade9dbf1d1030417a7b51e3122111f4;
0x19522e9228feae7473e317fd7958a021a0b042a81b75da6dbf7568b857afab75;
0x2bc3f6f0df0c7305afe83fd9ef0b708e129fbe889fce42cb695b33b290479342;
0x783e5635eea0e623bb8c406909f0db77ad4f9302d4828b51015d6512818690e;
0x2d61b243f02e21edaed6fd2e4969ddb95a6d0da8db17d115a9a3b0d8885bccaa;
0x55e1a09f4bd4809a86e67f99279fc06ca89a4468df1ea25d76fe0ad36ccea12;
0x17871eed22b0cdd2de61e55ba5c9f4e37da63ed0376420bb1ee7f077a0d7a85e;
0x20fd0af1329bbdd70d4d835d18c915d98956c5f0a4252cfb81c1fe02fe130091;
0x251e7fdf99591080080b0af133b9e4369f22e57ace3cd7f64fc6fdbcf38d7da1;
0x2e5b840ca8faeba6ec3613e22eb7b071d9633c83cef659ed96b2f6a8fcc6b262;
0x5f5385703edf7c4a388ce585a81fe7cc92ff49e900b5601865a352c61d6b111;
0x21e83ab5e95d369ccd30cc1c55cd5844cb1cc78ffcf0c8bc91c9c0d9937a3fab;
0xa67b7ed9c37946306ac525597f1275b30a5d004ca50258c3d992284d90d724d;
0x214f52f9f73a2c2d5425c9610461303d839dfe71891489c376c2ea3b5d868b27;
0x241e0d267f7d1d899656929cdebd850f70ace216d9ac10253ab720bf40da0c7e;
0x2229153475b7a6b282e110b10e8aed1fbc2a05a37352e954f40d85205fbd8bef;
0xf30d0b7cd8ef10e895cdfab3faa4f4c1a61a5f4eba688634540619c84782d2d;
0x251e7fdf99591080080b0af133b9e4369f22e57ace3cd7f64fc6fdbcf38d7da1;
0x265589a340c71d49e1660d3dd43d1869408176d8b9110ae8c369078de8ff7aef;
0x1bcadf844bd1a2e7f4f464991dd651b9f15630c94977d35ebc3e85801252ac2e;
0xc112b1c56ea288e8518cc039fe050649cf40b7ab98de8fdbc56eb7ef6bcfdde;
0xf020b9ef75af8ddd505cd3947e11a04270be15daacbfa76fa04d9005283aa77;
0xa426601ce9415e666acbbaf2a7cc8ef7ef7d07538d84b1a53da24c19c601688;
0x10a1af65503614381fe2003123aee9008ab97d69739dc462e72a8be04594618e;
0x2d792f9fe5f0ad658dddadfe3893d158012d84b3837b7415e188131595b060d2;
0x2daa42d04e0b62fcb3869031bf382c3b9f8a98f7f5bf7421d0b63c2598f5f65e;
0x251e7fdf99591080080b0af133b9e4369f22e57ace3cd7f64fc6fdbcf38d7da1;
0x144c0395157a1bfcfb5cc4187f271096784dbcdbfcb6a28c31ce8a06f908c0ac;
0x1af8cdba0eccc83c16019622667527645e94c9ce64add4415df7f40446277a09;
0x213c7a7ad6237e7211530c210a8d6f46a25bee433bade010591e6adf42fcd906;
0x224f1ca24803c0119ad0e6c41a64968e064a83f5821972f2a5c9d5895da4ea42;
0x10944d95ff5a3699efdde41ead13344937e3b1b93ba73a1531246ca4b99aad2b;
0xcb2508b0a3395fabbeee5286ce5f1839c006ebbc09d94f475924923d8079ec2;
0x284a14b1007ff6c5c0f8f7d8d0e4b19fe2d4a7094103912134b0f563a672acd1;
0x2bc0bce43d55bfe1a27eed426980cf9055b0dbd42e8de516e77580b9d9a9060f;
0x251e7fdf99591080080b0af133b9e4369f22e57ace3cd7f64fc6fdbcf38d7da1;
0x28e9b1884a4619b38b6f8a384368c358b7f210f3412c4481a26ae296f73c5c72;
0x2123ca1f119a35e7d4e1b323fd2942d12ed020ccff3a7ad6b65af90457f00614;
0x4aaffb0ba008fb9a82fc0700beaab2ce39efa895acdc280252f01e31035b8ad;
0x1f1e16f8ec9261c82443b9b31cd908015e2c2d2314629a22639af1f37e1073d8;
0x134928ff5ebe5e019214ef937b7f7a28248285d583613ea2bedfc66b5e2ae924;
0x87fc99e11e63deec9d55047ac98030c57a4f09228cfa7749a3e1c7ab5f212e7;
0x9429bcc52d6c43814df5b07fa116f8875299500a36ef791b592a64e27cca486;
0x2267b1dfa5d26e6f0a80bc8b4c0026f0204bd4fd06c7725544d7760354e401f4;
0x251e7fdf99591080080b0af133b9e4369f22e57ace3cd7f64fc6fdbcf38d7da1;
0x16fb3cdb76d21d3448c9988f428d198c8e5a640035ac2caff7aa7964b34ff1dd;
0x80dd9d263a6698479df06bc98fc64594478028b61047ff93c425b29b092d37c;
0x165f4f2d302a24eea5f46abeec4ab03d21e3d013865085e515bebcb2684af340;
0xa8a3f3abf28f457c62045789fdcd302f0df1049b6ec521db2b7e72e8d9516cb;
0x2342f103587a005c977578b12810378f9014bae831809cf7ad59ef3aed48aae9;
0x1d1308e311e7ab846e158769c12213013eca377f396061aada6220f29eb1b7d8;
0x2563949aeabfaa782be07dad903ebff5c913893761b75a3f8402a1e2bea5a998;
0xcb371898d8d2e1f5bbc32dc21782704a73e415e0c9f6387157b48746bbf6ebe;
0x251e7fdf99591080080b0af133b9e4369f22e57ace3cd7f64fc6fdbcf38d7da1;
0x1231d40e7c6fe5bd47010ebe4f63d186369cdb6e8823aec194093a0b4cbc6845;
0x18943696a4da551747068255f57a0437ba0ec36ad7e5c92cbed9c49a9775b97;
0x1fa58f378160dd4af40e3b01bfe32dfd34f2cdca527973c194a53af30bc40670;
0xc976561eeade533c5579041bcf5e8272e4af95efe3af9e5372250fdc5ad8966;
0xcacfeeae1a8359ae9fcf831f315a4b8c576d579eae86b1b09823656231d3bff;
0x109b0647298eaec354e4a155308192b5facfb586bc2fe63f073cd221a2106fb4;
0x69d4744aca289d123baa0e6754c5232202dbcdfadd0ee8d14dd19a7bea39781;
0x156195fe27df23b8184fc58a30e1a9bafcb9cc9fa9ce071163a26dccfb7c6ad0;
0x251e7fdf99591080080b0af133b9e4369f22e57ace3cd7f64fc6fdbcf38d7da1;
0x20fed35942cbdc86df51a49ca26055bb25e232a42476ef06997af8911560fc12;
0xcf20343957a55345423dd3450c2fd74039f1a82c6c02446dd64c4569d31471e;
0x1e177139b05dbe38a56c40f919dc1f07126bad03049fc4025d77b4bc34c25ebf;
0x144d1944a849fdc2aba8ab2a4368d57911e9614e3956d9326ca493c83050e932;
0x162f08d305fe4f1b0a9bb1acf1223bde3405aecbf2356508841b85f1180cbc1d;
0x21d68868502ab599c7c5f2a54d65be40ed5caec1613a98b2a98c5f8117415d97;
0x984adb0c5263193be4027c68c6f3a6dbf7e22cf199dc4358b52968b0a248789;
0x2883f3a940a8c10f7f347a8011b0f0d7f6e0a4a82eff568fffc7524235d1e4f3;
0x251e7fdf99591080080b0af133b9e4369f22e57ace3cd7f64fc6fdbcf38d7da1;
0xd89a340993be3d3ba07d2fa8432d412730e8ebf2bbfacbf9378c0c4d3d1e692;
0x105e4a12836770bdbab24c85e7a63572c77556fffafc8f55a0e3f6e7383f7b02;
0x4b09e851bb6dbbffd0780af3f99cbb707f5e8a073810b28b1b59794c8b117a8;
0x2c8031907c10e1df2bfdd2589dd502a012a2292202e67954091ca57d21906d41;
0x88a360cf4c5e26faddcba291dd2553906abd82fecb0ffaff4f3f544f672d703;
0xe9e8d8ba62712e7f95840b5651f32912e84f146bbd57c566c178084cbb155f8;
0x38fbaea7dd737c642ec414759bdeca4250d31d6011140e7e45e86c12c6f6fe2;
0x96dea6e0d6411dd0c18e516511b03d8506c4901c52dbc2772c3d47bdbf461ab;
0x251e7fdf99591080080b0af133b9e4369f22e57ace3cd7f64fc6fdbcf38d7da1;
0x2d60fb66fb133b0507b6b41ed7fbd5278c4ba9fa0679d2889da9672d21f07037;
0x2567f444cfdbbf4d7799d5b50c8c582e1d2038a11969b3eb2b60aebafb1efc7b;
0x2401d941b4fafe3311bc6cd9fb0bef62ad9b59e731c1ec4e6b0ca5e2c685bb2c;
0x28747741579283853ed4e6525da70a4312769f7040db4f098eb7d9214fc8fae6;
0x1104899fde3f530cf99500f20c4fb9d479e512cd70a15def442a4ea92bcb9743;
0x4ddfde1b1aacb33977d4b3020db51b834f6197a18505e3ccfb37fa8a3a8764c;
0x2bfa6913d62c8aea04ccc3e50229220efe3b9af6a568194ece56c065e3cac8aa;
0x5cb914ec7b72436cf25adcbd0550c2db3c9c09aac565d46f96ac156fa72a90e;
0x251e7fdf99591080080b0af133b9e4369f22e57ace3cd7f64fc6fdbcf38d7da1;
0x145dcc8a89ffd8fddf4e5bbe377a3b7649ab6faaddf5eb580ced3e0421b7077c;
0x21f1b7c169a0744e49718346cbd390dbe3287f5de3897acdaaf2e4bbc1f3e80b;
0xeeae34b5e8e48d2ba6bd062c803ced1dd1165cce5f8f0574ff7caf4e6eaf6b4;
0x2827170c30a7f570a12f37aa0434e01a4aed9b5d37f1815029d5de89a8ff75e2;
0xe328161a29c0376af526c8004597fbe018328d6d0c89503eaee36f59a4cee8a;
0xd6617ff29ac941a779f907e749603cb36778fef6644b8684fa40055c8d978c6;
0x169506e0877092fdef32109c064d251c4d6a50257ab9c032bd79801fa23094ba;
0x8c516740479e1a852294e8cbbcbf83b4d7095b69758aaa9f1a368004dc1742a;
0x251e7fdf99591080080b0af133b9e4369f22e57ace3cd7f64fc6fdbcf38d7da1;
0x281bcec4cbcefa9e18a1aca1dfeacd7f7ec527df5deb6c002f541ee4c0f2bcda;
0x13ea58a6a82bf43f6d4c2619b87da0ce760410b68b77f694685e3f34ff47b86c;
0x1ed604569bf581c71e4180d59a78dd48e2103006ac045566e44162656c36080b;
0x15d25d19f8fb93c9272f10ea525e787c758f98c5bca884e6317ed21a292abf6f;
0x1696701143abf5794f370a122fc60dafa4f0c241e8607983222bc72d1d8d1439;
0x1471c9bea5d880676ffb53255487c1af57a0476b77eba56204a4a3780b109b50;
0x1ec18e953909ee6e34dcbdde64fd6ae8b99817ffef4811551a27924b714cc00d;
0x89ad915c65eb1cc1633229dd97f098a2f86e7ea44ee6d94f3fe5f08682c807f;
0x251e7fdf99591080080b0af133b9e4369f22e57ace3cd7f64fc6fdbcf38d7da1;
0x7e3bb22a5d8f517b12b42d68ab707d809ce83671dd9a933313d251889a9d55;
0x142b4285cb7ac7249975ddf59d177aeed1a94e0412002d83861ce061e3f38621;
0x24839c6f8fade0c2ef1e248f64c4d81e324caa4ef4052916a31c5d1da484ec43;
0xac0879ac864dc7bf40955a3f4a19cf37846fcfa9289ae59c8f8c7c174c5a57e;
0x44832eb1eb4ac43192406deb4a37ea61e2d110468762d3a31f01f3c6c1f8208;
0x2b3f948fb289860a26e995d14c6f8aba2089511c7ba58a310e6cbcb533f2dca2;
0x118bfa7e2d1386301f187c1b1eda2f48c0a03de15e370b5be0f431a0b574681e;
0x1399fb352bfce7874d22e0fcb24553b96ab59b85364c0c3c9b0135d4970c2349;
0x251e7fdf99591080080b0af133b9e4369f22e57ace3cd7f64fc6fdbcf38d7da1;
0x2f25d0089300da1d286c5efcc9cf22d095af8f615b76cbee09b9ba651d737311;
0x84eaaf7a0b07cf4992c7d05790c42cc742a7bed021c48f614b988d99f141e3d;
0xcbb53527ad34cbd3c4d59504fa47c87eb5be078155e58ac3f1e4b3f45dd1cec;
0x14e8e0d80d2af6efd3cc60741cbc21f6da3a42e2429322bc209097b1d22d26b4;
0x149dc605f3ad39d4b470a132191d2739df2ad19fb71e067f6ede3f9da3172922;
0x1533cdda4fe346f0a3e538172b8d5636d3b4b502047cb268015b2088f12b9897;
0x1da21ab47505b1ed4358160f3cd24a01330718bb901beedde8cca37839805c62;
0x130eee6229e6346096e121bda6bd3892aba85c363deda16ae8c8efc6ba721b18;
0x251e7fdf99591080080b0af133b9e4369f22e57ace3cd7f64fc6fdbcf38d7da1;
0x1d0669bb3cb83ad8702a76855510918ef300df2416cdf04a83061a915a6fbdeb;
0x113f0f0db699267055417d499467b7502e23179a0c23787b7e8130967c95080d;
0x28cd66f5e2046799405a9c14282070ef66fd409507971fcbac16032499bada61;
0x230173d8146362d28c0cc9bc2c72a64afa7741b77653726017932821c1dc9502;
0x4b23de911f3a1d3f32366c35a7f293837e1e7e8287b8abde423b2b3ab81c187;
0xd4bcdd5ff441637f977dba6d523ef1f6178ba245cda76e429a91b0ca994db04;
0x93bfbfaa8f3a8718603066321ce48219b55558f33e0f8645a93a41e6f4d3e2d;
0x24e21e25f0b3d0e754bfd0e91e62b5fcd232e756ab34cbed6b4ab709dfca551a;
0x251e7fdf99591080080b0af133b9e4369f22e57ace3cd7f64fc6fdbcf38d7da1;
0x146990fff0e10b8d70a4411f57f9e74a03d2ac0127b216400b82c8c644038303;
0x1ddaefaba77bcd9c5ba0671b0a34a4cb37b7c689bdca187d90212f188ba4a87c;
0xa7c37e8eab27e5edcfc3d6682b0267e3d9250fe470980956f5e3e5993ddaaaf;
0x2d81f6984b67d7cc74b35aa9d673878f05d517085812190798dd24a510b8d6b5;
0x7c46458e45e15ce1338bbe98ed3c0726664d8ae0c965bf0fc79ae31ad04a349;
0x16dd83567c7289d8ea0e62df8620df74f3c987d5f162b6b0a24ab09837b5d2da;
0x21819b9d78ef5e05c535a83e7d709f80f3ab5e8d733146139015ec4e34b29f1b;
0x2340a29e4e4d4e920f39a6a32149b54307f918a2e179e6c7288cd02834c0e44c;
0x251e7fdf99591080080b0af133b9e4369f22e57ace3cd7f64fc6fdbcf38d7da1;
0x1ced784118aac9880c9fbbee28972453b36abc3d967b20e9b0a886af86d64305;
0x237848c6b0c87f794b30cad5a3cebfe2c6c9173f7a258f4ea139252338a3ea5a;
0x27c636aa956756d9ee04b355abe2fad8d703b1721fcf73b17a77751813c8abb4;
0x1b40358386698e21d43bd3950c00f81d6ae340eff9ac0821a213f8fabd142d09;
0x695487b95b15feda7188ab9bd8072f0edfcdaea2dfbe06596f8c037bf52145b;
0x1df336831b6745c8f22a80c252ba12b24e2bb1e7fd3615cc96145d898dbf3220;
0x264b7a66fcd41995c19f021b71fcb1abd59986c55377a82ad92e79a1165e58f5;
0x208defb2122d53224aacda9868250ca3b39f78b13c9d150a14d75a886a1a42bc;
0x251e7fdf99591080080b0af133b9e4369f22e57ace3cd7f64fc6fdbcf38d7da1;
0x1627fe11fe92ca5b0841cd804a211151ca6c0d2706b2a17ec17a7fd224a48a13;
0xd483b82a1ed0d6788ec73c257cacba9738eae7232e365df112b15a93459627e;
0x24c490612a1636b43f902459851afb3cfc37d71db5e9ffd247116d5cbd34f9fc;
0x2f2d08c8cab748b056307066141837d5cf195104459a91084768548346c8593f;
0x42d3a4f87d782326b0c097a03de01ac1698954c8f300af708fa79a92e84790f;
0x2b064fb3fabe9deb1593d253ecc7a12fcfae3193e8f7e16ec563876f92e4c62c;
0x22b8060d8bd295c3a201655ef3891a481e21748554dcb7613ce6c0a532628e5a;
0x1526148f85ce610667aa96af20059f0b02c8a9d4d463b27f0711db72a545503a;
0x251e7fdf99591080080b0af133b9e4369f22e57ace3cd7f64fc6fdbcf38d7da1;
0x12d2a42d255875bd671d376e499cd79393db48c414f967d53388f60b4e180986;
0x22d0f27c6767b64adf2eb09ed595e2f2c211a3504a8de66ac01991c81c0e2669;
0x1fbcdf3ca6f2e0739b571248a9a994ea913375db065ed255b5eca3fde587dc91;
0x402b7640d18feac0c700cbea0d8f527a7c3fb44a110c4d7cff21deae9a70e40;
0x27f6c76f1b519e71c3888f1ece7cce4e0f99f231ddccc7798a31b0dee0c68206;
0x2fe908cd208699c9d8e3b0c09f5c0fd58716d0eb50017aa7d12df08b53d963ff;
0x1922a59ac83c1e2821afccf1610aa5fb0b3cf8eb3fe3f4957bac604c177fcffc;
0x126fc5609db3cb254a05919034b8a7f9a0f85ec5abbde6f85068607250ea0ac0;
0x251e7fdf99591080080b0af133b9e4369f22e57ace3cd7f64fc6fdbcf38d7da1;
0x28db35e17bb31e5be954d69f5bf8f6838651bb6f5c80f750b6b7017643b6c28c;
0x26dd684288015065728c5e09454535a33e1537761d874102bd4ecd2baf40b384;
0x1895d33a312becc17090e45df74981b4fc4b220d3aaa346c7e8485311cab159d;
0x28bff25eb0f2a5c6d007a92a7c4d88bd9c12c5622d0ecc5a509c404048b7b5aa;
0x130136f07c7e09acd49556f3a6bf0739c9efc0a1be738453af67b31e845c976e;
0x259c455761e6b6420dadf3d6b64eb65493f989fb3e5698e7307a6d6075714ede;
0x1c9ac464fb08828d02006c7529eb1e8f45eef54405ed2cfaa133bd697f618929;
0x60abe65207efd0fda7b24719d35018f7607dd732e71c05077148f3d046dd180;
0x251e7fdf99591080080b0af133b9e4369f22e57ace3cd7f64fc6fdbcf38d7da1;
0x2a41f347b5f6eebe8969667071926905a3e6e521b85a89006ec2f500ef42b000;
0x17840fa3a180177731bce340ffeb5a3b6a68b94e3f870501e787edc5a94db63b;
0x161ec94c3f624f928eadb0e2f2cf6b16430fba680a5a50590d89005a688d9b18;
0x22d8be171b4571fb5b773c3a548fbb286b06e2701ce99b7630866e1bca6e2cc5;
0x52464c9c7ad14525380aaea9b06e76f03db8edd220f90b03a9feef2fecfb978;
0xbdee83b20d91ff9a0404d8b0593879c90f7be5a95a22c8e1b157d92c3cf4746;
0x2d84235b4f4e04262d8f246123b8e631ad51a4e1051f41f1c89cc42b61717302;
0x3d6b62f816bc4b464e2971cc6a7c1a585e519266c4627b1367ce7963cf93d86;
0x251e7fdf99591080080b0af133b9e4369f22e57ace3cd7f64fc6fdbcf38d7da1;
0x16caff6fcc165168b3ed958d3aac8d09f98f670bdbb847ec0e9083a022d27692;
0x2cd4beaac59c5306bf76ef7e06c81adff6de4bee730cd4676e966db45fc067d4;
0x1b11abd8ee736830ffeda3782fc7a82623ecc5afa92c0ec9eeec58177ce8608b;
0x2c80d3430e64bf850c9e10a22f6b781fd513af20d4705435bc870ec8cbe93cee;
0x2d2f20d2ec0e52eec9fc2d0e49fef7a2454aa77a5055ebfc4d4449e8f83bd015;
0x1e51c55a8d7a04be4edae4f7dfe6137e96370ee2a4ed459ec524b19de646e0b0;
0x13d4327afa809e26c8f97e36ebb5be1d3992ec72d459760bbd25659790738f43;
0x176222f47d8c0ff9e8a967920376793dbdb9dcc3a79b44fd25e1f43a755e6b81;
0x251e7fdf99591080080b0af133b9e4369f22e57ace3cd7f64fc6fdbcf38d7da1;
0x5193cbcb59713c78012ede93db828e69336a197fdd30c6b7d03b1cfcdd6adfc;
0x2bbe660fd34f6ac3f2545cba9f717d2eae9f8c60242851657f8661504a457c69;
0x1fe59c3d2724f4158483406e6cd62aafa121c451f13e48ab3c857b2293333c3b;
0x249c893f9de208601de45c9769ebad071eb864524003add0bde31fef7f4f91a7;
0xc20c4a12bbd772e0dbb929b69b24751da26b0fa8639005ff786a25ac1a5fe96;
0x1a0750fb1d27bcb326ceb3a3065a487cf7d513d8954f31dfb174fc5ed95ce55b;
0x16d40c0ba7a7aa232eea997d45ec4f0567fb6814677b262aadfaefc91d409cad;
0x25ccf860fc7237cc8721aaf1c717190db40ccd65bf65d108b16f851cebca736;
0x251e7fdf99591080080b0af133b9e4369f22e57ace3cd7f64fc6fdbcf38d7da1;
0x1a25b1a6b81926e968ffffa63979c900c1e82452c986ae599ef991ba214e6f67;
0x2b344bbb50400ea76151bd0b68c3139955f101c701d32befddcfec1ca72df25e;
0x1044e69af594eca5f9ca7ee28cc38d161d01037fe223412e2f10838bb9ffd1e5;
0x1145f6f783af7d1e0ee3388f107ccc27609bb8314bce27b03dbf8d02843ab2c7;
0x20ed7009a6093b160020318b0bbfbc9a9d14de64a3aa25936ddff0ffe3a3bc4b;
0x24cc5ed4ff9d84fce95c1508e1c7852fe60a6def592f423bb79c229327be7627;
0x1fc31b0e67cdf9efa9c0c312afe54b5158ada1511719c76953587b772f1c830c;
0x1faf997032cbbadc0c6d30fc804d068faeccbdf7cc90155395b739e017081259;
0x251e7fdf99591080080b0af133b9e4369f22e57ace3cd7f64fc6fdbcf38d7da1;
0x1197c402e5f0a49c8f9b9a41af6fbcd013cf9adfe864613c1bdecb6201d9651e;
0x3025d698462f4cf23c7d4d8a3eec4aa8e1a2184a43020122db653afc6d0deb4;
0xecd1d402fafa3602052ab586f804ec15f1910542f35c608eb7a247d5a960cc9;
0x30021619d0c0b402b429d4e962cc3c2a2d00c62c131144f7b3d7f8acae6975b8;
0x2bcd05e889bf0fcd9dc4f5faf21c506cde15c316aaca47724e71bad0cf34b27d;
0x1b890b4097a781900b40d9c1ffa06a5e8cd05ae8fe52e040db0e7085ca46b460;
0x8081b53a974ee264310b279468093218cd5e5edec1b7da6b21ab35622242e48;
0xe6632e8ec976cefca5b164e6c07ab40ac611fc723e8d8a14899a4cf4be3b2a;
0x251e7fdf99591080080b0af133b9e4369f22e57ace3cd7f64fc6fdbcf38d7da1;
0x63a3f8dea9d024a6f6a851ecdb21bffbfe259ac17f6793c91e73823a82f4f76;
0x23b2c6ec9af5d0188e75baab9990f663f8e929bcdac96cc09c4c0626274692a0;
0x9a41c06730fe53d395c602113f1607fbe01425190d50d56e9f215658ad128cc;
0x16571048fa92024a9345a0ffecc159e76602455a71bc7e9c9c01dc50d8aa1d6c;
0x2a5a7e76dc76ad78878b3d3b4c74995e2ce77bc126e4d17db507161b049eadf6;
0xa23738e129c11b285d81c1c01e3f87989c87600727e7593af45607f98fb18eb;
0x2ce8d6eeaf4d6c7ca0922c4738e81dfba227e98fc3ed24e7696ebe9c2732a1ff;
0x22e3bfb13d10368cee5175f5e2a2cc205d28021caf5fb2898de2389123178a5;
0x251e7fdf99591080080b0af133b9e4369f22e57ace3cd7f64fc6fdbcf38d7da1;
0x66c43e71903c5b74ee8e90ec30a1d8cbff7d8c85d3c7b995a976036eef8c4b7;
0x2fe5dfcdc9335f0c0dd3d08f4e783a5ff6c2e6fb7e2928840821e6da8d91570a;
0x9accce03257f967a24c11ce718f21167d9d71a1cb60a4f50d0228418428300;
0x224e2a85316b67bf2dc64549c505721a7858438a00e793fe76b961bfbfb67291;
0x29f1447b45128f5c1cdb12a334509e0a991c0d2c9360a5cfc28af420c2ffffe0;
0x1301ae5665bd3e87cb647f566ebcf2f2eb5bec4b257a77061a15dcc7b8b34abf;
0xfc6599ea957e02f69b1ca585c7135425a6825867d0cdd2b06019f3c9398ba4f;
0x22e91a30a945b960bd87d7b0d8290dcd5f5b1caa339c41aef323be1ba9c724e;
0x251e7fdf99591080080b0af133b9e4369f22e57ace3cd7f64fc6fdbcf38d7da1;
0x1c7c359c26eab655aa469e0f9a8cc3d8c7a8149ba9e9baeca9233b7edddd1d24;
0x1ddf651a5d396b680828eaea1f252625db1988504765eb4aeae3274a19cef175;
0xab486e3e737f40898d3fdd6bab09213c0056c2e090a90acc754574739159385;
0xd0b817b8995913e3ddd08b576951bd47b45f536739fc9cc782e769fd17e0028;
0x13471abd3a25160947928376fcd79dd5aa58672f8382745e3a040c2acb464974;
0x7bff672e50ff1f20296b1838e5270229a7477110d9a7fb56580371ee4ba38c4;
0x23f91ef1b8182e80c8a0f54c3a35ad51cb9a3bb61b07b3e34386f16f7f4b32bd;
0x16c390b3fdf09c6c42e50b66557532cc5998cb5a8c15446d31813e7b70607ec5;
0x251e7fdf99591080080b0af133b9e4369f22e57ace3cd7f64fc6fdbcf38d7da1;
0x1976d21aee74f79c60d44e46029a5b04fc03ebfb9bdb09a0b5dbb89f677cd296;
0x56e7cdc08bff8d8bc12dc72af3c84858dde68919cd991bdf513656eb0a0cfb2;
0x22b7992d7c0ed349aab7531de2f12da4fdcf961215ba06f2b7577f5d42bfa85e;
0x10f97fcc757a0d6d0d4e2d585ea5968b3faba9d6458d16bd366d081ab65ae95a;
0x21bc046c3d727baf6e65b568653a398aeed8c95b73567feca3884a051ac001a2;
0xe757fd0b77219a771723e071c9896062eedbb3da05cda25d39ead3cdf738491;
0x1ed536c497ff36f612f326f3d03e97d30abf91605ba686af36ea04c19cce4f4a;
0x2491340ecfed3f98ed6fd566034240e64a08e5a39a468c78b31e4734a679bd67;
0x251e7fdf99591080080b0af133b9e4369f22e57ace3cd7f64fc6fdbcf38d7da1;
0x144b73c6f361a4c232674a08616b36c33f7bd667dcaeec35530a2e8fcb66103f;
0xb244143540a248840ba5fa161cbfb2fb2dab97332073042cbf8a932144d27b;
0xb5bedd8122560caf5a9dbd69f82f7439543bbad397d7cfb4ef7782f64ea4e12;
0x1386c7e88c5c0bf880b28eb2735e221c2a88e7f871ca5d720c99b4287c528a67;
0x277164cdc5187613b0a6d6450b56cabfc828f20dd7d07611edccbfc3d381c9ba;
0x16bc97ee1ac4b1cea8f96e731dfa610212aec4a193015b94b0f2a1657d41f13;
0xb341e4361f31734af9951c20a6aace08a3dc80f57379add9693b56b047b3480;
0x263a060ba49fe4862df997994261e665c0406642c669c32dee4ae7a153fe1dbf;
0x251e7fdf99591080080b0af133b9e4369f22e57ace3cd7f64fc6fdbcf38d7da1;
0xdf811b70cab32c0ad0aacb576fd95b23424d3686d79e36feeff21d1aa047eb8;
0xafae979e41c0cf7d662b4cf09e93dca70c0945c6759c4f8d2c935a6084eced;
0x21ae12f1dbb152c33213efe9cdb6044574b3df8236be92341131435152115e5f;
0x272fd8955a7524a09f77c28ce89d58caf7d883f9e4503ad6a37c0eab6bcbe468;
0x3712cabfab0f6f3d23ac7beb815226883f409d60d798242c6d5e9dae8178fa6;
0x15bc41d746b14885ba93dc7d00594ea2f174b3b3dbc1acd774335405c18b154f;
0x9dded6d75c33754be1c1ebd2dbed077c1f1cb80938f0798bb2e25b054a52962;
0x1d9fd7f273e141e48d7ae825a6d7758e351d80c4ed50139a659d52edff60d227;
0x251e7fdf99591080080b0af133b9e4369f22e57ace3cd7f64fc6fdbcf38d7da1;
0xca2cbfed626671d6e0f2e3d1b6b2ebb5e9048c2f1273223c34fe599429e1f2;
0x1e9bb2efac004014858166710da5d764ab36b80e4e97500d784fe5cc2326fca1;
0x23f8af81b77d2f06d566eb0d9096c4b267f498f92bac69d622dbed85bc8a8ada;
0x11546811642965c71b3865d830809b7f402e02d1980c3219c4bbe48e8bd37811;
0x2b872c434320ac521ac1e14867c05d88692de6ee063f402c28cba02adeaf9c51;
0x1f80e8d09a04ffb20613cd83ea35fc1593f9a5d8db6c846d80dca53cd4ba5a94;
0x117c4e17071565b51a2b97908f375ca0194dd595e9e873e8c0a158b59684ac70;
0x14da94b9be3adb3c5f7cd04dd5c58f63e74245d5a1e6fce5de3d093d476f08a4;
0x251e7fdf99591080080b0af133b9e4369f22e57ace3cd7f64fc6fdbcf38d7da1;
0x2ac96264771dd5b1762078d5132db23febb0d2edb19c7b24848d4b654e9ce670;
0x5a23e8be5fe8e01b11d0c7a1dc85c909602604b15d620c7a51e2b017dd63830;
0x172623676d3d38b2c68ba2b30c12c5818d874d83a98478cbec0b1d27f5dd7ece;
0xb632ee1e8730d509691580805b890371ca2d51bce083faed1615a845481de7b;
0x2a220ef566e4d54373e1a095231c10905a2f5e72edd2b6259b46ea45749203ce;
0x2ebf4340ee05460d8298d52260b4ebae389357bd857cb638c41b2708cc333dc8;
0x27e873b1750916366d2e7906ffe4f42e6dd7545bf534adc73a02b7410f7f8275;
0x1ee70cb51ad6da4513ce42ff200e46dfa39992a90447f1004765711f3f5ad52e;
0x251e7fdf99591080080b0af133b9e4369f22e57ace3cd7f64fc6fdbcf38d7da1;
0x1021282efc84669e4a98956e30ad0043c6c19dfeb98d6d14bf027bcfa555f8af;
0x1f1c2e424bdeadd277162d70faeb398d661225414a975a59be613e47274b73c3;
0x1a71e415abc5ccd5bf268130070e89b1e61981cd54f6e5864b8cc4e1d50bb21b;
0x29799820e28bb9c0a7bd0a2c6d6105e5c91f8f88b2823da7c57825067214dbb6;
0x17377cb0195b95b473606c81a6bd5c807b22870afa6cb230a1048e9515e31db;
0x2f73cf9f22e0431d5e7bbd907ebeb8553b4117ff1fc50d09fc7b75935ef41251;
0x19cd57e77a99328260bd31fb993e7bb3fd27fdc21b2187fe3a4bac0ad664719c;
0xd5ff1b6b5f33d6d568d9197d0df40d07abede20ae3a94a0292c01c304012713;
0x251e7fdf99591080080b0af133b9e4369f22e57ace3cd7f64fc6fdbcf38d7da1;
0x26c7615e04be2355af0773fc0e025f86baab5f59d834ba005e099d95331d61b0;
0x170ea6732c6d1b2ce3279f2d4990926fb8d279e4864d966ce6ee6c319739c2f5;
0x2f870269a506f351fb0b9a9d677bad1bbc5e6ab40ff0afc1772f02ba395fdc8c;
0x11986790a1cc239c92bd4b8d8a1b9baa76e1e49f847f16ede5f6398aa83e97c2;
0x2510c2e5a39cd6c243ff590621941b221d2a2c5a79ed6e5bb90eb1008219239f;
0x1ba5c05a828609b93a7e151338699af0b8b0aa96d3d5cc9e7d3785333fa03dcd;
0x8648c03bd03b5f4dc3868ac1c47363d90010b9cb19933554fc7586b97b5fbda;
0x69d0c72c5880618f66ad58d65f09e5fc488697c71d92135be291f55d496cb7;
0x251e7fdf99591080080b0af133b9e4369f22e57ace3cd7f64fc6fdbcf38d7da1;
0x91acb34aa0d03afd0ea47c1d56965a9051b05eebff9af71e07c4554184f462a;
0x2b3f75e8ca7118776d9676fe058565eb99b6e99bd23505a8fefc927e17cf5336;
0x16d9ae82c0073fe1dcf35384c0dce87494b2400f9027ce1e64ee440a439fcbaa;
0x2a11becd9333eb48f3027ad8f3c24fa1a0ea671a1020278ad84c863c322e8057;
0xd569be295d5e44ccffd9d3ba84aaf6a0c178e8639689aa6c57214f00a6a9d90;
0xa66025e45040fd45eb136eccc63e2d7fd237aae9b62e2330aaaa0bb44dbef48;
0x2cda68234c7e22d8fd725d952d3c529b6997b68dc02065f6a047b6cabdd29e42;
0x1f9ab3e8029afc72f56af02ced5a6b145ebc81444ed12e82c7ea547e9ad23650;
0x251e7fdf99591080080b0af133b9e4369f22e57ace3cd7f64fc6fdbcf38d7da1;
0x18a2e32bb69277e0f5e82c2a60a008b3db5caf3c53a669215c0b3493b73c7138;
0x224c4f2e98b4fa10d4ddc83f26ada461e5b4f412f94a1eb153be707470746fbf;
0x1b2a8787e954d981add1b123a6f6c100a609e8135c0781ac9a1e7e326c4b0f4e;
0x2da288c34f32d86d5dfc0b2dc9891091d396d36de9f70589b7beee769a058622;
0x2e24d351b0d0e94f3e0f83eb60f2d476b8b64dcb47674290e87b27eda7f20180;
0x14af016f9da2f982e82aec1ff6ee809445db2c6d85382f959508a31830dce9d7;
0x91aeac9bde9ce64a54cbad523032180c2135b51ec4547ebcda08824bc9cdf9e;
0xcaa07eac62d9f07c17f63f749b7047eaa1adda97f5716d76f23affd6d845dd3;
0x251e7fdf99591080080b0af133b9e4369f22e57ace3cd7f64fc6fdbcf38d7da1;
0x554f06e31b164d9d7ada3e01c4bbf452fdccac121ca787b08ad50dd2928ed42;
0xbf8f8d7702b1e8830bf126dc420158a624359067a0f6385068390b01d176601;
0x1604d181baf488dce4f99bf63c065ed934ee29f0649af4dcc9ac2a2887e8690c;
0xac951e2944f7532d4ddce72d31c8e91c0795cdfab82df338f172dd9bffdae43;
0x24d53d9f665348c12bdc3425c2b83e24fbea3b66b0c9d119146ed5d5a1d1e9f3;
0x1ee01a89a7ebc6b8e93f2ac2e60b9909e3e3d855852e0e113a72a118f56e2da3;
0x2b78c3171a3c8ec6231bb7c208e5b7c2c90a85956a7f2a1f763cb6c883059938;
0x7ca1e306d90787461696fc7e4a3938712312494329be76c8e2b402cc0d617e1;
0x251e7fdf99591080080b0af133b9e4369f22e57ace3cd7f64fc6fdbcf38d7da1;
0x1febc25f88aab92179ac3cefeea663f51562f6fc631bb236c04f5ef85b464784;
0x1b1b065eb60dbd39a34da94414fdfa4415933a6bdba5c2de470ad8ccef1b28fd;
0x60fcebd24cc08503ac4f80c0ffb87d0898f34bdce41420e84d941b5f7d352a;
0x2a7b16d282447357a66d83fc5aafab7d3edbcb3f01105f193954c5ed496ae165;
0xac39f59e76b9e296ef53921ae0436ab01217493f948bf6eca12b11ce46678b5;
0x90b38aaae1df1873784a8966f1f62b68bbd93d34b0f4c637e208f9aeaedfc26;
0x1ba601baf813cb2d40ed5674747b9e3d5760143501e0f21e31a7dd44b7135eb8;
0x17695ec6204f10059ae5ca72c1332bc882cb7b4e161accd1ba9ef760b7365d5d;
0x251e7fdf99591080080b0af133b9e4369f22e57ace3cd7f64fc6fdbcf38d7da1;
0xab5930a06bb6b9a78e664dc5308da0b64d1e09e6c69fa583bc737245c5a469;
0x16ab9a5de48bf089fba600dc70d2790ce0e8f79c1430566802f97fee43bc4e2b;
0x75df7d5cdb7ccc175462dfad73927bf5a5f465e15ad267930c5ec846f42ae5e;
0x23e4a7be74d0f0930279585aeaa432b5c28a4a2b21e3990aa45b5092f08d48ed;
0x298795a8af97b8b3d378279e60b276b95227e66d74e2dc66cffa1c495af98c25;
0x133d1455b6ea278f4acd91c65906bf75f2c90e41cdbefc2721b1e96adc5eeda7;
0x24b722af1967cddac6a1745b71aca7bac72d436ed464e2b8ce55aa2ad5ff3502;
0x276cb6e59cf4a06ff6775a537a4b04c6b42780c9c98a51ff634804b23acfac2b;
0x251e7fdf99591080080b0af133b9e4369f22e57ace3cd7f64fc6fdbcf38d7da1;
0x1044b0ed6b39096c0ff4d292c18632c909d1519149139b1cd192de01485dce3e;
0x2dc918abffffceeb34cb17a8cb532f889d7dea98e9ad2686ef8e30936ecdb03a;
0x2a5030937ec5690d090ad8b3d897541ecd187d2ee126fac5be6a280fbd4aa465;
0x16961c105f85925010e0fdd445ee840dbd3370aab933ccfcb6e4b24a8826037;
0x17262da0f8e41b6c42707dfbabec1d9f79ecdfdd25a32c2a640d3c5a4a3e8770;
0x59935903a135cffc7c5e8cb06de7a0adbc6fe4f66b07a74172eb65951c6a345;
0x1ea2228bc5f09dadfabf025e3d19db3cca4e448e60f2973605d2559a27b3bff8;
0x1e35c4737f19de2debd3760ddc81e1f5857a01c42c86f4e264ba323f4165d5ed;
0x251e7fdf99591080080b0af133b9e4369f22e57ace3cd7f64fc6fdbcf38d7da1;
0x5958875cfb17091058a7e29cbfe20d0d242ecdfbd3635279cd1e0c3a1144dd8;
0x19fd165b2741329dc18d2a5b03d7b58eb3dcdf2c2b0870731a924387139033dd;
0x11cea375386801203c61577504cdc68493716d023d116356def9ad9825be5887;
0x2e911408231ad83ab40e44e28ee0b017a82f7e080a0d4bc1b42c52e9205ed13a;
0x9d3f08c1d2cd4de393b703a7dd94df0540c91b59b288df6c1ad8ba0e51f179a;
0xd8bac92c12807a3fb4b20ec11e083a88b953070c08c1ae9be28c80cddb29a50;
0x22829b774491c0e3add8e7d2de8096cb55a1009ae9ce983b80c14972bc68b84e;
0x2aec91a87a1731f6b2f534955aef3d09ca7e2ee2dbdb5e9a0d15db232557c621;
0x251e7fdf99591080080b0af133b9e4369f22e57ace3cd7f64fc6fdbcf38d7da1;
0x281ec503552e6778fbafd7270951cfef153fcfeca0517410e495c62b81655f9e;
0x98a3183f2ee18973943856c28e0dceb4392af147ca8b528ebee97577178bcf1;
0x794a78e51b51af07808b643ed37bad31e6d6c68e5ef3171dcd06de598c6c29e;
0x214a19348cd7cc8b1f985287e637e7987a3bedfa233f98dae9774daaea42fce9;
0x130acc584954a9048597bda6395bd25ba02fce56102928cea7d5a6f520683ca4;
0x1d09e1227434a4bcf72d8e91f5419ffd6da212a1d1ccb2a51b03e80aa258243;
0x127397f2b156ba00d83847f03dd242007faf326271d0e2cd4f6dc84c961b19a6;
0x971a3d373d35db8f181e0d7b26c33cff17e533e8f560d844694f853e7197e47;
0x251e7fdf99591080080b0af133b9e4369f22e57ace3cd7f64fc6fdbcf38d7da1;
0x241c8bcc463ac96e3c1cc240ce83c44edcf9c781e258a2dad09d1976d9dc6dd6;
0x1a0b489baf0a182599f458897aa340e57986dcde7bfd34738851092a75ae6e0e;
0x102c886ce6381276fe52d15c51dbd571e94904a8ec4d4445d457d596442e443e;
0x289f8a46d6792691caac00cd43dde74940f122c0e5ac202588349c2eee473f6b;
0x2ed1721123242c33f23f809f6e431511594c10b0533afde3304ba62afc55f5ec;
0xc730a9beb7b64f090a39929af4901900e772b0f817098adace287cc20dd9e84;
0x480eb2f48521f46f5049f8d9d682d6f4060ff6c4190b2a22c40c27d0754b912;
0x221d30bbccbb39bc23ffe2c8571a8cd1763cd48de6dfe21d7d8f2805db1e5066;
0x251e7fdf99591080080b0af133b9e4369f22e57ace3cd7f64fc6fdbcf38d7da1;
0x22eff0bad54cf4f8fda9e07bfdae36713527756cff255aa481b730bd286cc90;
0x220c6f4c23ec9272eafb522055494a1af4de6fe7456b39c5db851e1299b7a86e;
0x18d66b43fd01a9cc88dd14b1b5d6c0d23b29ac28775ff60d3ccf36039de0963a;
0x1f62901537c1c56f671fabbb4fc31fa743f3236c26f9f5c98ecbf332eda817df;
0x130beece629451200a3de22eab4c45bb592aad667f9fc6729842971d4a802fcc;
0x24411acb2c9c481c59adc41bc54fdb0fac658ed6e0b3636cdadfd12c386f8c98;
0x2370059923938a3552819155a8b3816fb90cbde45871f6c122c190a27e7fdc43;
0x217ccb823582bf7edbf4a6a64692e37928f2b02d79b43775abf304500dd2da46;
0x251e7fdf99591080080b0af133b9e4369f22e57ace3cd7f64fc6fdbcf38d7da1;
0xe2be5d3f9ee73557a1c421fe42cb29bdf8f4a58679a61496bf8a5a4f9bba3be;
0x27639d7e461732f3baeb172103de2bc4a26708623919783fe54774153bdb59bf;
0x159c005b660c7fb3551cbf624aadcec047ce72625673c866c5fb289f8c865fff;
0x130d38734b549e833b50c550a90580c53248bb96731c0921ad6373316dfdaa8c;
0x13ee4afd14334602b6791a7b8f49c4f4979d485b8d1b1119cb4a2a7c31a74f39;
0x2d2647b74c63579e81a6270afc73e636e588996745ac0499dbeb6a7cf80a889e;
0x1b884086fa3c4173be0fd5cb1c866c87e0f9ae4c3d9f1e3df630cb4c2fa59af5;
0x2289328b5db5b2b2d00e76ff78815696e77eb19acdcb6c84279e65fcce29d15d;
0x251e7fdf99591080080b0af133b9e4369f22e57ace3cd7f64fc6fdbcf38d7da1;
0xbbd293300c70f612c8f5b7bcc6c4106246d2f713df02774a29742c31efeb4ae;
0x278e2893fbb5d590fe623652e50086d58ab18d3015a59d6a61602b409252ec2b;
0x2fcc41f73df0c835b0b514cbdd469af1e2b494f05269d15a6343af34668b18c9;
0x378097f57525674b961d42a2f57a937c1fecaba4c673bdce345050d981b8fe0;
0x15a6727e6f181a5da795ce173f1889e07f12892e13f889c4f8f6c71725ab9f62;
0x1edc3a58673d364ba5906c3b39ff7f654c5d42f4ff94e6e75d2c500842846477;
0x1aeddbe743c87ec10fe447a5d08ab5c73836eb214ef95a08ce91131b8e1a7f8;
0x286e544456f114ce609d6b805b31064ab65482585699c91b9b3e83a75ca386b3;
0x251e7fdf99591080080b0af133b9e4369f22e57ace3cd7f64fc6fdbcf38d7da1;
0x1477e88daf9348ea5f95cb08426f4285c654a897a2c4895333052fe2cdba34cb;
0xc9918bbd089bc26c937ae2e0a92a1d8c87cf4480b055e43831a5e6a3acbe5b5;
0x283c24f7bedf789f31465682347ff86b4c0fbb7f9aacbe5630021b41532f7931;
0xb1e5f0ca68bafaf026438a4682a55c1df5d387c4c5f3e111ead3163eb5b2754;
0x2d9da1df21f14ce401ff84b99fba07311a9da3cd7efc200695ab55b1233b9043;
0xbb61e50ddc0821f0c03b3bed9476f580a02157b6a69a17f2afb0eff5f1e2a37;
0x21dc1358f62ff3dc24cfc896fdfbae88b0074323dfc7b36d680edba89c470e4b;
0xdc75868b6f7e6ec9c26221637eb789b9e4c2b892ce81b527c7da05627ec2dc8;
0x251e7fdf99591080080b0af133b9e4369f22e57ace3cd7f64fc6fdbcf38d7da1;
0x8606e28acd8b2ee4c23a757886d7e99e407d177a58fb31b410ead7fbe1ef272;
0x2f70d379513ce458231a8ee6b3029bcbbb4860ef48c104ddcffe65603d81592d;
0x15315ba38b9e4c7a64a0844985e7b45db39eaec4c63b490cecfb19f02e102669;
0x2a1529e4b1ca0cee97cde58af1536c4823f7e558bdc13f774e4ef3ec8454675b;
0x2a70b9f1d4bbccdbc03e17c1d1dcdb02052903dc6609ea6969f661b2eb74c839;
0x2f69a7198e1fbcc7dea43265306a37ed55b91bff652ad69aa4fa8478970d401d;
0xc3f050a6bf5af151981e55e3e1a29a13c3ffa4550bd2514f1afd6c5f721f830;
0x2a20e3a4a0e57d92f97c9d6186c6c3ea7c5e55c20146259be2f78c2ccc2e3595].
Definition tabC_6 : list Z :=
[0x1448614598e00f98e7ae7dea45fbd83bd968653ef8390cde2e86b706ad40c651;
0xab7b291388e5c9e43c0dc1f591fb83ecdb65022e1b70af43b8a7b40c1dff7c3;
0x2b7cbb217896f52c9a8c088e654af21e84cde754a3cef5b15c4d5466612d6adf;
0x2bc6b0ddbe1d701b6570428bdc1ca1bf0da59ff3bbbb95fc2bc71c0c6e67a65c;
0x123a55a31980384f3d20b2cecbc44ed60c38c11f7d20e9271efab9a905eefd3c;
0x37501cc8c9dc819309a769f4df098e588b01858bc8eb7e279e2883be9fb8c53;
0x15de231637a8ea3473c2499e1bee320c17c6a0a4f48a9b28ad1444d5351ddb36;
0x1c9b1da36989206de9173b0ddfb539bdf07f89df055efc1cc489002da3f4b534;
0x1f28ec9fdcb3854cb327e3e2fe3958550c37fd179198a41cf20a1a4c810654cb;
0x2a0418e12dd26e796c091bc1fb1e50f8290263b3c80f68036e6593c2db2f83c6;
0xdf6bc990dd688fabc1f8a5f8fa02a6a86f7a3a9ee452f5684d123eac1507890;
0x24cd99ab301ee74e2382e238be9941d9876f320e9940481647fcbfbca7eb6a8c;
0x1036eec6b3ab659a50c22ae3b357252e64641ce082e5c084bf61a4e61198ac85;
0x21ece1030bf5ad5759f35ba96af936d82a64abe4f9bb2f50c28a488209286118;
0x2e5d9059e62303d8d17fb509a60afdc4d8ee1d9137f8fff0d0c6e9135aaf66cb;
0x2591d88c11580b75c4edf44dba6ba31c696f6789e22d3fa63bbaee71c6986857;
0x1e647345c108005a7e2f870f01142223bb22ab44a03c7198852aaf6d765c3bdd;
0x107e279d710e65358ef44f966e594d2ba04e3e15e37ca5aa5117adc71b441f09;
0x173b298298adf659b3f695a02f51617ecca7e221f678375405f20405e377a44c;
0x1228a0cd105946870acc7586969e7e3b3e8d4f5f46d450b14698202adb9ea1ce;
0x778cb45d98c0ec68849bf203dc7b151840928cc9d7f40670bf7d48b3c661d68;
0x72a7ff12706fa3b3400308feb33ef3ddeaeb9a5678bd4a17dff096fa99e9e64;
0x2b0997b01165c2874503dc12fe77d6ab58a44c583b939c35d0805bb555cd09f3;
0x80805129259af50e2e5f2d8efbde358132da1c19fcb7daf48985491c9d287b5;
0x143e4e1f2af4def1b19038a0d6ac9606e33f40704799f0890b4aba0b2d6cb923;
0x1c16b447df0a3026d5b9123abaf02d69076c59153052660df237b5221485da3d;
0x2212763564a17c5b816703e5e52a7db0c5bfb668fe2e424cb251361426830b92;
0x16dd30a48d96f76e9378f65bc341781e97cfb94af5a57091bf341342c0d7a6e;
0xefae4a569514657f67e19ca11c01e2426ef0faa2bed48efe0711d338ea3b86b;
0x281dcd532dc450be559536e252e0159ee21d5b91fbf9725f4a57dd870d80e779;
0xfe4d11a8b3f24dc559b4a37118f15ab83dad5a74dfaed41637e994a81333f95;
0x1857938e02790819328278a913222344640f200c51410456089768bfcea561a5;
0x2007d043ddfc54fd999f6f4b63d4ca66c5f126951388cddb1dcde32944155675;
0x23de66b927d576792c69a2c6e7df20d3fc745614f5202780bc2b4c2fb27e9e39;
0x2bdfcbefe353fa2ffe79d2efd5a51c981345a2de40ef5c764bf90da86fedcfe3;
0x26cffc0e5984933313e4f06dead07943880da66929d3aded77e0fa7f994244fe;
0x21c532ad0d50674be3947ff2d4eb744eadbaa2812fc0fc25a41cb84c0fd3efb8;
0x246ecf2ee4531862cc5a2d7842fe3c780b868ef445f70c9a1e2bff46149cc46d;
0x397b3980a3cefa0fdc7339c4f9500b3643c54a3ee7a39600304741a2e772e90;
0x144490957677636a9a7bf12b1ac99af955ea70999b2f972211552ac7562c6aef;
0x4a96669777938cd9643ff257d5f56c5f4f1eb5adea49a678cec3ea17067f1d;
0x2423a50871429a8c48ba13e4df938e6280d715b39af43449ff06030e346e3e2b;
0x1ca50640e8f42c03c288014e8ef12b8014c3c40a62fc5856ee9b633146ec602a;
0xa8335c2fa762d09bda1eb7e22b11cc117df788c0d023d6d8947727681a7a9eb;
0x1c57af7a6796ed37bd964c33cd1bc9c89747ba21df6100209fc3df9f707f1cda;
0x8f0ad5a6c01f0bde7d1a8e7d26848179f5ee31d6d59bb8e2c701e37a4cfbb22;
0x50c7821c6e53eba185a6278fe04a5c1f2f28641bdc843c9fab2ac897e8a2466;
0xbc5d445c5df52fb9b4b9d6954bc75763d53b0c2089832ebdca9605679f68d0e;
0x10a6b2a07c472c2a32e9dc1f0501fbda5c9f05b861d1c78a5cff3594197b73d6;
0x1a24448b3442479c7ac8191bfafc67d9c75e40200b318f7c72d0c2d908b3ddb3;
0x5e230c7b91dc067802c6c9fead50897c03379389e2a7def370ef4c28e5671be;
0x1eead685d9f3577f7e364da47f74d8ee2cf6cee31660055615d8f294a30294ac;
0x4a22eaa10791b59b1bd8ad9626df74275535ebea301f8f912c521ef29c504b1;
0x6377b60615b7b9a9f0eb2276786d028cca82fbce7db1cc27f50b8486c8806da;
0xc76495da478bbdfd623fcac2f3b08d641c4c654738fad67b9e90ea0715714f;
0x250ad6b94e1bd06817cfd2421423a95e18ba872b276c199e16a8fc650c5a9d61;
0x1b2e0e66146fb5b1221c878286a0983e903e6a95390f57d298a50dce6f52ab47;
0x18ca890aaeaef97c7c17cab2c3518fccf1180b8fbd134fbcbce38f786f2c0e03;
0x1b5c3db94d9e0cd45571c1b88084186eb58930bceceb2c8f775b12f37961bea0;
0x6294c72686a69b6069349a73a81542cb16a6ad71337b7c7ff5a5dfe06a260ae;
0x2c18a25a8c2cae179b1a643e11159e8f5c9da448aaee3a44de48be3eca7bb253;
0xfc45a2b9bd6f41901baa7afad40cc28d4479c304d101067c3567fe449332eb0;
0x378bc3b5a32cf5ca088227c5b6f0a566e0b75733c704804619e6a979bc1d36f;
0x255375346beabd092bfbfd7278b437bdd3c18bd951d7f4220cdc5013611fd9f;
0x524853a2a9717af64500fec836c13807e5978be32886047bd3683a5a65b6859;
0x1b3998553154fc26ce88f0488160c244e1dec648b930c132d077cb93997af5ea;
0x12074b4d83e92f8e0ab92429aeb5270140338a97ee8e5c74f2b599d9577f25ff;
0x1a40b1e01a096ea7ebce74c027536bc58778b45dcefb7cc056256dd07326a662;
0xf5228bc094b9eec1967d778a2b7d6b4de58ede8e0f974165d37ab6f2336bee4;
0x27314b961d2f96970977a33f2fac6823c043207e4b6a48a05537ea78d779c16f;
0x2a78f5bdf98afa1da6dd45ab360b877703e1f9f0e797fecca45327ee4ab46595;
0x2cfde59ca2f01a27fce554c265bc23fda32ddd9dff3dd0a2f1dfddd0764c20b4;
0x1925a7d1cacee560010f843ef5fc9e7b0294667d871d49e3523a88fe0af56aa;
0x199ff4bbaf94ee387560fbbec395db1af9eed9f50dd60dc3ca2cb92e92452263;
0x26f7f91d959cdae91907b28fb2f149dbc275f13d55776da51a88200f8e7caf09;
0x24cddd641b7ca3bc6c4d257832a5ae5e92126c3bd2e9f05e012731114d62d0c2;
0x18547edf50bd77b2653c2a53284c999dce5dc69dd613804d10a0ee96bca55738;
0x2b27178eca4b798ba72b2e6b566bdfeccb2a1e60d8504e4c8ec9192f2baebb;
0x3020eb88ae7acfd6342709f3d3be45cf2c146bcdc906ee5795273ae4b6e7004a;
0x54b81a6d3b1f002230c4cd623f77b0fb6eeca3afefafe694544eeeec1a170f;
0x4d1e03c93510ba6fb49bd9ab51063d3b15e48e2ed449bda2765d03065f6cffc;
0x2ca6a28e6b98b8c8220abc091a2fafe86f271eef1d93864b7b2bb5a160dd8d99;
0x2a586600678651f144bf1e54de3d6f8fd519daaf4a4ad9a1f32233e89f9d6733;
0xa94a9fb854a3c53411d736ce58dc82196b2cd13144a240a6fe173508a221d91;
0x2d336c647cbb5478e3a72f20f41d135d35f96fbdd9b2b2884e6b23ec201e47fd;
0x3dbe3f89948f9f4715c491a483dfbf6f6f9dcfb5853c5d3ced707f0050a218a;
0x22466ec15338114c3b316b2d986c8c0d3d14800d82275a42f476b0ffdf9435b4;
0x1c2d6c5b182f394e8d36999e91a9eee77da71f5490961fb783a4f8e6f842e687;
0x4fc56515cf83247e370e48809d3bd245abb52638d86b48a1cb743167db2294d;
0x1aaebc90617e5aa4b4f9036fcc5092da7edce9c110e3eaf00d7fd39b17aaed27;
0x15f7dad928cb34e6858a2deb2f9d92c452a535a096c5d713f7319c0c577e413;
0x60028307221323f46eb56773c5320fdaa2d7123875b420176e34b3ee079e972;
0x157b288cec9b5356e60373bfa43e67511e2a7e62493650c8f38d819fc34e59d0;
0x88dbe88f3fe8fdcbebc34ce3f00f07fda411d780ecff1da57660aebfd12ebfc;
0x9f13c89213c82d5bfd38f8f8bcfe46fdf403d28e6d349ec0176e37df9c912fe;
0x5bffad53722ac6c42236124c3200669abffa6dc923fbe5141c8e4157cd317a3;
0x290a7829a4cef2e25d2f6f28421463344bfde52203d4cca736573537af33421e;
0x9e7209dac7151697be17d3e3ac52b0ee6467929b878d814ae4cc2734b39348f;
0x7629f5b7cd3dd536df6a866a071fb5df56352fafd0f097711cd1667ea344039;
0x11641de0af5d033b442dce1f8334eafd4959f122304ea6c2177c377d55eae045;
0x1021e806d83de4cbecb3c1650c761774e83cae4ecbbb0df13310150cbada88f4;
0x4ae37e1e7676e1d3cf64285f704135c8cd640f70c895bdedd51ded260fbb69f;
0x2a491d28b320ff77bf7221b59fcc2535c7cfc9c0f11a5fdc5e49c837a71f0239;
0x2ba7c26958118f0b751444e8ea3524d45fccefd8744618e66e55679e42be29c6;
0xc6516f4cbac8b8f29be9406c6c309df34e2da7d931133e4a34f29ec6283e9b3;
0x2991acc7db5eb3159f8766c49d692079025b480a70656435ee70c5687daaeb0c;
0x29d7605b413cddd192779b7325e1afb8e52ed3e97e92adf701c7a70c118c648d;
0x2507bd3788f57cefee754d3ff5a92980dcf062ae4a3fad93ec0059eb2fe545ec].
Definition tabM_6 : list (list Z) :=
[[0x124666f80561ed5916f2f070b1bd248c6d53f44d273d956a0c87b917692a4d18;
0xa514a5c227f4cec95dfa029e8dd124c34895aa46bb27c0911f3780d5015540a;
0x278bb49a7b4e44aea46eb0f882cb692801a6e60fdd5b5c23c63cd65ccce4fe0a;
0xc399e9f67aa40707a203feefb0b958bbdadcec5ca34901d253d026a2419f6a2;
0x1d6b3d5f6ea369c26f825d2362933eaa31ea35ec0a77c1fbd9e01ca1523e4432;
0x24be510095436206dd0abd0b0cbb95c883ab304aa52598b1a69306ec981a688d];
[0x11924f02fd19b09255aaa1cf46ea0518e3d7bfeef47421609491011db0bd0b02;
0x192e16d17d956b257b85a652eefdf2ee09589eac5be80915775723d2cb1da06d;
0x63edec1bed831f506af8db648d6fdea145345887e8bdcff109035a1d9b674d7;
0x83f0df3f1a0351d0330ec3ff602ca8cc353b7f6e762c7107184cd7b423449f6;
0x119ef188bb3dd0d32306976c19941e8664be687e7a69692da27da215a6f06d40;
0x211610e2ad4a377426fadf7068b0c1a6c299a164c1c1a603eaed944870d0b9b9];
[0x247fa7f022304a1994ff505456c2201ef9b717369498d3ffce446601ed9df845;
0x298ce0c1e3113bb935c7058e7772b533b1aa9db0c0926bdc8917e5605ca3ac10;
0x1baef1cb5509b526a42061fb53657f99b3232500e855192cbe8c940e068c475f;
0x1a6764d5943fc4a720b4c0a19fdb8c711984307287a58b9b5f9f5d58212cb263;
0x2d9e0ab5c06893dfdfd03481381ba86b6e6292df5609d71f2c64b2d9a79f809e;
0x15a67d981041b1f6f09f3f9ebefd864e779d3af08157786ac077505e50ec79fc];
[0x3fd7b19ef2c861f22f77ff810f54e277bc94eb76c02d79d986be3dcdf051c3f;
0x94cb4e83621afd271e41bc71727f0158ebd612239ac9d698b17fe4be05b7fc8;
0x1324564ac7bdf9e22164e9858d7fa8e368b165eaea3daf4eb67ee59c0df2e5d4;
0x11a63a26feabf87fa66bde66cc25a922c96382d76c6a7ff48f1537beaed683a;
0x25f16631bf77060f7ea34087c025bf135784319ef08cda2e31419ee0a529e658;
0x49327fa79d28c12a2c82406947f77f06775b0287468b3136877701dbe7c9598];
[0x18bd41239c3e71579a677443ecffbd555a81eeeea69352a68b67c8563c0c2a06;
0x3d880395be93c27d649af5fd142e76b33918cb8841d5a28173bd5cf7d328791;
0x5761b8c6aecb1a8ca4ea4dfc2c8376064a4a8004ceeda210a55240562ddc13;
0x8ca7b64657c3548f32bef5b63ad24288a41c0b251099ad27f9434307e3e64d4;
0x144c7a11da5a7c5dabae3f33fbd03cad86d18bc594c79a497ecb9894edb554f1;
0x230940dcc5232658ff9c29697a3fd416d170e8c998f1aa85dea0c42d79f951aa];
[0x2d78c3a5d28de9ff35bf0a257635196e5730ca7f40493277078cd75da8b4ebdc;
0x28eeae6b5866ad68e443bbaf91680db7d7e2b3037e38fef61b42cbccffceca81;
0x10c9e283159d58cb4cb2e35fde83a3ba1fdc28002ed9963d2a99f186178a148d;
0x1998270471e9361955446b0cdb8bea915ec0675f1cd648ddcb04303507a4489;
0xf971162627723f3feadacb28b0c104cb8f74de508752fa8d7c0db2af13de8ee;
0x1b121c049cd1159e289007e0c9da9995cc4bab4c26fb888ec3972a8a2e656964]].
Definition tabP_6 : list (list Z) :=
[[0x124666f80561ed5916f2f070b1bd248c6d53f44d273d956a0c87b917692a4d18;
0x18ce75a35f7297cad2bcc25f0ed1bb4f7c592eea8c6903b19850511ddb83274c;
0x138f93361c6546d69015ad48ef50af34fa9e19c6e6844a847eba9d908572052f;
0x13c29b24c0e38e65a1b9428622ba42931bdb65eb5975e66d3c496c7fe6f7a30;
0x211a38485f1e9db425379f4b3fe9c20474c968aba2ef8a4bbb898a8420d0fc90;
0x2fa4d773833d944be46ec798f7d16e9fd02f51c086141af5d69acf97e9a80b2];
[0x11924f02fd19b09255aaa1cf46ea0518e3d7bfeef47421609491011db0bd0b02;
0x2c001eb6b378c49fc5b37aa41c13fdba486bf324eae0e0063ff83551827f338e;
0x51071183ba1b8fde055b8f273005056fb37684b241f88851a5b550ed0cbc452;
0x14201055ff5412f834d761da8017961213666e5c44d6c5a8237deb4d0f734d79;
0x182177db418ecda99e6e9999c3c0492f4ec27a89b2ab554dc8165da9ba8c9762;
0x1111d2d4d2a013e33fcad48d574587e3d7f7f6b484d7fefcf933dc833d13bf28];
[0x247fa7f022304a1994ff505456c2201ef9b717369498d3ffce446601ed9df845;
0x16e74e9c0932c76182ca25ffa7dc6ae62b2cfbe19142b2ce1d95ec0839d7faa;
0x1a13e7beefcfa55aef7815712c7b350b465c0785afe7d6b356342b61047d07c1;
0x1adcf63e81b22ad38811b20aa6175ec41784eb99fbee0f3e56a15df0c1ac5179;
0x2f3a76ad0307b740f6e6e7aa989335c6000d930029beebee83c0631b3b435123;
0x24dd1c38ec3e47cf711221cdaf4b2ccfc0991a178cf7df2f3d1b88f858763c40];
[0x3fd7b19ef2c861f22f77ff810f54e277bc94eb76c02d79d986be3dcdf051c3f;
0x24de008c4b20c4dd769afa3b377e2e72f0a74339f53c3f6ba8b84b0a85fbe9ab;
0x274ab81953247f18a26dae90d93deb1f33ea243af6aac4e05e117e233b922bd2;
0x16a796c4310ddbc2c435ea5ef0d6381e163250c33485426e97a566ab6f2bb07;
0x1befbb4037c8b847d2711cda8600d941a1583cf2fe06a8ae02bbc26e180259ba;
0x3a01ab7488d6cac69f70b90101e5c8beb78bf65a79fd6068c9010ec2e0fda4e];
[0x18bd41239c3e71579a677443ecffbd555a81eeeea69352a68b67c8563c0c2a06;
0x2a28f2409cb364d31b858844023279404e2ce02d38430be77b2755aeb9193a56;
0x1b8e6cf61af064c9804f1888a6a83f6cea7c57e574c229f978aa922ddccd80da;
0xca6769d4383398d1a04d3d7a6f3510d85fba7f5f6e6d287d447908d11c71153;
0x125428fe689ac0be368c80b67e8b2ab83d8163ba30b4391927f352b3bf3dc5b0;
0x30516fe884be9bad887032b15a83c91d84147d44fe15c90935ec4d421f5ed05f];
[0x2d78c3a5d28de9ff35bf0a257635196e5730ca7f40493277078cd75da8b4ebdc;
0x2afeb1a63b374a502180680156748121a68fd7002114733bb039f74ad576c0d1;
0x3ddf5c61fc2eae153e94adfab9b234d07b261ad228547ba9218c4caf6cbaae9;
0xc2e8c673f27f45ac1112d92cc8b81ef4af42657d7a114d2d6bcc4b74bbab7c7;
0xda5ededdd0fdac9af41d58581e5aecafee671a5253023205aa9a2b7e1df842c;
0x280364612aadf31ee5b176ccc54b4a5f961cc782168c8f83ff2ab5b4d12adc0f]].
Definition tabS_6 : list Z :=
[0x124666f80561ed5916f2f070b1bd248c6d53f44d273d956a0c87b917692a4d18;
0x6fac61a13c7139a37697a657fafd9c12611f196b60aab2342eb6e869de7069;
0x27b4b4ea2ab70bb1a791b43c0571329ee6e44da480d8f0bfed4eb43125bdfdc4;
0xfce2531c0dd9b1906513da21cc6442611222f8c05b5bb5ced0c5d392a1b4254;
0x2278afba888b07c659b7d537ef4f2da49f03e42e6fd4f6ba90966b2bd89291f;
0x456a8c01bcdcc91bda80b7c97f7e9019009163bc2613446a40a49fba3c70ff1;
0x2e4c46b8f3ebe49417334ca76f3dad782cb15d40bd4fc143df9937aae5fdd9c;
0x2c13f0f7c421c96b47743df05ba0a84d302823a72fa019c251cc653bf9fce8cb;
0x57b6bc405c5ad7f6dba556199efad30bf33380cf4bf74ec23214edd123676a3;
0x2d127c7a346cdfcc822076c8df679eb5cf6bd0b6a1fff70f753f1317acaaf8af;
0x1a4dc6959d65fda6047532a57790a1426499672d67b10ea360603bcdabda06e1;
0x124666f80561ed5916f2f070b1bd248c6d53f44d273d956a0c87b917692a4d18;
0x1ab539242bb16cb2ca4984bc82002d07c6fc29bd0d9a71e348669ec4f909e567;
0x144bd8b4ba25cebbcc44c0847844f5d945e389efb61cebced8ac7740104e2da9;
0x8325106daf6927a182c4d83e0bbe039fd390e2507a359747a98d35b41bf57;
0x1469c5365c13ba0cb10b14f109d6893eba3239739e970ebc50b63a9870da0ede;
0x111e82bf1fb3d4458829cb1d852b66f7c2ce4079ed210c88374dacb88c69c252;
0x2bd6778059c21f8d5df3e825464319ba8d9f0fd7b2bdc4525ac788061031eab5;
0x212d3cc6c2012c922fd9372f6be58aa0518c392a9e25338071401daa267e36c0;
0x267547f0b00c32e85957a425dd05961a02626ac79b2eee417af0c450646ff99c;
0x15f1012eb18a32c69ac392696cc974530f711109a197501b43d9b49c445d9dbf;
0x24e5916738efe20b55496e3aecbca9239063458c2c562f3c0c2ad45ecb9a0c27;
0x124666f80561ed5916f2f070b1bd248c6d53f44d273d956a0c87b917692a4d18;
0x537e9d61e32a91ac981e5442837942833efed46c25b4009d6622c1d5cd67228;
0x2409867674021c13c26db12dc4687258c8a7b8c39ea9e5f0e538c9a5d79d00b1;
0x12dd0ad0bbdad721a2bb795f4b54e08a21e4e5043e30bb1fdf1e369b45abbb8a;
0x194d2892087f1485580dbd9db047343f73d71741cb1d679264d0f15f22011a17;
0xce1f30705772a51b72eaffe307f73c59d16cec505e28a06352fec8497398b6;
0xb4c42bfd8b2eee4229dc6b4b6ae934b6882a560dc0b056952cea95e04e84ce8;
0x2831274ffa49361ca9ad0f3687f1fd840db43b13fc4bd747fcbcce877ed78fec;
0x11c3faaea57cd532f952f56dac42a8d29c72c8d1b29459ec218d5280c374e141;
0xd01440afe63c28b5820215a0a082fe296ae749a3ee6116967d46c4b9d59b77e;
0x27fd7799437558165b866c1b89762a0b94bf7db886b158ce62dd2ba01dc6fd48;
0x124666f80561ed5916f2f070b1bd248c6d53f44d273d956a0c87b917692a4d18;
0x2aa5a2f43e0f4bb8b52041f635ec810e7fbd82548dc722605bf2c15e7b2e044e;
0x109e17fad36368fd93917a9c4919820ac8620c5baa64d813f420f25f0e97a087;
0x1c6178a12c2d4fc816077f0e4825fcaed9b6ddbca03d665be624cbef3df6c10c;
0xc8b545f3ba3005742d7867b42b2acb3895868630d4d1ca9bd2e7d18b22f7b1d;
0x1cf272cf45a39a8f47599447b65ed8ec169b564e656acd8720550f78b1aea9e9;
0xed81d4f2b8cc774767ad184b89c02d1cf3aef1866d4b8df571a8feac7e1fb26;
0x25c22916d7c3d030b6207eef339a432d2f2a485a98a63fac53be6a93d90cdcc9;
0x140c2f65889d437a0736acd2164839f1a951aa1e9ee18258b701b19d0f880820;
0x19b9bf03c47ce774ff4541d66232a3a61a1eb767c37ec93730c2d29b43ec2d0b;
0x1464a2e5c87714bb4afc1b5cb90f1cd587ac7f3133e7f4a5e45d0426bafa3946;
0x124666f80561ed5916f2f070b1bd248c6d53f44d273d956a0c87b917692a4d18;
0x2fdf0895b6e7dd081135a74466610d02ec2f5e53d065f8f28f55626f8984590a;
0x2136a6254155d5370c654be03d5f2ea833abac83f3ee2aa86080b4c812f6d9ee;
0x2c25045d4ad7cabc1457656efe3091cffa14b2a3c3a74cde1619658015d69a3e;
0x35edf90ee5ee2937a2258e02a11d996be7d2263c30a8111a8f461b31b61d756;
0x24a6181596fefcf6b89c799218467001223efd7b39880e0b241bac300d20a3ad;
0x29dcdaed731430d9695b46313d84713e6dec7b565f79b94b2cfa3dd7e9e4ea51;
0x1724f4a9b1696abe55d95e9c0dc048d1d473394ccf983f198d9e90d2c73d1b8c;
0x1af69c74aae418d0fa8d9c030ebc68c04e608e5a8cc00a35b1910ddbc6fcf143;
0x27a0793076b09c2b5e775c8b738f488a11171c0066277483afa7fd8c1dc5bdb0;
0x1d4ff6c75f1778615e31525a57fcef7dfa5b5d84382b5efe78fc90625f8e1e12;
0x124666f80561ed5916f2f070b1bd248c6d53f44d273d956a0c87b917692a4d18;
0xfdf45f1143c7650173ddbf41fd32b101ac1058dcb360e4f55fb042d86b3bbef;
0x28605df321f1d74a93860493ae581fac9bd5dfab8755373d8bbea346601a2a1c;
0x2894568db7debb47fdb42ebcba7bb4c2bf391c73c0ea435ff611a9a721a2ab09;
0x193887de99914c911549cd4c5a402b7b33e650ef0009d7c99075bee089ee532f;
0xe5688ca400eea76906895ad874136e390c7545ba17d0b64b9da48aecfd53d91;
0x2c60db3843ae2171a20f4eeddff7e6cd3bd2b06cd8d39e97f93b895a4096371b;
0x8fb4f2d9d8a12c667625b7df6751d25d3409df0443411de74f779e90109ff34;
0x4d7d91e3652705f015e14eefc3aa412c707a8615d7dc336fa2da72d1a1802;
0xc60ca70bd06719bcb51c3a8664b73f8b921234656168e68d4ff6e9552808d54;
0x1ed054abe9f3b4e19cb8a439399c5ff5f6de90c8463a09b82da225c567d05095;
0x124666f80561ed5916f2f070b1bd248c6d53f44d273d956a0c87b917692a4d18;
0x2b3d78867b390b2fdb654d68512c316ec959c5b8c9aec49d5fe74188257c3b6b;
0x19f72308eb341f3328570cdc9f78fa3838e628260d6e76bb3b09cb4e5136545a;
0x54c9fdfc6bb12bd2061b153f433d828dd2ddf02d56e4d6eb280f19591597d9;
0x20a858ce8c00fe452359acbce4df9110ff6c89a362ff4c8ccc7f9da470124a1c;
0x1a55f3dae7d4d14c6eb851e44463ee0da6e66b0f56114b8f46dda9e717a9b1fa;
0x65d52f3291af23a00e2d058bb6ba8e17889f7d03bfcbc5234272ae8660abf31;
0x278715151d06026cdd68f4bb0fee4b041cd0a8c62bd5faf71b393ea9dc3bcf2b;
0x9c6ec8631ac5a417f041efe2951033a622baf01b9f1630c7bc093ccd6f3fc60;
0x9c078b2310e182f40304e342c5f965f8605102931254955aea231962f762f75;
0x22f4faf4ed2ac6947282b926253d93751ab1118a05d1466bf117dc853dc3c532;
0x124666f80561ed5916f2f070b1bd248c6d53f44d273d956a0c87b917692a4d18;
0xf24da597b74c3677589a6cf15426219cd0e2c1a60c9acb4b9764b8e5b4fb5fe;
0xf39e91701d900bc7ea63b7f0d3b753cc31d2cf6666eef786a6400ad04515c96;
0xb41187c60cc3bff1020fc4e647452ba940a5b3d9ffdd1b47ab613a515df66e5;
0x619fadfd7cbaa89e7d5558c4d23275665531928f62fb14cc4aa42605f97a1b5;
0x285ed3287367338bc9387c83fb8987cadf1b4ea7f1dc6b172e924ee0fd2ffb87;
0x853d29d7e18010d04607ed8b3089833d55166ebf58aef558b3642f29ae2eb31;
0xb1d3737cb97c59030221a7d5d112bb755d096d8766242158d0bad07bed5ba9b;
0x272b60326347683fbe6dff2b97289dfefa1be8238526c8067ee0a126942ca6ae;
0x2c7ef420b2bca189f6d7929af54403354933d68446096f3cfccd12e76818b23b;
0x10fa5605e0b680e055175664a979aea1a45c45057f452e5b90cd613012b70508;
0x124666f80561ed5916f2f070b1bd248c6d53f44d273d956a0c87b917692a4d18;
0x2ad6fe66fcc8eb73e2dd7dc6a2186c31107f8896b5f8c7f9ebbac9bacffc59;
0x1db23b49760ab87c22237095db005ad9b792ba63647031f2f5e8d0c66ca2c833;
0x2b51ab38d81609e885b8d8c3ce799cedac1febdec5e27a205ca82b010b3bd9f8;
0x2bbd8df986114303d59bf8a408982796d6f1809269b983910bb6fcbbfa72af53;
0x3516ee288a26a7555d7bc66bdbec4203e74c105513cd8be87a99c035a176c22;
0x21161b2869e0be07d85e11051ac0d8894044cf1b4715d5dedd57cbd6aa48b240;
0xf4723c169e787400b2153bac8a074da0d992f44a8558a0956d563e73ac03dc3;
0x890ec1904c98ba5b3cef6bed816850fdf6734951b143faa0c2c643a1c1368b4;
0x1453882ebd23e2ce3f5655eb4f2db4e7d6dcd892a14e3da655caaa5f45a2744e;
0xdf69ed4eae9a6ffcf54a77d8d8ba14541af9d276327678b71e7c49c8deb41c6;
0x124666f80561ed5916f2f070b1bd248c6d53f44d273d956a0c87b917692a4d18;
0x84cfab525ae12db3c30220f978a1b48bb652c2e47d1f5f4bf1cb3d5ea4ae0a1;
0x220ee2aac4ec50cf3a51d76ea554c6960befe1a9b946be4b58cff8b4d8a16561;
0x9d60891cc06c285c3ca3cf7a78e37e2516e4d0ff503179234ea12645848d45d;
0x2f51338183dfa99604f1be042cc1dec8e96e08c7faf7bb3b7eb860dfdcdd295b;
0x29fb82b7e1ea4acf9d2ca8b32f27e68d10b27214361156770bfa4732f85e1b01;
0x24d4646bb66688b33367aeec4cfdcfe16b7d21f47f1bb1f88a25896e526ecb8b;
0x2cdaecd1c5653769c095f9ab2e0b4131a3dc4f581954fa91120dc7864a5d5b5;
0x2e48eb6f5a9dd830bab11e8f49f7431a851938335f6af547bdcde3b9a2595913;
0xd3d729c3d04c7f9967a7f3ce11c053d5a5598f0847966dc9840eeebd9676b11;
0x2c9c7d8f5c11a1cbf89ab2b794739a371d818f77cc71bffc6ca55d4472648f2b;
0x124666f80561ed5916f2f070b1bd248c6d53f44d273d956a0c87b917692a4d18;
0xf330feb7fa24cbfbbafc2eae5d109a2bbe9d5358ec7a34035d728c6a531b17e;
0x1b4af72b65b66913013263c37d97ffaddbb8a824b34d45819029b0867ccfb460;
0x2ace1ffd40f56f145cea9e679db6c57732315343423ce026a8e9275e888307fc;
0x1c328a5168d04cdbc31519e037fdcc5c426f9a6990fe80c875d625880c7d033f;
0x1970922d81c9cd97d3030d53733e33e3d046684219f4960ecdd0910f5aae548d;
0x76fcdeddfca38e6bc4c5e872eeb1628caf23d8d7b966d97963f38b8b55a86ab;
0x3e273f1f05592ce120df7ff9ba32eff1c1bc065b149c2c2a7986c1569e4cc3a;
0x2b1f8dfec05e8d4495fd0759474932a003b11289a3440792a48e2cb777badf6a;
0x126fd80bd8f9f83f00cc51cde97f9e4a3bd540c93921e8f3603c0cb13f89cc9f;
0x7cf5007a4ecae9f4cd74689126175d8a81f7c51a317a2c1657cfcd533b4a57a;
0x124666f80561ed5916f2f070b1bd248c6d53f44d273d956a0c87b917692a4d18;
0x18793b6ef20fbe077cf212e603b2a491b8b9965510bf81c85b4cef874fba6093;
0x5bc7621748131cb19ae5e7e6cfa468344c116dd37fae01e1780381f9b1ddebc;
0x1aa859447f3acaff5c15fbc24bf7c164faeca846b555b02637fa84a52cc9efba;
0x28c3d01915f85693e04821e4f2ca799c62b1fdc4739123d8dcdfbd1c77636c1f;
0x2c7f8527d2ad7d02e7046dbe690997f033e351fd18d357089e988e041223f15;
0x126b669244c7ea73d340ded56f5edce3632a0a69b9cddede297acf2f072db9c6;
0x24f71ee920c1cc2790112e7a8e9d3d824255420604fe31b331e98d2bef539781;
0x182fbdc24f8599ae291b3e8a96bd15251396a94167c8e34ed1f86069c067f03f;
0xeab7f1b18721b3c154fb3b7fb067c4f7ec18a50fa3ab3aa5873a408d6d8cbbd;
0x2012fdfd4d53aadbac3d7ab9172a826705d55e5862d1be643cd4449e1cc6b06d;
0x124666f80561ed5916f2f070b1bd248c6d53f44d273d956a0c87b917692a4d18;
0x140490ba93d42481632e9924a725c65bf59f7e4975e98fbdf486a9772f4b6e8b;
0x2adfb4e0a55448609a06a1ac31bc5d06d74c45a4dd23680923d985b867f054b9;
0x2035a526748b686ac46231697cc52fb4c6d8e48c4314cb0a1ee08eaeb43938c8;
0x242ec6b33cd2c625d1ca2833159053a0e9beeb37c59ec90e52d40c983e865096;
0x10f8808d7f88620998e3f144046327b9522a07220a62c7986debf2820accb611;
0x5d4d8a6023401b798a1b296dd42c9010da081b9e6073aa73dbed7a98bef4419;
0x20be6be68c47dda41e08c5f858520b25c036923b978fa8be6e870e85fcc16ac8;
0x39240da2e14965307bd9be9af5c0cdda03a4019f86c45bbbea90f40afcfc500;
0x60457249c4fffb06481b95457ec48e2b795dc414d6b71350ad08b56cdba7c3c;
0x239ebf95f3d5909ff12820066059f1b999f9ee594dc03af1fad6e0015d698e72;
0x124666f80561ed5916f2f070b1bd248c6d53f44d273d956a0c87b917692a4d18;
0x90738838c7088a39b45b7b8466e003c1d0b85fc0c95153e85f9feea552cbed3;
0xd0aa07eb53bc77f6a7c777fd33d11e4eec54afb97da769f937310f797df2469;
0x22e87e33862f106af8bf1a6ac33f69d994ce06f021ad32236f5529eb399a8ef;
0x16a3ff860e2110d98eceb0f5e7946d207273ff9a4f1e088a009f1aae19c5b0c0;
0x13e35cdae4c6ff35a681118ecf4612503081b2920a59f54cbf5603c5690ead76;
0x11dcdcbb80fe328963d887aa5443a88e602767afcff3938a877ef8b5e6b62084;
0x1440ac3cf3a1ca78709a2a97a0255d08882b40ae287994670dc7d58d7b929c71;
0x9112aba3d285034fd7808ce5c69caf188aa2192e3143ca73ce3ad404c503a9a;
0x2c8eb1b5f21c2f320943badb09721ad68f1c2f3576531713981a905daf415450;
0x695acc1afc2070eabaf2e2279eb6f11d6e24c787b37f3a311f2bdac5cf0b160;
0x124666f80561ed5916f2f070b1bd248c6d53f44d273d956a0c87b917692a4d18;
0x1fb55d0f07f478f8d6f5a59e0856ad2bb9a4e1987cbb36e437895230685ceef5;
0x24ffa19b717061f29d7befe633215f277119ea89aec1326f9f7e2fb3773f3a5a;
0x16cf73a3eb3a86fe74cba7ab2b591ecf57d66ffae3113107298e11f21d7f69e5;
0x115c7124e48b479e39faf24d853540716cea1bf2fdc19fdec358d1f740c1f874;
0x1587c165c3d5592e72a8445bab791271ce64032bf746d66194ba23a413116cad;
0x20677bb9ac0210a06115586f21fdcd1e6b28e8a1a8664e48681bb077b75e001c;
0xfdcb34056ef1d893287ad074ffd8e4d767ed07f9ac97b5de1f34d8e3dd1a651;
0x19ec313123a0d8e63b853a0931c9a99b14cc775f1c312bbb13d5d53f8818b79c;
0x19c0eb17f727d16dc136af9e86888808b870b5e9e5d9e3a3c3f0d9431bdd5728;
0x2b158fd09d9bb317ce4378cf6e0d574374690d42cc465100ac3f9a6bac9b6907;
0x124666f80561ed5916f2f070b1bd248c6d53f44d273d956a0c87b917692a4d18;
0x67895e624f72c2ee73f06438d1e38b380f0259e6a04047dc2ee474d543df74;
0x24d801233a58b2016b8c6af6bb88cdb17e194fbd8c619a7d844ce681b933d5f1;
0x18bbcf6fa75ef7e68070f388815361f028acdf41c8e0d9f2afc62b8bbb9ab94f;
0xd8f16cc1dac32ee244cc1837b1ba594c32a38e1a594a6f1367af545463db7a6;
0x85b04652f4427e9220976032ce4aae7e1eca676f0c169f9570bf91014ec3d60;
0x29b6e637abd64aa25e69de1bc8bc2061010a523a6319d49c8d908c46c2e76112;
0x686bc450316a122c312fde6bfea7146f929091962bbe3225769f767ee92e1f9;
0x1c7db281138ff861643018caafaf569efa4f7d1dd5fe8db8115679c9d4e464ba;
0x434b9adf694ee77662c888fe50a3f24f9a680df2fb6f501422589800c123cac;
0x26bf3831811b3222ad4a14f3b9a5357b756702139b7d8e7e2bb87dd6034b352d;
0x124666f80561ed5916f2f070b1bd248c6d53f44d273d956a0c87b917692a4d18;
0x24b42bac7abee89474ff328bcb61e4ad5f128773e068dea11b88fc2ea6ab66b0;
0x199ed05bbee1131c4dbba92583a02fbf9ea30aa59c7f2fc5bd5c0857cedb470f;
0x2bd6670f967781e74ad00648e01596abb5117b74adb95734ade1c81fd02d100a;
0x17127e11451908da53f67a87859373b4c6db941086091270d35f7742e286bb63;
0x292010c36ff554b02f56a128071f54171b237591087f805189af62b616205261;
0x2f6af6bf3c24ccd04480e6490018b489284a951f067750f4e8b461290402e3c;
0x11ff6780b8da3672a8b9eceaf9d5ad240bf0f1d91028f3abce5147d0608449e7;
0xdae6cefcea61ea52cc1bcd5bdd0c9a4f1cf123109cce7354405dd38054a8b2e;
0x2234fe0dad3dd0ded7a39050f4478ac43bdcdeac99cb7ea75d61a66c2382c35f;
0x1627a2a755f77f83d07a5cc58dc2aafec9ce48a85427f07f813e217e7d3e9272;
0x124666f80561ed5916f2f070b1bd248c6d53f44d273d956a0c87b917692a4d18;
0xbc958ac5faec064de3de070d9605135bb3bc321f74b7f4795cfc4cdd4f64c7f;
0x1761972f9f0d7d67e62f476c88b521ebe60cfe3e1aaf50580acd20f45590507;
0x3ae68549640072b1b75251b5fe4b2282191f235ff9a753fcfccc995a3ed3734;
0x1d3a95b2449e1d227b3cb97854bdfa5248b78bf8acc15feed87036a74829b12;
0x1be688f94403019eb20b49acd9f201d5b765853301e9f30943647cdac98a983c;
0xd40a2c767f9d882eb478793e2e146af99a620af4a76e6f3429d6259149311bf;
0x2075d588d996d67e08cacafa27bdfbb6ff08a0d97d2b6470f475b87c034fad40;
0x1db5acabacf79eef4e6079222f548fc488438af4e04f5f8e64f37a80eff37aeb;
0x14042fd27044254958665e0fa0ef7ec155c9079147eab6fc55c9d8c35d433a04;
0x21ca73c94e245ed00ec13dcbb943bf4ab0ae1c29b0f3c2dd27c7ed414a39c2ea;
0x124666f80561ed5916f2f070b1bd248c6d53f44d273d956a0c87b917692a4d18;
0x20ddb53f4160aa862028ef9ffc0ca24edc8e7ce304602be7e8db7a7ea7aa22ac;
0x182fcdfa75858b86631ea8d0e0308f3e1202f77cab67f448c118d2e47080c137;
0x28cd7a17b0f3349700263450f631d80337f6f6e490e8736b4c322f77c6eb94b5;
0x4a6cffef8bf0db8c769ef391c25c8162ad2588db68f202adc27f23e01199f97;
0x1f208c20855afe52522395aa73d971db1dc111dc531adef15f24a91fd6cf7085;
0x107fa0c5c5aeeb26505669eba119568c4e249d7c16da6fac168de7abe11b444d;
0x210dce59a46fc548ea60317c73249bc85062f0c2cef2944df4484f967c6248b9;
0x278cd8d83323de48695c3da57cce026e001525a3dd65bc57ca2612b3c6f1cd82;
0xb9cb7e4dbe036abc7cb070e610b96d61b7fe2bf29a4aee59d5f051bdf1b942f;
0x2aa13fa2731b295a9974aabe82b9cf343d27373cecdb3a83e03e0aa3af07baaa;
0x124666f80561ed5916f2f070b1bd248c6d53f44d273d956a0c87b917692a4d18;
0x11e4ba066ef8a6cb251a9704dd23abb5e8ef31ffc2048d70400ab4029486d1cc;
0x23578b304fd7b3d28d886e3d71f029c849885c84f9488e5687e5be7fbc2d2e4d;
0x143068c60714bb1eb26b0991681a9117decf370a9e1a24ff5d2163fb6c8bb770;
0x1a42d3af21b7f72faee430f085becc8598c057127907373ce297e1c1493715a9;
0x260e79c967c0d5bc720f95ec7a7b088051dc85423f798776f2de0e8c26606002;
0x2314b014bb5c57a4217f48112e9c91186bcd27feaa9a1f3800fc6b2fb6ada2d5;
0x10ab73560f145dd61d66edf15e597c73871a80cf0645b714e6e7268bc1b59bd2;
0x2da780f43e972a1ea7844b5cffe76215f0b86f708c3d0ebc758024a3328c67cf;
0x26e5fd2c13423aee6c1a543b5d4fee91af5ce83d74efa84dce6ab9323d1644ce;
0x91cf8a0d9aef97c341241ac92fade04f1f21f20c9af67c55a6a63626b73befd;
0x124666f80561ed5916f2f070b1bd248c6d53f44d273d956a0c87b917692a4d18;
0x1ac2da30c9db6a34995d64973ba9137283144b108b9619f678cf3f4a95c096e3;
0x11376660bfc8fe7104c949626d350f6b0dc1b37973819e4797017487619ec25f;
0x21a72bfc29af637d0a76681e97a310e9ad1dc8b47a66598807e88fd34a46aa81;
0x1d61ed0d0221cec05abe9d2e8c0f72cb74cf4ec2df3ed582d4acfc2afc972f13;
0x2cf2377f25f134cd525ddc0a210ae1edc91adc51cfbd451a7b280d332463fbe0;
0x128d871cc9d69dad9adc58ff843d01210527b2e434fb21b3770a9a7e639cd55e;
0x180f7db2b079ef5027f9e517057b6186136b6631556ed4979d115704ad305729;
0x271f62e52e4a218aa6d6af3d547117c04b4c082c24950714dff89dc0ca70cebd;
0x1c33419ecb6f7066567d7fc5addff3010852e87e68f89d6b6dbce38850401526;
0x1a75ac0eb3ff4f7b647206b926ab9b6b70e54815c7d169de9dfb34b4d9baf9ec;
0x124666f80561ed5916f2f070b1bd248c6d53f44d273d956a0c87b917692a4d18;
0x1662417df464715005ce1228264c58708b62a54eb3d0300c7e2ed1017828f1bc;
0x1bc3d8189b4c0993407f585a4e859ff2d038b607f678602ec2ee5af423dae356;
0xd1fdc7177e273bb5962f8ade3aa5d858ed7fd9bbd22b2d9856348382e8481e6;
0x2e847d92b4b1cd7198df2d2bd91b845c52b9d1f25d685bb54cf43d7cdc06a89e;
0x2116ff3bbe130b9b1bd4b76f1cb4b4d7c7b472cefb4d98dc08789dc993aff289;
0x1057a54ade240ea545bac05e9707460d7f0e1930cb04e460e261852a5aee96a1;
0x24c6693b4bafa19500e73514069e278c2abfaa8370d62312ac7dff2d8f973327;
0x2cb268850f0ed89fdce142c8511d2f583a22e580cbb3d0790e41bc7e47420331;
0xa731e96f407cbd92e535d4a18dd9981ce5c8e4ab15bf7f5eccd29d831b0712e;
0x9f9e3fd0498d86308ea480d5ffba80e367c19fb4a78b11712dbab0011cae43b;
0x124666f80561ed5916f2f070b1bd248c6d53f44d273d956a0c87b917692a4d18;
0x4670b146f637567754612aecee2b9bfcb842e7d6785b7904a3b1e37b740d4c0;
0x3c5e0facfdd5fdebc0255a4f78af5fc16c82892038137186db5687475ee26ca;
0x23a34dc39f0b7bdf631f9c88dafedb4bade20015c869fc463a25b7c483254b57;
0x20a919d5f1fb9b22abce924797ec204d7cf534a9c5e908e57315992edc06062b;
0x41f1d89022bcd40dfcd978191b200f8a2b7adb2168f3202b4f2dcce8726d922;
0x23c914f4087c43ee789ba6be9c4b99fb032b7b5f65ca9f3af46e14dadc38134d;
0x2d61a559f806a5e382041aeab1d5456dd212c3018ffdcada5235fd842f37ae0e;
0x2e5457db2f94992120c5c9054a6a45974270109e5c6b5a4830e175c812549aa3;
0x9f4292ce6a22415c7f83c120b5613b9b66fae13bc8d1b1af298418be41079c3;
0xf82a2950fe7f2169a76eb6c5ce246ded654db2f03ba27e88030124d9ceda7f0;
0x124666f80561ed5916f2f070b1bd248c6d53f44d273d956a0c87b917692a4d18;
0xc8a9b44c11b429d1cb9eceaf7f5501e9f0a400fbf4f0ff3fbb5f977607542f7;
0x116275de531eb4f4861812d5dba5dc91ac027d187072cd9aab4ebc5c316eaa0f;
0x10face39f20b71707fe83569937fa20ccd528792796bafd01dc9e094ba7336e1;
0x6cc30ed5380e3e57cb30f3cef40f3c49819eebd7784a7b0de815fe2c007956a;
0x11e62c7d02773e2a4bf5e2d96b2e2a7ab172514dadece61b41632f613336200c;
0x5688b27d4a2435fb45c8d5f3743b0b1cd380ba6ddc95abb6f117aadbdc83736;
0x22e95383d9f4bc94e9e2be09ed243d6114041ffc729e7edcc238dd82c7d5ad19;
0x1dcf7620094c223d73dae01624272a7706c44ea51c959df302fb6e91e70f2501;
0xd686d6407ba6f204fb927b3628ab5becc48de21f3979f6818cf12b76f7a89c1;
0x4059e8835ec958751f897986059ac067fecc5eef0911b714170e73c389169fb;
0x124666f80561ed5916f2f070b1bd248c6d53f44d273d956a0c87b917692a4d18;
0xce22a6f7aa9168150d064857ce6f891c975c3191bbff919474702bf4c8d813;
0x194f2018abf3467e78243e36ce971440b9e8aabc83687a0851c048d7eea72729;
0x29974bc9d401f128049f4732d6610eb9f269743fa28db231db6ace55216d7764;
0x23ad853475090c61403fcef91ea2d8a36afe29741569acb39f2e5333921739d2;
0x4efe76826f38d11a7a761748f9622e4210ddc38454bb5329eb9cd5ff5bf4556;
0x8a2e45b2884b3bcb463f58ca3a7e4f2e7f16aada17a609bc358e339486ea6f9;
0x1c22ab2592802c8f64a76cbf083074d7d72de9bd3f8d993467b00dec27c6e28b;
0x180c18b59f0dc43c04da21fa47b4bdff8fcd6d845d886f71855c212307514f7b;
0x146346178cae4f0bf5bc9dcdb8e1bfe21a0ff0d80abf33418c72499e70aaa225;
0x301de4fecad713260a57d4ecec83a8e4966d1b89797805c4b8f2b6be9561d1df;
0x124666f80561ed5916f2f070b1bd248c6d53f44d273d956a0c87b917692a4d18;
0x80ff1bccc78688253119861fa90b44fdac2f5d2708a1be1225696d47db0da7a;
0x2e8300243648b888b59914509ba219649e3f28cbe190cc3dfebb1c083a7a7fe9;
0xcda045c07fc05561a686cfa9e82c9fa0774f17f34450dcfdddc1d15f88b52a3;
0x21335dfd5874c230f903aa6249f64cdffaf2b30a19b4f8b9e42e6dc7472f3521;
0x2e7bfd8d6d903cd0d2722ee33f82aa80805629516de6d9091afe9a1613183c05;
0x443b099429cd33864738e414391c37d032dfc795378e8439afe62eebc49d241;
0x215a81cf42f2710c48f96513f2d1ee0d350ae57ff01c96daf3eafbd0b769ae8f;
0x156a1611ff9933ccf069fb2156159851c8fd02f7fc27bd5bad61ad00826c72b;
0x90d3ac25b80c0f69e9b306380d3cc0418a5de630ffac363ec793a0fc54fcf97;
0xf53453418098174e3a6214c9fa8b59792048cc0c963b668feb4b79fdfdfe4d7;
0x124666f80561ed5916f2f070b1bd248c6d53f44d273d956a0c87b917692a4d18;
0x167dcc32fc7311f7c5df9a1d2955a928fb6a1ce771019241fa491c655c697381;
0x2a191b6a2f8f96da4bb2f91cd377b32fc8e84aaa857e976fecb7dc98bf518a03;
0xc2fd4887d8b704662b62339aef5380e2cfc1eecfde9a4c9c14abc52c2a0a8c4;
0x1e630649bc36af20c735f3e55a10e18fb1192eb537dad2b23932079a5e3e039;
0x210302a02dd75f2d3846da16ea7c309911eab034fb60adeb5ba69c1b31b8471a;
0x1d9e0ac6e8f8b9bfc77b7439b345b772596f8cd23370855956e42366d42a172d;
0x2a6cf61cb3658480617be7daa4072efe4c2063b9777c1fc7748cf00ebb670067;
0x2c6d225faad9f6f0959163a42621d26c7c91941196ddac67a618b390bf84b5ef;
0x2d2cea26566fae8c2853a5976075b6d73da65b6a7156ab30540aa9db05d9aa29;
0x2e13c310c5e84e55bf6453d9cc647f87c90dc2625f366a6dd61f60a0b38ca3dc;
0x124666f80561ed5916f2f070b1bd248c6d53f44d273d956a0c87b917692a4d18;
0x18f8e2508be0983a6ad4de69cd797d5f3974c5f2e4ed2dab4e67db7b13e9119a;
0x122a34cadaaf871dbf14a2626be775882ee4653beeecd92d742541350f929c10;
0x1eaa9c56276ed20072675773838cf7f72966a70537bcfc85874821b40bbcb7b6;
0x10e0b85cefc5748eec9d7ebab1e9cec57d580b3d66e5b47772b1faa267eb7fd4;
0x961d96cc4f121a184a78db78c217fa96c22521ef88e9f454ae88ac934832633;
0x2d40eb8157494a91a99a67959fbefa10958f2f96111d46461d3abafdf3f89735;
0x21807e2e88a4f906a998c7d9c6a395aab2c1a09b38878f047cd59a2e61f8f85d;
0x2e19eaca5d16c8bbb6ef892613aac237eb47b65c64deb2d167904d719edcb77a;
0x16714242c7b7e789d41c82a4c9722d57e294d6a566f6a48cdfe79123f8c1d32a;
0x5566d38792f0671ce10c1ad7e93534075f422f61928eb6c2e4857e2ef1fa242;
0x124666f80561ed5916f2f070b1bd248c6d53f44d273d956a0c87b917692a4d18;
0x13290f24b105f48dac27734782f076151f3192c0f432da08f73ee09570c143d6;
0x1b4b953ada89454c82b19e887dfccc01784fa68082bba9a561beb496f267eaf8;
0x2613eebb5f02fde5560e2f1aaedbe7ac32199983ff9ba2cedda7ad9a6d3855fd;
0x1aec57bd5745a26c3c0219ef96fa6c69250bf9b6584e371cab2aa2bdb7ae4990;
0x67389e348c3409b4cd299d8bce723984b5f2e95b0be560fc10132d8ef8d3e85;
0xb0e06a1e7dc543f9187aba9ddaf2e32d32ca8b8a5da85597e6ee5fda0c9eef6;
0xa1fb4cb7fd491382e2cf3347ce4ac8a42342a72afd1a1e64eb0ff970f54d5f9;
0x1977003ba614ea8e81991f6f0d79d62feec3b0f15d20d899b87382fc3fb13aa3;
0x286e912fa4b01948dd7b1cc0251084aa96017f4fbfcdc6c743feaceb1dea753b;
0x23370231ef55f59d8f37515ad3cad730625e79325fb839e1d9e9c2d1630e6ecb;
0x124666f80561ed5916f2f070b1bd248c6d53f44d273d956a0c87b917692a4d18;
0xb1cf6bfcfeb3cf344f8d1038fdc7b9faf945027ff5bf710d10286df9cbd4ca9;
0x123d9a409d14c996b914c9a56c54b02c25f4a33a3ecb6066fec4a77c6525acb3;
0x89f21498630a31293ede8725da4179396e31708754f8f26935a9593ab1c207d;
0x2f5bfc653853a2d74ee03547dd49092a78177c6bc16eef3d4513709040705202;
0xa18b08811ddbe006ac8516b188d76ed6e8abb635697bb576f438b5eb234729d;
0x1e0fb18481c8d9535410561b4ced6025654b74d7caac3e4d487143d74155f7e8;
0x936106e344c77a4425d0ae924553340214d5264abf959ff5c3de4cc163fac02;
0x1abeb831643365e91e7266135607235fce484149cdce1551fa4577791ff62fc;
0x22892af37e8064bf4d88322256bb872e0d733c032d1f7beff2bdb749fc0c7d5;
0x29b830534e780d7205e38ca2f9ba43ea1f1eaab7d08b6060a9a8e52e1cecdfb6;
0x124666f80561ed5916f2f070b1bd248c6d53f44d273d956a0c87b917692a4d18;
0x2ae98ec328e9150679a246222b5122c2c2e35d2044fec7950832b9774900bcb;
0x155494f37217d033e8d586c6852ec501c6dcced5096404877c788f75f09c95e8;
0x191c6cdbbacbbdf644b3bc357fabbbb79045e3200f2d10f824dc4761ada0db41;
0x2d0f68dc5a731e30aeeb23a76c2d985338f7cf7aa1db7452ab7c05f6b96a1c12;
0x8761ae31b00851939ebf81f3201610f53702765e42367d15a5a64e4fc780e75;
0x22259606cc46b6876ed844c436ff76ee5dc734754a91bfb977d2ae9f620f738c;
0x290031eb3efbfdd567219f6f69b6ea098dc1c7ff13db57bf22c699d9061923e;
0x11a164ee321faecfcd283c24baaac523e609ad4dd6f6387206e8083d8ba2d08;
0x14a6a424876b86e06f8a891826c3393bf9a9355f0f705d61c39bf65204a488a0;
0xe1d8d72bd4c192af2d73279f2b7cc893ca0be9b313f90eeb64a5fb69e7a9771;
0x124666f80561ed5916f2f070b1bd248c6d53f44d273d956a0c87b917692a4d18;
0x2720b31b0b3687a93e8203819f9fe8f41591cc67bba0bd4c050339c327d0a6c9;
0x22ea080102094dcc01da97ec17bd1c5ff0e61f1afc3567ba2a4c79127e16e848;
0x7a0740ef451bc5150556d1083b5108eba7660ba47f5cef92df76ad0cd53fdd0;
0xc191e9d1d2ac3648df5a9fa6a347c9ed3c01a4176091e91f8191417c885b674;
0x21a6605ece262ebf5658153119ada85793c68dceeb560782c533e7143c53435c;
0x7b585c00d1974dadd86b01acc175939143e66f0dff55a7263b7f70507294f4c;
0x30570c2f5807b56cc39cee5e1164c58506d902a348dd400be3f3ba1ea9b918c5;
0x2724ae7cb7eaf7d39b6ab671df9d70a260fd1691cff81987460d2c19f200fb9a;
0x112877dce9f6f179eab02788c44fc9da3d64b99966a71cedbfc4d5ce1606ee80;
0x3006485215c00900e3c42c74ec9c58c6fca0047827f238431e387772a30febcd;
0x124666f80561ed5916f2f070b1bd248c6d53f44d273d956a0c87b917692a4d18;
0x2f2b423c67329cc34adc75ef955e65a6ecf5fecdaddbccc7c69de3a12ae457;
0x28020df7c36abcaba69762a94eee88063b5f132efc9bf99a8283d4fa34a7a1d9;
0x1c1e47e09591c1ec91b7840a307819d89c19a567d6e3eb2f8fce818bafbde9a6;
0x1a84ae16924b521e378f6db619d0a094066209f18492b604c6a8523d9574a4bd;
0xf1f1f4fe16f636b8fb7d1aa4cecd1846bb37f73880a09eb9680ef2dc49dce4a;
0x2033b19b71951e7d180851c4c0b54cb8e3d1df44ad55e08de3c10555ff434c0b;
0x298497dba4b52d50c528b089cf9f51b98c797b5f9f1893df8bd71d6427957ca7;
0x7979509bc42b0bd1855c2feeb4890c5a2e5cf6f6cbad87558b11b82e43ebab5;
0xc027d8065b422a5d05af6953119cd1451ecdf3b1c2b49048bac9ffa19a29571;
0x1cda0318f56da08e42b609732f23a762831ee22bd873a8565a2923adebd88e76;
0x124666f80561ed5916f2f070b1bd248c6d53f44d273d956a0c87b917692a4d18;
0x109f467daedad2bbc6b984902be029aa07e7241a63ef242966db9c5b584c39d8;
0xdf1e1a43181d21009c9873cb22a76337ca84b8196432cee8eec9975c3c1b9cb;
0x20e2202c033befa6d32f13f6b4426e40121c40ae7cf8ce57c8271e0d7e5f1315;
0x8fbc9206e82a3f139c8b86fd5da23bf86a2f719c6b7b7db42c10c62a0280bfb;
0xafcd3b41eef210253ae3d684a1f816f6772b2f253c2ebba5b444b8edc05b775;
0x2ad7e0ba8acf03ffb2fd84b30f89033119d3f34236df92d1a985d3a71faf5492;
0x235b9840306c9bbda7e11c12ed8805fb2de3127555334e216bff8defdaf3fa5a;
0x108abc439242ac2ba789aca0ca17f761aaaaa7f90be1398627dd51a5b5385f50;
0x64cfee2a05138648491938218fb9c287038cfa0f29397e83e914f355e0f6efb;
0x169b49780138618a4ac7de6e164f1f8a95dce8dbb68be3737bd1d1d17601b583;
0x124666f80561ed5916f2f070b1bd248c6d53f44d273d956a0c87b917692a4d18;
0x37c1010183f05d3baeb2407c7105539b59355e854ee6ba69ad0ca93ffe304aa;
0x7619f4a716dfa87c4180b37779fc156c1380a593cf4686b92f519e35431a0db;
0x303a616ca0c021b513b39d551877b764b241e582140cd49c66650ed748742f6;
0xe0a3c66b892792aba5936d212c510a929571e260f7ebd7e4d8fda17bbd6e4e;
0x2db87865f56b59e6db18e9fa23e4797466341e3114f73d04a77aa96b0608289;
0x16b7dd14f376839839b33d74035959e364029cb5ffc4a5197cf2f6654e07f9ce;
0x1282d2dc0a5418205d397ca3b788ac90b617ab48777a3d0754f288e105bf0aa1;
0x137494fbdd4f68f089812314c259f9d55b6f2ea9a5e01d31df36953bc67a6cd1;
0x27939a8ae7cd5b8891f1effa260b4003c5d1f3588ca41b51fa66a15fbef587a8;
0x209d342ed11c9c6a95f7beba1d6ae606dbb91d53c7b125329540632856980819;
0x124666f80561ed5916f2f070b1bd248c6d53f44d273d956a0c87b917692a4d18;
0x2374ed44c2bf10061ff872112598b048396433c0e99ee618a978d7b52eead11d;
0x5037cf03e8e4060b62671b6b3738c3326b57462d2df714d312dc3cf902e3499;
0x1bdc6d72769d56d435d2664fc00867d0818ca90f30791fd9b2b1e397f018879e;
0x125626a10725e4febc2526fea8f28eda9fc9facdc3f853bff34df2d870b6760;
0x6d4bff3f90a1436f9eb4cff6768bc95d0748105b6bfad3efc469005b74dde6a;
0xa7e7d0bd3eabab06af826e769285f473ba07336539872edfe4291e7d10f8863;
0x5b7eee126f854c941925eba6d02d796947eab9ebce35b78f94b68068b8e2577;
0xc787497b88a8df57e716224abfb8238149ee8cb2b41a30452ac5c8c9ea11bcb;
0x12e46e1b82dc0fc451122f0d73c36150bbdac4266091f6f16e887c29e6ab3e66;
0x13fd578c074db81ea352cb09285b53d7e8e9979bfab7cdbe954f2ebdb014c9f8;
0x124666f80561ed5916f2f070b1bd248c6d53f44d273d956a0c87b917692a4d18;
0x9d89ecd0e9e76d53bab1d004dddb96233658cfac386ad366c614e0b270f97d4;
0x1663ce3fd8e8a219e95598524d0a14e95ec2eddbeaceb5c91e3325f03b811cd1;
0x2d7643a55ef8f191a8385f26b7933068bd8691d8bfacc0298edd54b5da3a81b2;
0x10ef304c05d0641004092988202bd102a1b76a155469ebf41804b8556370ca28;
0x2058baa454c35fe9ee8b0a8b6c3579e00d8dea44db1f036f286f8c1c5a489e10;
0xfe297ae198ed7e6fd6836bcbc60670d9fa40d8196e48cd5e691b04cc7668744;
0x1dc4589f1ccbbf2e48394a90cd3cb121c3bc56576398e14b37f117f3588e6156;
0x2531aa8925a4e146a2178446d4213afe2b4bf59537090877084e08abb32b46f1;
0x2b8d6fb09de987c69fd1423ca5ba68c7e47f24326997ee6ec06b27bb8202fd79;
0x2cfa7103a4e60296297b5ceb2d5a59acda5b0f1c33c19c941a05b9c310f25ac7;
0x124666f80561ed5916f2f070b1bd248c6d53f44d273d956a0c87b917692a4d18;
0x10202be4306b5ec29ef575c5214a35a3ebb8c8e808c572c87ebfa388b13e947b;
0x1b5aa16b76926df627ac1ec6f6c12602520e67cb23106c456063e8faa4b902a4;
0x19a92337476b5856c088850149772036f311a5ff94f05442f0a15f23c5c4df81;
0xbe8fc498e64abe93a3891dd69b068a200b4fff681cd1ac1c8b6c0dec68489b8;
0x1a0fc42aa273470caf30582564186291b8d122dc036309656303d48a9c3d5547;
0x18db0efcc7f60ca3fcefa9809141bf46c3659de012760d8a1002f771c77971b8;
0x1237b3bd8e9218944b33f45ea4c9e7872be40e3d71df354d0b4d22424152274e;
0x65c096251bd3ae0ba92367a9db4753b90bac169e7bbe2da1a23ae3402e45d27;
0x1dc83ef066fb306e222db36b1b368020ed31d2b1589cb6ec2e84e406213c8e04;
0x2c1a8e6e5fbc28d95ac7e784228ac12d2d28be32c4fbbafbf21c6ab0776f449a;
0x124666f80561ed5916f2f070b1bd248c6d53f44d273d956a0c87b917692a4d18;
0x17ca0461bce08a8a8853a8f49f7e9f52ab8f3d8a7cb8a925d4dfd834a92005c;
0x1c90c977e1daec74c1d7e6d3ed14c7d41a17fec6d1440fcb3cfde4945ba43b7f;
0x9f6aee2e43570fe682544dcaf6efe50f273784349ee907a7da08cf0a3892a09;
0x1a9e810a073d7982a50a4a3ae97e16ef3cb1e231fe0aad228ddeff415e873d34;
0x25fadb922987714ac135457abd253469ff387847e625a4f376a21f60c54aacf0;
0x11b65d5a4e0393733848b5a18f5ba22c9df6667e9b87075de2dcca2a6322e980;
0x22e9e700cc820ac9dc080e94407b9c18adc135535702c34b64005803881d3556;
0x160c88605fad7ad65a5b926dc177fa9799c951ae17b067ed62b06679a4cf03f3;
0x1dc2851df6d0947e5b3c9385544d31278346d45806328142b6d3b25702bd7510;
0x8a42ac9c651c761dac4cd3334d8ff8541ecbba391cba04f21505589f39b4d00;
0x124666f80561ed5916f2f070b1bd248c6d53f44d273d956a0c87b917692a4d18;
0x289fa0e8ce8df0c60be933c0ab3902f988a6a59adc39dd4d87456c88982edc70;
0x1e70c2b91d3d44777fde9b8672508185789aa7af7d0ed1b3e08273c02eb63201;
0x26202efdbdd93fbc22b59bb52b001dea2076ff49c1bd9aa0ac0e732406f85362;
0x665130b10a00cc5088515f8e16903ba3156fa42285bf0b9d1cb845209425be3;
0x20a044a5e1a405e1ad5d751492516684148b3755b1fac705fd6b6eb666fde2a;
0x2640e021b9313db742e534158b3737b355779eb05ffbe6257bf3a96ccd0ebefe;
0x1937f02a9ea7e1700da7773129f32911d991f2b872def0f10a176054e332ff51;
0xb198e0da024b3dab3d6e79f1e1a0304c6055a8ea3f4f93b0ce24c6ede206873;
0x2c0a30d51449d8db5f3dfd12c4dae7857a91ee88e297208dc151ccd8be4f0870;
0x187c5f8a529149c6250007730a57ba31c7dc0461d40fcc17326702020a21d33e;
0x124666f80561ed5916f2f070b1bd248c6d53f44d273d956a0c87b917692a4d18;
0x2085c1bdf91d64b88fa27cfc4c08e07efa31aedd384d465f558c3d60ffb0565b;
0x25af25414fef41bc7e5f3320cb78b1ad4532319473caa7cbad0cebd1a77a91c6;
0x1a1b25a6cafd3bd28f97f314456566c05ff153beed81b1db117f20ff97f132cc;
0x2d9ab0595a2025fc0cc0850b027cbf4d778dfdb36b3f49fae8029efb2ea63f1f;
0x2f30cc9b0e5b85bf04d9c921c26195c7431a50a6fedc28250bad8d5cfdae1d39;
0xa37b2a74bd14072efd62cb285eff2901ae78fd90dc17e6fec4676cb04f244ac;
0x1c424788fca025dfac66c90118b11c8272d4d68e315879b3bad72b595016b1a6;
0x20f5240469332dac40167ee37438a75bd816dcc1fb4cce2ac7fbb77adaba5be2;
0x38722e06b9b7d6ba8232eca553b288225456b08a94f8c0722196654430b5221;
0x56eec5b756d6945d7f1ec8e5147ca2765ea9bf915399d7110f15bca953cb8c4;
0x124666f80561ed5916f2f070b1bd248c6d53f44d273d956a0c87b917692a4d18;
0x27f0800ddcac9fa1f1cfab29f40c24fc7d4ca5b1590f2610520e88b510a1ccb4;
0x1a6a8f6f7e612f637ab123355dda1d4bead9dff6643c35d5407652a392e70382;
0x1b2a744cbf0e7326885b084f907e7756f3212136d607d074486fe4ac707a413e;
0x4abaf721c7350f1696a88a898880c58962814c3821b12fef0927677ffead3a;
0x2f194b7fb646175f3ec81abfd10bc33c5deb6b4f69955d8e37f90d5619bb1f96;
0x1457d0d9729fd924f98a0ab82c379d9e1fa349c99ec5d40866961486f9c9441f;
0x24022debb2e2b1ebc444755063ded047216aef7a53efcd357c33bcf18abf7d78;
0x2f1a9fa9fa2d06c6afdfb03865806fac1f08d5b64a4a4102dd69b8ffaa16d9f9;
0x2a39c8affd2c36951f2d65ce28583cdd27e8d09b3c4682d9a91a8e6da20f018d;
0x6cd4a8162b4407a90a632bcc6e13d25a93501cd27df389a7f8240da9d0fb308;
0x124666f80561ed5916f2f070b1bd248c6d53f44d273d956a0c87b917692a4d18;
0x240bdd87896f169f78702f2fddf10472d1e56b0c8dca668c3be9c5b9fc922f8;
0x3cebc8d717886a58a2c2a2bc572e3f58922c19e6a8026dee09a8aaac59d9170;
0xf2ac5c2f8ac681e231a623034707fabc5e81b7c766c12db359575e5402982dd;
0x2dc50cb75530f53c584f0db1885d6c1fc03009cc8e8f8abc50b5ea096d8cc1f3;
0x94c8952fde36c4126f4df8518ec3f831fdd80129f8fa8ff1b87d7739efde02d;
0x180e29433d8dc3cbc26a9b063087678e5b7569bd759c2173ad0622557d942c0e;
0x137513995f9a52a60cc08ec51aa5efd1f10828587cea9b2a5d016788021bd0e6;
0x102c8b90ff6c327d16952ad18bc65d9d6efa7dc421443ff4159e72b02ae2cf2f;
0x29f1e94ed28f72023e6584dbc4a4c090c6c5ee310d8b83f0f191ca9a382e83e3;
0x1c5292bf3034389addc954d33494f4231ee9adaee58686e630548ff0eca63191;
0x124666f80561ed5916f2f070b1bd248c6d53f44d273d956a0c87b917692a4d18;
0x1430d7953574889945b2851241e066ee9d6b5cd11c106e1fd2093d691a164ea;
0x1b3448e3a38b05b85a691e2df172b46c7501f3ca292b5f484dab6286f4a23edb;
0xdb96c5859d2163a39d6b3ba31694b603706633accf6529526ed570fe019f001;
0x21b598a7b1f1990081af12292ae6d85107d314c05534cc1ed39f7fca3280fd0;
0x2110995ecd4f7cae17dbb93117661040a5059bd20650a990dd6781e6e773790e;
0x21893b6a2b4a66316b37eb749dff8ca4ee17c8bff8632ee3765f7f8fe572b0c4;
0x2ccaf308f912ffd14b46f30d8f8e2d4680b6f3ca217587a4a6c1c1bb840f3683;
0x10be28be53fa8a09cda9f67606978013149dd78dbafc39b3e4ec0ff2ec75b2d0;
0x17e826d4b7b4a2040fcba809278bede0cd4a79c0b0da81342163270a1422931a;
0x9ece717307f52d17f18b7bd204324209c011daf9ef789973e69f9f9e09940ef;
0x124666f80561ed5916f2f070b1bd248c6d53f44d273d956a0c87b917692a4d18;
0x21c512b8be5a975e58cc3dc195f284a90a921a264c67f8723a5c9fc79c4ee590;
0x1a9c325e96a34745f686eec8b268877ba7aa0d44b11f59b4eb11b24ba30ab1f6;
0x256c5ed746133373328079945658a21927e576985c8c26c42fb0e27a37aeed5c;
0x96dd009241c6a5a268d535f5ea13cb1f313735cd9ffbd97f580477251073fa7;
0x1b5697a3492346753e3b41b5f690f4ed6cae7bc246e9050e461154da63b72346;
0x212e6acfb305068286ecd6d2bba2ccba4bf952487d7db86840d1bc35d1890834;
0x188957819ec0569d19dc54c6a31fac77b75a89c8190ea57720a7fc3f7e6a4917;
0x551b30aa085a016401370424d8ec7b729442d95c263ab077ef1f717d805ed6e;
0x22883b03ba4694c2602c5e0c148a2d8b142da732f2dae3402732527f1a57fcd1;
0x53a4c4b2055a58c5ccb0f23464de37cc9c3af86cd2347d821612c4b017e8e25;
0x124666f80561ed5916f2f070b1bd248c6d53f44d273d956a0c87b917692a4d18;
0x12ccea9183993e5d7dfc16fdef26d9f845eed10de2fbafe63008e29d3ca8b507;
0x582c12381fe92ce0cb41392d98cf0bfc811a96519d717af5ffd45c6ca1679b;
0x47527fea0d1a194240f9d9f4c5198bdd620ee5041d2dca5db40375fa6ec11bb;
0x9803bd526d49e31dc0fa4188e3069b7ad81f2d6391934de41df4aefced4b086;
0x21d3b002266d0893a5e7c1a7bc7ad2f2aedc63bca12b0107670b271010c2c177;
0x18f7b09e05bf3b680428a2d2baa51298016ef23bb71ac95152bf75c82ab4cd2;
0x18bea4252cbd7815e4bc3bd34b039be2027c226b930eab9cb0714c2ee80139a;
0x100f77a4054eb625b22130838ccde66d21c66b6a4bf8c8b10edcd1d48665b7;
0x9c8b96501ea765284653b0d464445b012086366ef33d57e3a9e388e740233f6;
0x6c9ac27ccf47da2979230b1b6f6704a08a30029752acbf49942c1962ea2f9da;
0x124666f80561ed5916f2f070b1bd248c6d53f44d273d956a0c87b917692a4d18;
0x68dfe569c59fe117f04ca4d04df9a59ce5c9327ab88894f60a8433cb3bbc7e7;
0x29e21c7d1b3fdd04d0f89e3bec6e66c41347183faa487a085bcf1ad2a446319;
0x61ac0b5b33b8d667219f7663fd68c937c548d342bc27e5f398b8f12c4fd54f9;
0x2e8eaea01526ea362b730fa76697dcab6f0298fd91f0ee145ced504a164bfbc4;
0x1bba6639ec598530de2706ca4264f5b42e6ed5374993f5517d407f3a287b2902;
0x1da74a23eb1fd7db1b30cd5942ac540c379bc74a3d1e51d5b0bddd2087ed100c;
0x2a0e3100447c818717bcadcdd0b7d120224d203c8d9ef48064d7b97f6aabe593;
0x27753925a34a26b8a301c8531ba88815a976e1836858e054f90d6561c4373330;
0x2370d8627c27ecd31b2b6a93c33ad409a2e785c8798bc444f361d667c59417e9;
0x24447e984cae81901b8c1668e8a11d94557b39ddf2aec74ef457701e00d51e6b;
0x124666f80561ed5916f2f070b1bd248c6d53f44d273d956a0c87b917692a4d18;
0xac0847e3de8e5f007ad7427f2555515e4079bdaf0b0e34b4be5e541f482f33;
0xb2c4754b01925272d1ba4359fa02c399bdaba806b32f51c2285e2c16bf3316e;
0xd33fb4ca1a013eb65ff09dc85098969747083ddbaf4e0093d86f29ef3948fd7;
0xf06aa40d012cd276378c356edd414c02a77abec6bbbe8520d90b8ab96be7304;
0x11620ba3b59e9e02401b1023d0e3675c1a26d896908931f88ac8f487cd408d26;
0x2d1783e31f3c242476318403db851fb1a6b826651ae10aa2c8c6cee8b71e9bba;
0x2c989d933295a819e388cbb736f1dfc008a813b11500d7a5d75c3de45443c7df;
0x185d645f3186249ad6b20d2efeb6ae61ea7add22139c06f0fb143d4b36428a6a;
0x295390e4301ff52cb4cc265685900719cf785fe42fb3fc7606eea8402d2c3be2;
0x2cff591766f8ed033dd1004a216c9545cb1be5c235f59ac0189845a3f0fb623f;
0x124666f80561ed5916f2f070b1bd248c6d53f44d273d956a0c87b917692a4d18;
0x1d2f561702487b43d9f7f6583fb8a342c82f15053b53c2952a7dd2d32491d880;
0x1431b6537ec76dc2c30ee7476301e832700ce7f638553e84cd6fce7d6f14d7e8;
0x9f68e9512cf4368a0b526aae1af2bfb818655c50e8a87dc157f83d79b409a00;
0x2e07015e39f5f8af17cd2d0d04a76917c1b6c30f0b3bb3c35a24d099249b17d;
0x22d3936579de1b153c68258f36a157477c7c746fbdc4f9f3d8d0ab07d651c28e;
0x1c1511375128ea34b876fdf17a984c28f9f5f551b8f5008a559875d627caee62;
0x142882177b08db528d3e30ac62d3325ceceb585c4cc091e5070a79abc3105fea;
0x1a168d198284cb1386879a2642bffaba7bb7672c91bcd6c562be03e3ab636179;
0x17221d50c79b06811d1d66e63757c063ce62dece8b1359c38932b53e0c199401;
0xd1d4e722fc75c3f4931701cd9ac240a172a8e3b638bafba1c99fe987492809a;
0x124666f80561ed5916f2f070b1bd248c6d53f44d273d956a0c87b917692a4d18;
0x27db073487a124e2eef709dcfbb41a62f07ee32aa952f69af50ac486b6caa7d;
0x268c8bbdaaee13720df617507518283e1758788bd916fa548026485c7aa9a0b2;
0x1fde18979072c0225095c73dce75c99e7c0ea3164cedac4ee985f4dd029b9e95;
0x2531f077c0a77c6ce0ca7024c5b150a41489e06180688904997855777baa84f1;
0x294a5bd8cf93bc687c0568c4e29e516d90acddfa5ca2c7df81eb09286583fcb6;
0x294e322170c9ff2069704807e64caed0a0e9f31683641a3012e867f5e913559c;
0x2b3addd6cb0f23db00d6cd79dc8856992da36e648e3bf0ee0b2715d785d5b4b4;
0x3135e79314a76a13df9cbfa22a7eeaaa6a5d2441ec32edbad2396c270eb6003;
0x173a562d9eddfaf8ffa687c362e2bdc39da36db4a8557a6dc851055a2c48a2bc;
0x612d864c1ff73f7b2d780725cffad529426a6e1aa5936875bd9aa472e7829bc;
0x124666f80561ed5916f2f070b1bd248c6d53f44d273d956a0c87b917692a4d18;
0x2ba89301ebfc123b4220c6c74488005cb752c72f7487bc8ef630bebbd41bf6d9;
0x10fd2909f9f7f2774720ce193a4c009bc92bab7f27f959a57842b3cb2f10e622;
0x249c1b33cde3144fb9b9bdf30e45544cb98bb9304efacf2adbf1271d59bc00eb;
0x75727d6b84d8e427bb742cea7e88009c286e83bd66e1d6951dd7929dcbe3621;
0x1bddd7e537992438f10091b25a5225fb06132dec4ded9cbfeeb451a034acc670;
0x7ef5e8e55faf5d9129f012479e12e08834b5e1a38ed28aea583e7ca6ebba680;
0x14b714178fc8031d847db2e05553dded47111455674598347dce1ce8b8ce4e5f;
0x119e1cb2a7e4cc688569e9b87952d4b229be2265a58ed6e619aaa93f30c38f0c;
0x21575c98afb0fd8dc75ce88a04201c36aec620f733d6ce71bddd6c4dae189c0b;
0x2e69188594acabdea88e257c19b0aabfc728d191a931d7a5f4e7ed8370c24fc4;
0x124666f80561ed5916f2f070b1bd248c6d53f44d273d956a0c87b917692a4d18;
0xd30b0f7b463491b93ef9a20562faf35b4eee1b0dcaaf84964b850c3fa9f52;
0x104f6ec28eac4f771576a7ec410980b2fdc63c39d1b90c3f0e721847209e2025;
0x201753ba0a0a888b66ec516584f333b4cd1f57c164b75da22519a89811dcf077;
0x16fc76f1f5f7644de6bc79cc484e010dd1da3d0631ef42714cf5dd21f59ebff2;
0x10892fc5eec5ed00fc6d5d0975221d3d870685367f211ca576706cfb083b49f7;
0x1c59c9b6844de29584ac93a73022b6761b196e0041e3fa32f548373a84307ad8;
0x188a3064c72ee6e3b555ce35313f73c91a154bdb59e57fdbc95d286df429fb64;
0x25a747a9139698f6b090741ac55c98ba3e55c845dc8af25ad83d6e48c945e249;
0x19cf0ef78c77006fa9f4849ccfcc2c52dd326a646a5789cd25f79ed84f5ccc09;
0x1145187227de632d3deb1d625a4e5fe3886f5103ae46615a8f07e6035f65397b;
0x124666f80561ed5916f2f070b1bd248c6d53f44d273d956a0c87b917692a4d18;
0x12606f5141cbc1b9a349a9121e54295d17ff69f2f9027bacdb0ebc8a6dd2d0a7;
0x2d1ec807263d78373ca6b3aa8f4c51ae94487ae04cb9f5fa6cb7a6155d44cfe0;
0x2b83ffd72f83ccd4c18dd16bd1d406aee308fd475bf706f00cc287d9dcd97283;
0x2378c35a0428264b3afafa0b782312463b724a4d281a0b56ba6036abb9d84c46;
0xddba7feea2855679ecfe13432b420858ab5d93bc835c9a0ad59b8c011fc058a;
0x60a0091b5a50a516e31bb6ae3023d902a23e57efdb4c571c143ad6321304673;
0xd08421d815f9281094977237c6aa7e6243ab5cd76e38d9df19dd2b4a62211d0;
0x165a3eeb547af156b4be28850c24586c0733767364429a0a1b7dcd2e7f99822f;
0x2367643242f32a40574489345294604135469a362e8f6f8717c381dbef5d40e2;
0x303a0941f18aa3166611976111e43a94d92f51f6fbdaa07557b47b4680a21af4;
0x124666f80561ed5916f2f070b1bd248c6d53f44d273d956a0c87b917692a4d18;
0x1aecf5def09ba5be2ccd968996c5564145f38f60aab4191978db8089fdb31cdd;
0x304ebc6fb5252ad8b42ca58356799e8c6961ac84708f8b465227103259913243;
0x26ab128903aa48b65d12869a85697da4dd7dbbab09aed508b833a398855eaa29;
0x245567a4087a5582bb36dd3803f7008596ac2514a1d7380d66ede29e27823942;
0x46585da7e8d6c6cf0ff92b5e3394bc0499808442cde328d13646b44a69cadaa;
0x12be98bc0a25716e254570afde08db45e96e159a86d7d1c685e1eb2a45a4b3ee;
0x1853379c16580675d773c80841b8b6e7db0e8a2b97637204619472145e3ca760;
0x138cc77819364fd983a34eb109c53295de653f1d905fd2de7b6f80814fe8cc0b;
0x2db2fee2d496891332218a6eb709848a819f62b8725482c591bceeabc1e3fd43;
0x22e95c3ae4db1cfe5e4cfb697815697cd9c34211c65111b8fe850ed25958057d;
0x124666f80561ed5916f2f070b1bd248c6d53f44d273d956a0c87b917692a4d18;
0x14f0f0699aa9bd8326bbec5ddd0bccbe3a7caeab685d9ce7883e517164bd5994;
0x1815774675d576817db84840bb9fa16b713472d72f4bc24c2cebc09aef0c203;
0x2a82117a43030418e52b708eb696ab01c9ab04396eb53a3ea4194b9a19824238;
0x1f02d515206f3d9a3c2086b2d7c6b19004cc8553a77908d534ad0af83a637097;
0x3dd5240ce1c5530fda4993dae13bc07bee4c7994c1f65f263a2b8a2f7bc9db;
0xc414ca1ed2f718060876a21de201d87b76f6fa224faf2775ec99cc13c534117;
0xab48043b18014d78845ac07a6b9727cfe0b283b44404e20c5da462aaa24f7cd;
0x3fac53034fc748ce7cf966aa1f6bf15445cb4f6f3a4a929cb27ede7928667cf;
0x1f91737266e97b633fc63e5b0e1ca82b486680cf677b132ab7a6b4ac75f70482;
0x2556e1170d24d8da980464376850938b361e16999f2f628e1281f5d6ab0b13f8;
0x124666f80561ed5916f2f070b1bd248c6d53f44d273d956a0c87b917692a4d18;
0xd258cad10974250f6da3a9e068f6830d7c65f1253ae250324bfb72b50ee94e8;
0x15e2bde6eee969fbbb22dde530a8e6117fd640972712b644ebe5b4bf0841fc90;
0x231dd2a58fc24a20243b93b6ed5cf8b88b7a94a4137961852fb85a207b6e849a;
0x4fcf48ba86493a6ed7afdbbd1b74fa91b715a0cab2e1cb27d416d1cfd220258;
0x27313c2f8d4e5dd6764d672e1a6f951d50083e4e404b9c1cd22334e7eed12f4;
0x1e8cc36fca79a1a3319d34db2305478ce58717e36f9710873528b16d4f0c1a22;
0x266e3f3550eeee1d1e2931ff3be33ed142df41311f650e0704d1a333b0bfff52;
0x88acc576b7bb1fd00b8e1783f7a48b72b48a529e130fb6f2f6550f41c67ae65;
0x145537172cb306df020f911d46eeec82af8134b982f00dcad839c3c10073b1f1;
0x897eada2a51e4cc2e55be2bab91c68a0d1378aaa4a65bd985e22cc675fae8d5;
0x124666f80561ed5916f2f070b1bd248c6d53f44d273d956a0c87b917692a4d18;
0x1fede8462b07d0a305d02035683cf29be572a53ecfebc28c77d17ff531a0e873;
0x64cddb26305c79f75302ceef162391813ffb575b21526a2a99d4d05fdd904bc;
0x41688ddfe25e6f627d365fc18d74efe41659d9213f25808c81da4168f465efb;
0x263065cabd50395ef40943af93df5370ad2f6d17bb6de59b3e8e7115ec56b82;
0x1becfb943b8985991a66c0758322e4c3f22632c199c1737f83a7dc251164a730;
0xe01451b1ef92c997edac826766a61525bc9a345dcd66955f9ff9911b653e737;
0xb9f01062d426904168cf7092d57e2c86f6660111475f9978f6b0608ad2f2278;
0x2f9dc8eb38534652d3eea5e1b8de7f088c3ea8f9015ae1347004c3122256efda;
0x2d97e9440f1fca57f227bf0769729d3dba7fe6cff7fbddcebe492e1b1fa1557c;
0x1b0553d2ee91c3a63730d686ff1a53a0478682a7363ddd4e7ece42ba0fe0cb2e;
0x124666f80561ed5916f2f070b1bd248c6d53f44d273d956a0c87b917692a4d18;
0xe83184ff6e43582fabb4d62c346c957a365358123861b4061670720703577a7;
0xce4cb25f594fd996c28d4578a4a8e3b0581299a6f165882fbd1ddb2d85b2ddc;
0x585f5827997ef8691078d8ab635cf133358212340599c51e1bfa20c93226056;
0x29bba7e4c28316d70bafc5d05ba5a97bd5451a127ed75d9ef2136a02fb0e75f8;
0x5e8ce714d85ecab7027dc4ad12c3a5e75a211e771db239df7b3f661658d4d08;
0x1d243f2bab7712f5d12fcc7e4239b39bc533ba6d7e1fe98779a5ced87dcf0f64;
0x19207f2711d65bd5cc7d1f5afc770d74efbadf057865e27efe6e61db2a83f1ed;
0x54538bfb0b84e707e000ec579bfb8d796106da1a5e4abfa8a273141d6f6ed;
0xcbab8595eee6b93df0d9f2545d61416af5ae2dc55a4f332653af8ce11fb42d0;
0x1dc6ca4abd54f254c1f401b871501e022c4200688e661613926a63ce19f78945;
0x124666f80561ed5916f2f070b1bd248c6d53f44d273d956a0c87b917692a4d18;
0x164b183c9251e3f103a08c44ff9bdfdee4a7f8b860850fc3b0ddac111be2c24b;
0x80435e71f368774466eb276b7cfa5f9a7a4b90aa4c34e1984fc4998816a9fd3;
0x24a82532902cf98917319ef392e49cbd1c7906ebc78d24a4677e1014ceb98c83;
0x9f961322ffb0b5ce846054c4c6dc75852776dc8dfa0c2f8b66229b3fb62fce7;
0xb9af076f893d939a48902f2107976e8a8875aa5369806e57e8c1f6fc1f5527;
0x6c40239edae3e7600dfd00e6cfe939db8a69799a826ab5e91f035e971232cd9;
0x24701c675052c925f2baf10f661d4f719bf145893362632605adcfbdf5acaab2;
0x11000d892cb37fbeb8e415c01e1cfc25cb3a25d287aeb67b247d0efce56c3c29;
0x2caaccd757a3146300021050345effd1a9e5b64182e1cbb67653997b0e391086;
0x10d9b51b3a086b412b1cdca5ce171ada65395036badcc79ef33f84aafe908bfe;
0x124666f80561ed5916f2f070b1bd248c6d53f44d273d956a0c87b917692a4d18;
0x147c39dddaed8630bf1b92249600016fdddc5e9f5f08291ca1663358a41d3dde;
0x2d25d39661406faf935d340fb1535be9086598121d96d85f84cb586880517fc1;
0x1a2643c9cc6f7e74f27ecdc2e30158b4a6510773a5aedf52fe9fef5a2261c263;
0x2d5d7010ca67e74c9a4d54c50188de26c802a2e02080d6d352fd3d5b5682c83a;
0x3060121bf7682a4f51292933031818468d050b84c2809ae816f14340a635bc10;
0xa514a5c227f4cec95dfa029e8dd124c34895aa46bb27c0911f3780d5015540a;
0x278bb49a7b4e44aea46eb0f882cb692801a6e60fdd5b5c23c63cd65ccce4fe0a;
0xc399e9f67aa40707a203feefb0b958bbdadcec5ca34901d253d026a2419f6a2;
0x1d6b3d5f6ea369c26f825d2362933eaa31ea35ec0a77c1fbd9e01ca1523e4432;
0x24be510095436206dd0abd0b0cbb95c883ab304aa52598b1a69306ec981a688d].
Definition tabC_7 : list Z :=
[0x2197703fceb4cbf07c6dbf46c4ad93e7d14e554db66d09102ff84824743fe4e7;
0x1322f0fffc7e4854bd8b5fc23e7106b51f59bd5061d8b565aca2fd3efe512f79;
0x19e414f80380aa2d222133118c337d82a8c5894c2f88861ee46f448fa9d61359;
0x22241199a4df9cb7d65249d9562cad6c65f16460e79a7939cbfdd6d7b9209d9a;
0x301061735384dfcecf9a311c22ade327b51c78b211615f41c77f6d85e8a41b6;
0x229e1d86c1f2810f4a2633b7b4b5bb61b7dc5d19ac95fd8d379548ff2b6850ee;
0xe31dcf9c53209a817eeb292e989727c3f56bff65883afe5fdc28ac3dfbea675;
0x68f917bb1b0805e5b5888b6a97824395baed195b5da0b71c42abd091c2ef54b;
0x1d0bfb8bb90ac234002d837715613297802a5bbcb69aa2da8cfabd832f52d7b2;
0xd67c182fbf41c18d5afcb48be20237413f02a64dbf09eaf71f23a14fb9e2103;
0x3058909cb103557706304b9bb64d94aea4e504d8fda8b82313996f7962884886;
0x4d06a80196e10e664adfefd075d0cca04961ee8a89f4fd6d601eeb9b60c8dbb;
0xab062f8d4b5ed0ec21bdb42eb3fcb0a88fa13afcae4523d2386455228407b56;
0x17380754792ad5f8195e327a5a63cd7570cd1994bd6a130e01c1fa1a173d4630;
0x2d4f3780eef4ff99ac916f4b12dd575613cb9621bc5fa0980ed9a4ec8aade56c;
0x2abbef481b368ca971e74dae04691439f845c10d1d57894269b275c196aaf9ee;
0xf24324f82d68231dd9dd6f8c05f52d8eacb9ae01ccb1f3b30228222377d0e53;
0x267617317f5146654295ef602b91250db010b45f4724ce7ec54884b29c404597;
0x157f9e2f737498821bb01ab1001d715eb2c336dbdfcb867becf0a2bb6490c06;
0xda7bec0cb98d337a52cdf0d66e8a97f24229671346848a552eac14c8a30c702;
0x15fc820ef53302dca709f3ee480ba1371c91ade79f9f587fc7878d731c0596d1;
0x845715adfca35c3e8057c0fcd4ce6a6128d0e8117d88f551d3ec6587d0f4296;
0x422f744e2b736096bc8775a3906893a64cda874aa4457d2b442a9a771956d0f;
0x15f421550bf6639d46ab5779fd26b1e11618e0497e05cc85c608b00faf3382a1;
0x4f17cad2ba0ef6f8602e93f5b988d5f357e61ae5f3ec35066fcb4d1a7b720c8;
0x1732ef5660d84ae50ca09c021eb0d77f1fb2a00cc7905b2479588c49c488673f;
0x29b12501fa79e08bc25259985f730cdce9e2434192ec826e0f4b9d568bd351b2;
0x207c8006aa78fc40a84db40ad82142d0f61b28dedf10e2201d815cf4f6274590;
0xa25704ce4cb74a94d7bdcbdb5fa268abd589d88fe45b2f2c82f90326cd049a8;
0x11211f3a71af30a00101c423ea40a9585a9eec75687725d7ee289f428f40efb2;
0xe01e8bbf5ee611471380ce8bb8c34b932ac76e96faabcb7ad20be96187c2fa7;
0x1c894a1430513df35523e22e4fe9f410a43de91dac73ae338c772fef1fb74363;
0x2bee349392dfa0b5b4a08ee58ef54f002e06ab26834f94843d48ff0ced526d5c;
0x84a60c1d70887d9f2d23a8c7713332829eb41cf3181149fb223b7abff4d7f0;
0x23a4506c90c07f3ae176a0e2bf67f57f88d45898c97bcdebc8a8263ab602c7c5;
0x1ab66896a1df95c0208b990e2c634707394a1110cb314bb82e0a2e2b4958aee7;
0x2c6b842aabeb84ede49e559d8eea658293ff4bba9325b5a1d4cb649d317f4616;
0x16321af63871328c2b88f46df432be9aa14b008b93f85cd971dd986dc16d2e35;
0x13d647208d3dbcc9df10d1ee35b598e6c8ed85608f81ba6953088e7bc6db73ec;
0x1c6aeda9e0fa69f5143e6f22e747b7e74e692b9254d55c61b890470cbd7f06b;
0x287d74a5fa03a4ed65bd4a7c6daf033418f474c7dd9b957bf2b17965cac024b1;
0x27a4327beb0b3e0cc219805b3f05e854bedcda1b7c93f11691ffd6bb76a5d0e9;
0x271a03a000bf412e7fcfe8918baa689c6682417803f5b302f1ae30695c8e6770;
0x1a4436200e4d0be65d2f0f4000157c957fee515e591c8b54bcd46c02d599235f;
0x1bce9394a5dad0a4cee35b8e99b4b3c0cee058b8ae4fde301c3145a5a7a94c76;
0x2b1b4ff2bc186b7dda9c3e05dd4932f38e6a7c04b0af0839441a5972125dc902;
0x13c87d0e4bfa493cc2a197b1c9db49426979adfee4714048d865d4f6e95f699b;
0xe861496d1b54e3530aa0dc64c6683ec0d01a4e3d1c69d50f4d6720b981ccd62;
0xdb63bd46e06bcaffbcb03e5dd3faa88f26a0aaa728198c5d09a483fc4197100;
0x2f8fca3a44bf9ea99452e1a055886af7c95850b716222ad89f0219054d45db87;
0x5b7bb3e5a4e2946395d1d6ddd541bd9c166cfa1956d161713e7e350f5947d73;
0x20e4e6c47a68be3175fcf5a7a3f8bf7b3b2198203b4552ed620b9593b66e5483;
0x154a2a02379c7695ba4783e15d10a147560ee2b4d03a04a0b901dade72df4862;
0x156f02cab5fb0e7e6fa0c743bfd64716e15e5e50e12774805b1c74dea89c5345;
0x1d258218556d0152f0a3be042b1bd146774a616ffc7e7313e9519b5041318912;
0x160a5da355d469412e5535804f99dfb8fa839d7ce2cb7afa50c1fd036219f4e8;
0x1693c0c96b95f7037faf6a18289814c68237870edc94a72c883eb2c751d5ec43;
0x2b0df0f463f69ca206ad5c4a115d1a6a83d5e0ac328bd468f35826a968d5708b;
0x19cad23c14a9bed0e159f250bec8655c07149bba04161fe002f76954ca192b60;
0x25857eae6be307b653c36a4090a3963d60842410e04c5722dfede28fa645f54e;
0x29ac9714955b7a9c94e7959efbeba17c04839ad7bbabdc643b9840ae43155f72;
0x2e637dbad876dd52a7284db266593aa85b2020bf340802625e74f45a2cdf962d;
0x468d89779fadedbdb4f0093858113c5060321aaaf082a53d44fc74c65e7ee84;
0x914cefd51a2822efcf8629d57eb5b6ec7195a90087762ec8814f14bde647522;
0x120a9d3cbca58b917f4e61117c7fe2190ba6d238ce374949778c40a6d176707d;
0x1cf1c75a1b2ca09ac655215cb308b39ecef96d746ecbc34b37583bd8e0480d5e;
0x511cadc2d431769a953d0d2355cdd3d8c13dca7a6c5b19005bcbf3c5bcf7770;
0x1e2aac063f4303e24a2a44b1bed5688a43279356dc78a772e4dcfad0562e5dd1;
0x172a396d41cfb2b1241e096aa41f3a4788303d8824d5496871e03cb9590f89ba;
0xbde068237cc41aadb7ac718d4c6b916cb7f35fb399ebb2515307e6004969e2e;
0x1522d1f8f0cb9214b3f6602d9f867bd2ae07a8fa77aefbc3153af4d350d933ee;
0x157d56053aca2c4cd30f7ba34e5d41b8a636961ef78c1dea1759dceaccd1ed69;
0x10aff8c0fa2f25f58a299e22c732f1b901616f6e4bc6f63af79bb93d45fc188e;
0xa9557d37fbb35ce046f2df3d8bd9cfccedf85eef2549843da7f2c2e36d2bde4;
0x75029d8351a4949170136de66c179a8d6ee6b56b89598af199528d78e8d2c59;
0x2aa767c911398696b2302fe15ad33ef35c6c97618e672f837aa4fd42930355cf;
0x14d99c7417a329ff62d32828421e1b8a031d30242b285c86a4f63795e376623;
0x186e1b78089467478310c35eca9d2058c0a8bb8e2ea5c324f1314e478a12894e;
0x2ca9306ef62dfb1ad58244ac5bd70b0bc84f86368f6c9bd4e15ddaed432e9838;
0x17630d6307628585661eaaee9438c67160f7eaf6d03d3ca6364d4adda49bdf27;
0x21187c1dffae74340a488cdf08ce322226544816780af016098d8c39c7e72e31;
0x1db210b93c320a18bab1769aee63276bd99ac89035b0da327cd06cb70854aca;
0x18bb6f89805c1bd59d8d7ad109d5f26b4d18813f71cf3aaba26ee896709404e1;
0x9c0a6c2d79cc06023f3f43196c9b8a60a55716d2c7ca095d849a5d67ff6fe98;
0xbe6b7d6cfed9528f4d1ae306f3138306ea7c81cbf903e9b884eab5084dc4c16;
0x16fc7c808552b1362d8a739bfdf6c6dbe70b00611780fb4818d424d5e017ed5c;
0xf31a91e6db75df904be6bb14fe7271429e5787f9a918d1cb128ad76ac948836;
0x230a66ce24feddd45fcfcb5ca7e4efb12461a7c0a0b673a73b252925d310d488;
0x5ed3707e7ad3478ae508126cba274743cfe8685b46153f6da3a0b4b83ea92d0;
0x465c370db40b8f14b4f6ef913550c11bcb2839ac707e2fe9a9c31b43cf8d938;
0x85f42b894873a7451a60fec0539f9ff8b2e0a495e43db7b95c3a75c57c20ed;
0x2e8b3ae9368c9c1f1542ae734cd995869f81aac64902fb1d3597022da08f9938;
0x161485d4fa8620e6fd09b088159c4e223155019bfe9eae28f9870ff19ccff314;
0xb6e400339e5e76c1d200fd27884599d473dd98fade9e648940833ea32b75416;
0x261ee31fad47c0db7bc046f718437ee518fe73ec92c1e203155d8f284d44b310;
0x4e106089b776d01a284b84adcddba4bf0ee56c2c85ac584b4d938f45023252e;
0x4b14e89f42287dee36142a17718f7615789c9f9623b534afeffcf9c7e26449f;
0x1d55915b20b60534f1d89f2f8c49568123fcb4c6d9197373e54662e7d9eb83b0;
0xbf04f5b7d178a77ee32fe543be468e1c89aa457a2f4d6699aea743f80494b8;
0x1bb1f31e887647cb45b8bc5be185e206e91accf86e5ce5bc1b39af12f857ea3e;
0x26f0b4214212ea8030aba75b2eb699e84adf24bc4b856a3522b82c1edca87e9d;
0x1ad7e1c6feade269c076b67239b316e7cfc194b036b5a53f9207f457599c5fca;
0x11947cedad859f02ffb4b99e8108512fa325224ad7e1bcf82b28c61a89840035;
0x1ef4f0330d6144228ef6cc36eda0d179384c4dc1858c95de12d070d11c43348c;
0x1031abebb0216be506c04a6514d471f18b0dc1b5a9b616c87a465b689cd1336d;
0x23f97eb680f5a13b3e8daae572abe2ac0dd92eaab473002f0708e6b6084b2df8;
0x289b2ba2e3c8f665b94a4d73b5bdf7d6687468aaa84ef7f6e04fe123659e41b2;
0xd40f713b31b2d041d3e01e2504af10020bfc45bd5bbde4f4b133f63536090b5;
0x29204d73ce84b3fbbe047c74997ee799f92923cd16ece1eb6275c8b71659f149;
0x23cd14b50f4129fa56263fefbe7475e51c85f67cdf38a9ae7637ad04ad644c6a;
0x1603887bc7e6956ae4ff5b9f4423b2293ab52b69b2ec021acb90bb6da8dc3883;
0x2137d99c24145e52ead0129bb220690c5ff8f6dbff755c8467054b645c74b0f9;
0x1f3d6d1349096a8e0594443a487386f9f51b2fc366e910a9952d4f0b3dbec414;
0x2148e1aab3e9c82a297d04af8191e2b05cec71b0cd6b8b4e079061dd00f01a00;
0x17fb0721b3375406028ab6f04882a202e6801cbbbb50badcbd5d760d59e60c54;
0x44f8ade334554cd610743aababa1196e00106e754cff8b088ac69a273ed074d;
0x2e10e74d30679661fc3ac960b7c967cbc50029d2ea463ab8ef55633cc5405243;
0x1e44030832526ce32d540c5cdd2def7f900509bc8019fec5e38848b3576dba8e;
0x2c17bd7af463d52d3fd7e8723d11078369561ca3c4ece48f1298adabe7c822e0].
Definition tabM_7 : list (list Z) :=
[[0x2abd9e16b7b48289aa19cdfec726fa3fa15cc1625102ae511bca45f39d337e9d;
0x1fe9feb5c7f7c7a426bff032cd6a3158278b6c6b2cc57a871213fcafd6427989;
0xcdb2db9e4f9d732d217c5e3114821165d49e5a2d41556bcd53d0c4d433224c;
0x9664216ca565c1a44fc2b98347ea8b36904b3877f2159dcc999895adeb4d70b;
0x1463f51d4a4cb1eba16dbc115566aa48fe77b43c244c9988a3c658d2f56493d6;
0x214e41788bd2b990347c7f2a8f47612d4dfceb1a1e6da38165873df66ce51f59;
0x548541724f64e20128260899abe8fbcdff184a1957a9385fb715923bf0fc79d];
[0x1b4bc5885d1cfc8eb691875300db5a0c7362ae381898acaf8b63cad04ecb36c6;
0xcc7eabb154aa7955eac47a19f6437a2b8dec0fe9e5686150ff6e88b1a7b4bc4;
0x12f3bb29c972793182123f5c49306e16a3a787c4bcd9c798a131b70856d1cbe;
0x111fd8dfce2bd3b7ba0cfa93e20fb685abf76d77305857b8df30914e4849ecef;
0x16afd8f4c39038b8006a59d292aea84731c0f83832a61b82250ed90118e8fec2;
0x3fba82d3f783620873da94e9f4e84c8b529d76f54e4b5d7d4805272af9b9775;
0x21c5e25a6991364e59a205e5b01c811deeb095680a72928369cfd2de71b14f98];
[0x8a72fbb55dde3e93c5818571a424a54953695029eedbcf91eaeb012751c7f83;
0x393efd96399aa0726ef9af79be8b6c715e429906ca0d15076b5a990fea75ace;
0xbba9006404c5ede82b527677daf444ed43fd1e0dbdc5528dd2cd1f17ad73481;
0x19f53c0a592b3ea93497a511e56f66753598265b1ab6774da48eec04e4d93426;
0x2296361f3bf154efbab996921936e9b1dff8352711f958638172055333e07579;
0x66782fe3e869de2cebd7ebbf60fb435785329dfb12ad9bd1b4e46ed36289511;
0x11c5cc53f6338c825817aff7792a2efbce8fff171300d41455a2edac37663d02];
[0xf95359a1f6845d4921892f83e500bbb1b3d3763d8fc762400af039b0abb83f5;
0x871233835b752ea030cf8a4f43771296eeb33f697d1b0825db47d39ac9e5955;
0x17e4e73bf701f88d219acf1ca6390cc1e17c9f84b1713820837ca070be84a2dc;
0x19b683c39d3b002fc3523b7bee5a60148b1dbdf18dd1c318e6a541e8cf66a174;
0x1c3160ebaeb10f809f69843cf8d5bbaca198d1f8e3439be29beb92d909ec891c;
0x1c5cd6b23ef336be01efa37a27e6b7aae5d1643fceeb212cdff51588835fb537;
0x27a0949fdc9f10495c4ee7214aa0edd2ad8eef68f577da8b96f9d87a39504bf9];
[0x16f01751ce985328afde34d81619defb43e6c7b5dadf52d0f82472fbce7770d9;
0x1a02798f047a51baaea34fcfb26ca6afe96a5fad1d2db4270497b6e6504891cb;
0x234b8a077ef52b53a343b8da5b20cc358ad60760dd60276d485015f73d53d207;
0x2547113a818779f13e3448719c7ef100b8036bb3e882dd5e6456c35311c1bd5b;
0x94c66bdcff54382cd9213abe43312edb5b4d414c6e09acca24912a7635404c6;
0x2f3b4bf0f105f88e27248af094e29feed9ff3fad9a794e15830bd2b311539453;
0x1c7fc68f3fbde4a23c455ef0d0dbce0ce556a0194e6d552c0455cbb5b0c230e2];
[0x1c391626328457fcafa629f3e6d33e2555e8d885e3c07cecc8af1f4d56596417;
0x55665d76df3cd0fcb713c234ea79d06a31d6e3e4c3bcc657dba4c664d5a0da0;
0x2dc3fd77394b7b5ac1cbd1b46e6ded5b835d7217a4c50a487ae9a35a7fd45d9d;
0xcf148f8045cdbe7bb1013f72ebd4126a3e35cba9a970441ba8d5bc76943b0b;
0x2e883bd408c4c826d004ff777d7c0938434ab5bb84f3420e5d94b853b1746f89;
0x2f4085eaa9f80a69b739fc23f2fe4057f64729b311783fcfab3a0a36fc1ff432;
0x11d0f56fc00e7d85b3a2939fd33991dc8abc1ced0c3f3c530cbfb4500d63de9c];
[0x970f671b9ba35e3e3c642d1e0b8032023ed5bac91c2c1056f03965a42c5297;
0x26ee9691a638edc7c91887e302fc55e8e7758286a44845ad88fd7de3bb1052c1;
0x1668477640fab14c72b1c16ff0192e48cf882f12276bd12f97f82c6ee2e61e48;
0x3008421eed767a093322a09c3733973a038168cb28cd2e1f709076c00b869599;
0x228af6d425e91a783dd18fd89a6b38bda053f2f23c094b875f27cb3abba2030b;
0x2363603349e94f520fa1f98fe2507f6aae361934078aa59a16214c088185638b;
0x1b2e9d20d9b55deb048cabe1636f0e96363bec886679cbd91f332fb2bade44f]].
Definition tabP_7 : list (list Z) :=
[[0x2abd9e16b7b48289aa19cdfec726fa3fa15cc1625102ae511bca45f39d337e9d;
0x90df29b70c5a783521503f92a45753c8bca03a74627a24c44dbca6eca32ac42;
0x11a48e9fa064121f52297162fd169e051d154a0e203583624a16c73534430b9b;
0x1636fd9a0457ce75aede0821e036773e39c37adf6fedcc7b2cdd72254e2ec7cc;
0x2e64b2e0bd6fb47559f585b63e8dd15b430058a63f2076636052efccdea98ec6;
0x2cb7863886cc4ee1640210d29a4a329d93a040ed45f2744c25731c8fcd15f0f8;
0xf3212046ef984438989c355db0984f93ea4bf99de1700ee0185886e81f2ef43];
[0x1b4bc5885d1cfc8eb691875300db5a0c7362ae381898acaf8b63cad04ecb36c6;
0x2c628e21a22008733e14f81e953a50072ac800560554df9e97971a56c509222b;
0x1cb1d2eca719de8ea352adccabcdd100c4fddbd380871e2190e33390b8bab1ef;
0x6a0175e0d8aa3e1b994a177af69a40bdf6dfae09c41d2fb3d8c599c76e7f07a;
0x5fc6589a1d1d35b2473c61ac293c6d6cbe24fab12a9086c0aee1f8d1a28a883;
0x26342b8b16928328123d727014822f00f4fbde2cd45046f5dbb6b986edfeb632;
0xd7565999ffac123203ee5a0699bd4a2f4c491fcfe05676f928694717e572878];
[0x8a72fbb55dde3e93c5818571a424a54953695029eedbcf91eaeb012751c7f83;
0x1567d8f8711949c036030ef808665350cfe9b648f13c675379aedd83d9b83767;
0xc9037b1b5cb3451595b4f8a1ca80c3d72ceb93d6d58dfe8eba02e88d211b281;
0x183d06dae1a0ce53171aa09f25f25ee397263dbad5306dd1b7428872baabd5f;
0x7da96bbf5fc4458741de810178e19a89631a95f2e0cd7e5f2783cd237f3d911;
0x1efe4b3bfbb320e15ac79fa9abd46e4a19b21f39bc40143351321f658f6cfe7c;
0x900505bde5ee2d55f5baa932e38805bd914afbcf3fc854219cf41d147b89db9];
[0xf95359a1f6845d4921892f83e500bbb1b3d3763d8fc762400af039b0abb83f5;
0x27630d326f12eed19ada60a1f6c496680425b457f42e8999f49676af0b637a6c;
0x26920194603a11727525c5e7b267ab6580abe2a7912789eea077a55f7ec3204;
0x10e5dd7a0862c4aba24ece684e502d3d6132a99d906908b20eba4f3466812e42;
0x2d30f6e371ba6fa64853fca459d0d6e0edf941c3e8177ad5d333d4eaecd7dc7c;
0x7ed952f7c3370e03880bfca6348ab2ad35bbdf9b7e9c266e7885b580edd59fd;
0x25b7a438b7dac4f0b36183f18766ce503f69d6c1d9cd29b986d7d2b8b44be433];
[0x16f01751ce985328afde34d81619defb43e6c7b5dadf52d0f82472fbce7770d9;
0x37e3c16dbd340ff80f49ee4f7dbe1098b474176a92b7a6964a63f2fbb8acfa;
0x2cf7810985ed56d898150ddcbd42edcfab6442f0d0a7f637693f676300c85c5;
0x2595dfbda733d0477a01cb6693b93eb4cb711bef3784b5fc9e17f1b342eb15d4;
0x7d9eb804f0a999ec586c58164da8467a481c1975e27b951f6f18411a7440cd8;
0x56b8df70be9577f94b6fc2a3a94f736d9c7b9de29134ff3a524e406e3143280;
0x258a0dbb961fc61bffd39764fe6d3c687a1061b59ad00fe85d1c18594b7e7270];
[0x1c391626328457fcafa629f3e6d33e2555e8d885e3c07cecc8af1f4d56596417;
0x1814234ad66f16a36711c9d2779c1358ef58f650cab5cfd95a0678af36224c98;
0x25965b4db95bc7104bffcc6ed99af5cf5328012a3a1a35cdcbcae4ed2470175a;
0x3090eb08e04a2d235c164b71a56dd730c6b95e5a2613d39cfd932b90af23ad0;
0xaca5e46d797e1748aa438d2e2967569992dfcd41997be143c3ebd2a823b7660;
0x18e6cc7c6ba50e61933de0f615fd4458d39a6c34c2f241a4cb78dab9dd1b4283;
0x216fe55a6f2e8daa2523b65eda5367ad3a3a6c55856c5447f398a280e57d6535];
[0x970f671b9ba35e3e3c642d1e0b8032023ed5bac91c2c1056f03965a42c5297;
0x1bfb7975cfa9022d9bea2acafbd020c85cd3f1091794d28413510f2d723ffdb3;
0x20c27ab9c365c5d2de660b9b31d4a406907c506b5488787bbe2de181b76e6a7c;
0x28feb3ed6c194200a579ff340040be172171c1f7980e63214a0b3f7603d68a02;
0x100d8a1a7ff31b30725190584c830b15c0cc5a41d9d530ed57c0bab464368b5d;
0x791d241f4743deb4afd41d9989448220d5a1d101bd96db5ab2968b981aad486;
0x1749c39995115eef14e1bcb1ccd4cdfc5c928ff14e078b38f5af326ed6b1e099]].
Definition tabS_7 : list Z :=
[0x2abd9e16b7b48289aa19cdfec726fa3fa15cc1625102ae511bca45f39d337e9d;
0x277ac8a3178a356b9072bb7b469ccd57a0a63dbf08fd0dd7356008d5307bb3e6;
0x24903bdf5d3968a8e49c6bfafc0e28d539ec1e2756e69301a8e38dab87c6c402;
0x14e025a7131c3bc8bd2d48508aa4f791c8ebd10688d7e5566a41fa0c149b8602;
0x2e41c7e320ecfc1d86df765fd7bf43ed2b6bf27ab8b7c74174ed61d57905c555;
0x11bb3cde82e89bb0041907d66de91029b35a9c8c90ea44de1661ea2ace917451;
0xa7460b280828af7d0a5bf4065b2b9640a9cf83d19899cca0171ff6abcb49751;
0x234be66b59a16a323cb35d6516c5a92f4997b76e14e656a8c41f29fc94925b0e;
0x27c512cd854e483667792d785ed1ed7e30569dbe12fc3fcb0c804110c937adff;
0x1532821b842df3a4e64577b7c8917219c86fa82e68857a1a5be4056e8763a864;
0x1ec15f1ce8c3cd648f325d92ace903521d7b0f668a01c6d2b92b43e35b5ac58b;
0x234748a5e415d7b5cd0b75b712675e72e95b1e02ce6f48d299d5a3a489905ea5;
0x14037feed35ba091ce3dbb4e6033098d07a3cc512e981a493c0788e3827a6694;
0x2abd9e16b7b48289aa19cdfec726fa3fa15cc1625102ae511bca45f39d337e9d;
0xa7c49a32b5a05a6d74faaded50d303c066ec843a10ec59dc90cbd37ba4b1b6b;
0x7fe2a4ab68b94f006bc1ed36af445905c8d234d308d57011dc1d393e6bcce8a;
0x15b26f61d51ae17017b1b9d1c9034a51083f25b33f474c96bca5bf47e8a658f0;
0x1a9c3ed5b8f524e8e2de1678002e73c63ebeb3606fffc29ae527fb94c60f5f78;
0x153aafcf4923742708efe169c490514516a223537245aca3ea205df20b8b5ccf;
0x239cbec4c84afc21975a40e29610d83c1d71a378cc58995e505def01cc6bc872;
0x1edb2bf1ce76a49c4844b7e5692018b524b30c1660a2e003b5768787d7af6d32;
0x222778dc5bf834f9320f037f4847ce62a2ae63be8cb846a5e10a3c2eb2ff22ee;
0x17c2ef46844a5365828904ac73e5114f9bc2833cf35f65adde116491bc86e0c0;
0x2fff9c9428727c51c6bd6c657e31314706237633e5cb78ae244d5d4c3ace4839;
0x1d188182ea443a5a5cea9823f3eee70a2c1e18459e4305ef862666d16236b0b8;
0x194dfe2339f7aa042818a43f4c6d3b5b2fadf648ba0dc219e56ec7f849ec7e5d;
0x2abd9e16b7b48289aa19cdfec726fa3fa15cc1625102ae511bca45f39d337e9d;
0x1c7aa6d64a120d657fbeb04c84017166427d0f02f0406c0674899118aeb3a1c8;
0x1dc18887cff4545b07d122b9086f80b9c464ee5aaf98ebbee8a648df3b74551d;
0x27c28329d9f8519a1ad9973cbc710635e5cd01ff884e1c113cca7b35742578d9;
0x289ce154bb02ab338ede3bdf7b2efe8de1fe22259477475987386544f3eb5cb8;
0x2257e368b26697c9ae1bed7b5cae11efb9d48138dae5b7b3c499a37cde286d03;
0x1bc9d5e7820a13f9f045f7b544abb2e4b954a8d9b6d38f198efe3275d9d7edd9;
0x18d112c5305a06c15faf556d58b84ddc492912505da27bc8500fbd32e4df9c39;
0x2c63e80087f924919d20067f050b7d7edbdaae2f3018fef6f8cdace9768faa75;
0x877b395faf50d5d108121e29b7ca64c6408dbc08f173278ebf6de8b9685e113;
0x40cdf2e7828e66a99121262b33701cc96696849e5532f492486d69b2779e9e4;
0x16e80a1f3fe9b828493e83d1a31428b1c586b3dd54d735eedd257930a2f539b;
0x994a923eee5e6fd6a4caa317c6926ff4beb82c3dfe033f37433d31898a60f20;
0x2abd9e16b7b48289aa19cdfec726fa3fa15cc1625102ae511bca45f39d337e9d;
0x2060946803f18c085b6fde5a3d8750d80f9b21ed391e27e1c7bed180d708e87e;
0x24fa5c0683c2eb83b0864853cded9d57d38f33fae496818450e2f6c49968dcd7;
0x162824e200bf52b73914219f02ddc59785407c558eb4dd72ff9b11921a351eb;
0x1edb37284aaca008c1703ddea2da4eb79521cc4cdcb7692ae344be2b880f574f;
0x2189adace1c5a701dfa9c5354cefcd8204c60095f5b8568232dd01acb3c09688;
0x19f1b2d64e3cddcf28e7187f16f3a90c93975e2569625ac689e3878b2de7c778;
0xc62cf98668e5178bb9b6b261f36e1c8f176f190d372921c9b46f824db8c6190;
0x16ef695c32d05c8c43431f284a33a0138455d93408ca2f742944d71eee85aba6;
0x1916a7ff07956db69d712449d024d8272e2d9fbe9428d6562c503b99337b1c14;
0x155303d79a49e28947744f334366acd9454fca21261d32bddc76ce6086e8f1aa;
0x21dd4756d2217bdbb9b439bc12e5daf5a8661b1effd889c642cb49c4839cd533;
0x197232e52cfe9adf15394e38dc30548d7cf495c7499bcdd993c2df59993d72a5;
0x2abd9e16b7b48289aa19cdfec726fa3fa15cc1625102ae511bca45f39d337e9d;
0x2f1786e4f7d8187788ae6fc25c6818d2e7fb34a8896414ac9f6b958de481eb0d;
0x7b914cb16d817387d79ee23fe9975ec91fed24d0e163dbcb5418d96b504c2ff;
0x1958452705af91d4b3be5bbaba856067cae00977353897c5ac0d070f90e34ba8;
0x20f47ed0ffd3fa2dd8dbfd9d0daa514b0d72d270d1327e33840cf178b27637e5;
0x2bdcc2280fe50acaa851536e7432f37c888a6507168a4b79e2578d7372f5db82;
0x100ca23f8d8ebcf656d1fa5cb225932b62772fe53e2c5650109e71231c3a9b0b;
0x1d359baef3547113637ed1d8e44c89166eb4154d190d38a2c6d47afe5cc12e1;
0xa78ae4732461eba1b90fc18b100cad3712d8b684324dd57343cc127b005a3bb;
0x1a843ce91e265e4b6cf8ac90c3454584d4d481813247df111241cb4409b26b2d;
0x140c4ee1c78bf8555602a74eccc3c3f71e050a5deab03ccde1d8431c151bc3b;
0x7696859ae6cbcd413e8a035a9191cda79f3d04e6c3d18658434d0555824e4fc;
0x2e7f9004dc09157cebb4e42884622e0307f85fe2c37fa7ad2674b0981b2c0d32;
0x2abd9e16b7b48289aa19cdfec726fa3fa15cc1625102ae511bca45f39d337e9d;
0x17607febb988532e6c79c307d903056a2266735b7423da83843f70723f09a5bf;
0x2c02579472877870c8c3457b6d3b284eed6cac0d43e93c38af218961a9ec3ee5;
0x2b24eeb2617860189e832b5a50bd17938b2788858e58d9ea9bbcb7ea175ea012;
0x18c375a125854f8fbf30b0a138ccb4c771dbcff64c77d1c62b79d70a13e307f7;
0x7251d3e863183333fdbe9dba4f3abb21777555ec7f996db96352311cd9fc784;
0x2adb341301b3948dc700e495384dcc124d5371ec6163615ee7263009fbfef1da;
0x1472cc421bd8fa9a7efb991ea065ec1c822b44fe601640f46995c3f10f1323c3;
0x2c3a91912dc2c2a792df5e43134bc6d7e582f822994a5c2a6352e789997f9258;
0x15e8c106e6ea3898a09e7660ec87c5fb217270ee9a8ebb1d052e64f3dfb155d;
0x196b68215343e220781a52bb0a324e4ca765394d2f3201a769bebbd931dbd2ed;
0x2ea4a2d5188e98ec570e50b70d0303ede5207bee762ee8932a466bdf891a333f;
0xfbf65aa42b0d900ec78b68de4b2041140fc85fa3458303276d99826e97a2783;
0x2abd9e16b7b48289aa19cdfec726fa3fa15cc1625102ae511bca45f39d337e9d;
0x2d93d238704becd76c0220fc95afa0783f9695075c5d98b363f91cd249c47a22;
0x1011608ec77a11a0ce8b8b1b36ce08de4f93af8682fa026b87d8a2795b71391b;
0x108c04095f95a9fcbbd038c079842940d8105c509c729129f7cea1c5e968e194;
0x27bab26eeabbce153dd52489db2fade373a936ac52383034ab82a9e252381e73;
0xd2611e73e27ed17349dd52e13a90adec9830a5e2c7115d8823d23688ba4e570;
0x1cb4e6780cd70a0bcb4662edfe8bb829e146a62c4461c271ff1a0d8db5c1974d;
0x1d429b1257e514fae54614b4648d627169928dd3a496a3d021d8dd7b2a1cbfb6;
0x919d557a82cd7294d666137090c7348da53c3b92bfa3346bf14903a12e5ffc0;
0x1b99c14cb08972b58f1e7216933e31e2e67caf29f8e6e998fe2b1c30ecbc9473;
0xf0435abfab0c4e0ffb1a687de5cc0ce3fed74cf9bb2b559b569a552e8ec86d9;
0x99366a2b727e153c4e338c7cff84efbedfaf7dbf4c7904854574f75f3d8e848;
0x187b41d7da085759b71c2028e359907408319e8c6ad842c79bb202ecb419be5f;
0x2abd9e16b7b48289aa19cdfec726fa3fa15cc1625102ae511bca45f39d337e9d;
0xf8adabe145a57461fe9a583655046a75a03785a0a2942221ae2000664936e3b;
0x21b8878c75b423cb1f80e0b574b3f62d28785663aa6b4e0caa3043a693bef6c2;
0x1dec99dbe933ff6d1c4b6285f8c68771b3ee297afbb5c934aa2874765f64d602;
0x2d23ed96c51ebc9c51489f7c87de4fa151cd8378cbbc701542f54bd4f4d808;
0xabfef9fb01611d86e6ae1c1ce2d3febf41378ba90a38f11166b097187272e88;
0x28f60239d945991b837eaeb4693d496be520241c8b739d3f21c7b838ee0f946d;
0x18ad1fe91d4530ef15ee77e9ff06e2d3b05564aa44613bef3b191f6b12e1bd83;
0x53844fdd99071115909fc518f92c7d0d7ee91beb16180cf9bd158d33c8679cc;
0x28f997134ae9a3be6b79f6f3257aff2498774d1bb18f553b229f70076c979ddf;
0x5dd57491f096cf44399e477bd78c20fd872d357f5d1d210873d01d3a014bfbf;
0x1f1a859e7cd1cc205ba1a1b3cc2bf04e0b24d32a62dbed89e59e2113d54e0b37;
0x75f98af212f11e1de886197216bd78258bb77287937f0af8e464f916d7ce5f2;
0x2abd9e16b7b48289aa19cdfec726fa3fa15cc1625102ae511bca45f39d337e9d;
0x128d5ad7a08858a2ed8c161997ed55c8ca8ff495cd27ea475983d1715cc602d3;
0x75c499dc0dfb0ce2005e7d13c1861e5f375e03bcf06951de3239d4b56f7868e;
0x2917faec22c04d8b879d4490a8ae7a9d9cf7f3fcdd33634aabe189b50710f87d;
0x1a86eef4ec1b75a75d97e62178663f995cf6fdf3913595632105284bce7cc346;
0x65be02d94e4417edcba4b6b68675b107a25462092e90e7ea887af7870c0ffc0;
0x2a1d799daf1e300abeb7f5a66264360c7984ef52c9b153f15411f9c62ac84d87;
0x17c036c19ef8085449f760a6365e814823f270ba4a5e41d2ce4ae1c653f087dd;
0x2151cb617d9f323ca37ce71d5c77ae83c8490057b9cbe8c17f150945893382bc;
0x24624a8c4bf96cf50401f7361f74ce162c47ac803ed9424b7bbe4d7465d9f20d;
0x2c01122a63dbde586507877763b572ccfdb59f2055ff15ef205fa8487f82a3a1;
0x17a88764e660e91940993b5efc7d317ca4d0e28d7dc164f6ab6e8c0fd2bd111b;
0x2287b5e929e98ac38199873b142845c015bb20880cd9a1d9316a7027a9b2d208;
0x2abd9e16b7b48289aa19cdfec726fa3fa15cc1625102ae511bca45f39d337e9d;
0x25527f081eab2b3258ed36e0a72ebbfbcd874e81c49836faa218b94c0a330b87;
0x186169de0e37c01f31821e0909bc4c7bec2129acf9a34948cf7a8ca58c9b57f9;
0x6d5d287a7a8d09650979fd72764614e0384a22972d86d191d1255c999d3daa5;
0x2c1f7628e8aaaee261c58c8966f5cc90e7aeb1dda64d590228e61de098e4ecf8;
0x1c3761c8c7a1ee1f98871ebfaf81b0b89a5bd53a69966681681bb1352f1d4fa1;
0x14d1774293d8bb21421fba59295456c98e3e9afd0c9858d6aef305318707e365;
0x1df2d2c614e4fe2a6cae058be1dc9e56ce12171c7c3bc4b9d1e76b1916458f72;
0xf27fd9322adc74859d8b58e4bc2595b276061b606acce303f2a90ae404beb2b;
0xa2aeb992439b6e372a606b46e95bd4b52c2072e6fb28c0689e84b5f444f7a99;
0x23e0b17792144b002252bc0490e7640a3d47784e77db53af09de2f3dd650e9b7;
0x2aec9631493082d844e77232cd2202224fc38b2eb0d87e7e5e62c11c5af5d006;
0x131847cf279637a5a337815fa4f40d51251f6e0174e59c5ff4ac4cb35e2f21fa;
0x2abd9e16b7b48289aa19cdfec726fa3fa15cc1625102ae511bca45f39d337e9d;
0x1c8f5a7ebf52e4504d205b2b92ef4a87c99bf55fed83fe42edf01645332dcec8;
0x1eed962a391acaa8a59d90d324a9ad8447d898f4b516db4a289a4bc0c565fdcb;
0x2b7c65f02b600d4cb64a49b484840ebb11ed7e99a43db9113ed92bc07d2ac4e7;
0x2b21e821c34c25f6fe3b027b3f9877d0966ee34e7224c738f0e1f454ae3e6d51;
0x2331843ec8156532e5fc129b95d129546fe5ff9928bce0b17964a9fa4d8d16ab;
0x22dfdad5cbedc015829fa14df6356c60037761a018d0cf78e13d3805464273ac;
0x292c701ad0a3bf427a33e1bfcd073edd2cb8b5e6e949906e6efa9356b471cd62;
0x253d7f1f0d16d4a21b0d14d04b927f0ad96d348e78a7e36107a9c2481f51c587;
0x12f89c0d808f729c196c25f570d2027925fa37a17f07d9cd86b366793b5b89ca;
0x28739fec5ce7338db7feb9b2996877e00c4c5d6f1587f24d5d165672d727d4b7;
0x2ae7492c4a9864de31330c131c06f9de5d50bbfa4b6ee21132068d43e00d87d6;
0x22d24c6c5b0ddfc162fe02b69859138f2428a54ee04d51b7d28db3dd1de5fe75;
0x2abd9e16b7b48289aa19cdfec726fa3fa15cc1625102ae511bca45f39d337e9d;
0xce556d3d5727d4e62e2716588f873bd595b1c1a31499dacd96b724c4b7a0848;
0x2e9e730ca4be19d180bc945c9284a0ac19a2d1b6523bb1c0ba4c105625e428f2;
0x662d03f6ae59288dfe205ca54c24f7f33615c42212e9e759bdc519a37573214;
0x130fb7df8e39fffdec5284ca63b4bfa2d450757eeebc88a4876f4538bd398d03;
0x16a882ce517234ae0932404d34fd73070e27a824e337e1e99eb71abd536a9673;
0x29c0802ac349b823b5b63267ab07fb4ac43717bfdd344a22ce4eb347dff10b8d;
0x26a04ea7406058bc1b0892ce3a849ca4d4692db13e1efbed22eb8846f62700d;
0x190401694ed647aedc22c5ddcfa7e5c0690182d5901c6cd17e72d053acbcdd16;
0x210d51487ac153bd15fd95e70ce61c1760d2ca4ed3c8904a85a7be721dc2593d;
0xb0b2f1b7b01b969254538e7e34f31c99abb093463df48171756cb005641b641;
0x28c21cf93221e40e088a37b7e8c4e4f6b4eca3ceda40ee4b7307c9940076206f;
0x6131acfb2371ead4b47df9a6f6e7ae744931224d78ea55cc67caaf0e5804ae;
0x2abd9e16b7b48289aa19cdfec726fa3fa15cc1625102ae511bca45f39d337e9d;
0x2bebdfc924b28a04eafda183476a1a5add23075c9d02b679e1064e61e9482210;
0x1faf98e88f5306663b31fd4e1e346eebf6e3a1cb1f21142e2c22344f2adb72d5;
0x22cb488da424d56b9878634ac766c48a306371ab23ababb0688e9fbc2bd2f305;
0x1ebc0f4f5901ae74815b159db10956d58d8faef0992a2c2cec68919d131a0c62;
0x29c4ecf2d8c9d693dada0aec9e743bb283b0f02bf4ccfb0ab8fc3fd7fea381b8;
0x2c4a092b45660f079277c81df9f8f3a7cb74d3603bc839eeb2fbfd798398919a;
0x145c56ab4720f6ad4011ca83e7a29a83fb11f6f1a5f9fbc2782f7ff4f7f18618;
0x2809c4d7a6aa62cf849cd656c9f76c7ebe815d51f180e1dee45cde9714261b6;
0x14881d4e8659014f6dbdb9c1a45f273ff86fd6491a729c1b4cf5faaad83c1319;
0x2e10104a54b4dee285b186d2ceebb3c520a6f08b0f2dc3ef071aac189ff90a6a;
0x1aa6d9185256a7da783e9673f47a57a4f1a539ef39f3f7f1686995e7f6de9011;
0x1433a78ede2442f29e1c90a35c75945079ba472a07a5fff22dd632611f0514d9;
0x2abd9e16b7b48289aa19cdfec726fa3fa15cc1625102ae511bca45f39d337e9d;
0x2113235e983b253534d3373d425b2e65ad758d985010990e0cc4c8c0971fddc;
0x2bbe5669cac7d09050c0479d3b77eb9d91f22a19776d9e396a4c79b90cdb6c80;
0x251dce15ba53f2fcdfd39448e3ce48f74bce1d96cc2b4cac2383a40f45918c5;
0x25af3b31579c2c0227ce1fbea8085d27d1301236e4a469f154422c0c00a3b47f;
0x101f2400d1e814d019a47ad9bd6d800b821c2de5fec03914276fd7413071aa3d;
0x1976bfe37936541354a1d66197e6a7818313cafdc2f4889f7647f808fa4a7b36;
0x223ac76deff06a630762ccd8db9391023a783e28659eb7f9d57223812b6abd2c;
0x2ac83b6435ac467384d3fe77f06d349c66d13274d40c37626c0e186ed73da3a5;
0x1075e744bd71d84cd204e4652afab236f75fa604f833d02e2ac15f06e13ef92a;
0x9684685d0631b2170daaeb0e82af4cbd5c2945f68dc758f05da1483c2633015;
0x292e0a7a8cc10221f67d029c700ac0bc1a9e41dc376fd1f7ee52b1aced908f2a;
0x1592dd8fded27b0499c5d7b77069e8eb2d27ed4d0159955db902ff47cec50d1b;
0x2abd9e16b7b48289aa19cdfec726fa3fa15cc1625102ae511bca45f39d337e9d;
0x116530f4782990542c91156b83b5283f48a5b3b96f4cc9a5eccfe8db89446397;
0x20792a7c07e235c08d2cc9d5b4ef2a93b7ab876d9f646d0f4538c7c1ff354fbe;
0x1c934293f228bc73fa4b8d5af9d93bc21b7db38e654c0f69a82e6d53a3babbcc;
0xadac0d1a0eb882f325bcd49c617778178187541c3f2b877c9a6e2e200b15c29;
0x23788446ab58d10e48572e52577108cf0d9fe33539bd0e8ba8d635c0d135b409;
0x2745bd6d0a95fe5be2bf988b86fdc7d17bdd6323777ffed4b0ef00e692a591f8;
0x17cdaa3978f7d9243acd9d66de86ad0a1bc5a2767206d506b43fa8df769ee178;
0x1cacfa3a8850decdd65a7de60fe3d4b063b9eafaa858e4455d6b0da518c6b221;
0x2291ce130877baacecde1e1932143f97da67a5c3b2bfa99ea099893932fd3e6f;
0x15adba2fc3b14d20852d217be0744d63363ac5bdc8aefa6be3d94ebca832c3ed;
0x150619b091f5304ccc7d367cd48d4b878a2de06dce5d9d7137ad6ee307e9cade;
0x6bcd482b40a5463d05a49cfae4907c05872388694c4548377ef2be93c2b1499;
0x2abd9e16b7b48289aa19cdfec726fa3fa15cc1625102ae511bca45f39d337e9d;
0xc678bf7b43613dd2c36546b68ca0dd3890f78927c5b7898a79f0051aab7199d;
0x4d55e1ef8446fdfdd9659d06180dd772bad31738654829e3f68a54625342b6c;
0x17451474d0a043f2ecdb1c11311e7848637cad312badb49664776d9947a25578;
0x166f2116cf6846c85bbe1e4c78bcaabb2823e0d4c0c27a6bcec3f1c1c3a4b001;
0x1d2d00463d86b76474ac56cfbd0fbb7f5071c792f61145f1ffd1568645e83f39;
0x52fa6833906fac636cf7a1bbe3b6d365f16d917e5786ccd1f303eff8439447e;
0x1aee2e06db5d4e2ebdf163a8d1ef89b70510c37acbb47b5a14d0c6496e66669f;
0x1e4d0a71dca74b2d4c0c403a8c99cd9582611412743944d25b97ee4108026fb9;
0x1a31ea0102b313bc96cbe558f0fc662425e25fc5f9395a42a051e927ae3fa2f3;
0x2e7d99fc4631683d67b62afc214c8e89bebc91b4adc4625c70fc5813840b9bc1;
0xba02e66d788b4db2c10e4b63344e564cd24c1a3e7e7f3b5c8c0bc50f2aa8051;
0x1938e6cee09167fe4f1b6256929ec89307fea623ff00a4c15993fd44b9b9ae2;
0x2abd9e16b7b48289aa19cdfec726fa3fa15cc1625102ae511bca45f39d337e9d;
0x24ea9e2b25c1d10973fc2758114ac04d62292d75633e5a98d87d42245d3085dd;
0xb7f3dadf80c5be4a9fe724d8c7ef9e4b4626d9e8ad61295f9482a5bdc1c6615;
0x6d9a25f5efafbe0738e9c1d8e291d7dcc6e70434973971636fbf957353545df;
0x57d08da194c641d1c1957a6ff6ea5037640f6b2910f854653c1d14909a73b92;
0x1b1c3fb5c7160d87cae56ef5a808308a5188abf94b4f127411b3636a5098a628;
0x4e0f9b281f00e246bcb7f3e5259e4554eba1148b92b1d464727259267b599d1;
0x1f31a5baeff037edd6912779c79b566c6891b55bf02398c2a2f1f40a41b2aac9;
0x24ecaac4d6023fb27cb5836794e1f821f6a61924d14810ec882e757bb5150709;
0x151f138379a4341cfb1a1fa09bb3fc4ea4f58f0c0213bd2213971fdcf1791394;
0x1f8ffc956b5fa5f6c5700394e863341ded45cbf64199185425651e92564c2fe9;
0x17ec84b7ec93fc7204915e7cf163797456992c8b5bd1ce3879ff7238d60627ed;
0x3a67e721da24139c6203edf65ee56debd2db5102b2c193aca10c98e70cc2354;
0x2abd9e16b7b48289aa19cdfec726fa3fa15cc1625102ae511bca45f39d337e9d;
0x199a8c4c63048f8c92b96e2fe73c3ef1be1e2ae312bc504cd6edcad0bf96967b;
0x20d5d5315614291c431a1f27ee637d098c6b2455e019872a06bfa9b1322bbc58;
0x204e87cda44e50d72b36c9a0bef8906abb1471cb4faea1262bbe1f148eedb60f;
0x1ae0dc4cf8615efcdbe69bf7e65863b9884297d7320b3d2c9abac80aedf519a;
0x19ddcb6e703520397f566c8969b47605f907fd733a7531330329fd07d0daab63;
0x224f871490b12271549e5bf1205ac16364f8c6f9cbfda8214068b69f3b58ca57;
0x305888f9b716c0aad54f0ce4ee1c74052bcc42261232cda96eafd2c17faee5c5;
0x797616b6e3a31ba4090fc46bf370854483846428e52ed4fbbde16ecdb407edf;
0x10d0c9c192672de1a9ab86b469c6c9bdf474fd4c077fa2b27e702611295e06b6;
0x1bbe4c061e88ab93144f0cdf7873acdcdf695abe01712409f942517bf2775c29;
0x3f37c5294f581af0e0b407e1f1691acccc9b2f0fab04fc68d968627ce38fcc;
0x10fd1cac0351284931df18b06d6d8baaae12879304e6567e96e024258a63d84c;
0x2abd9e16b7b48289aa19cdfec726fa3fa15cc1625102ae511bca45f39d337e9d;
0x2f4ce93fa6f69179598530075c2dfed92480e40b5082c1e4d0884a6e5a970c95;
0x48aa1e38a66c3d656ba67124986f27fbf41e16d1aea5d66b56d7ff786a5411f;
0x69328b6c9761099bb94e1fbaff46a4643a6d52c2826038bfbad2b96aa800a55;
0x18c5dfbb9611df4c176034f538bb3355c4ea9a34428b568b3d5484264fe2ec7e;
0x250964c6e716f188f1a060bbfcc20bf6c9c575aed8eee7a952883875e3469e5f;
0x1cafc40f71b4ea55f7449981d952e200242a375056b3ebeec542f743029d3680;
0x1e345fd27b75da9f73b66d7d11fe53bf4d7d9907194ffff926b6fd73650eab00;
0x1f86c19a4e41622c5cf6d297f3fb0966d1ddf28c14c2ef296d811dcd725656bb;
0x67a9ca314c1b989a258f5306f02017756676c8555e15e331674dfe2de960aed;
0x1a8c2c393c5940ee66a9fcb7745c711183ddd8d5336cd2b72880d1534fbd954f;
0x2d0fe4e3cea76d8b33f29cf85eb4268e0097270b955369782adf6f3b56a2762c;
0x83f71c1657f460360ace088b5682357e7d591b331beca39de70e7c057acaecd;
0x2abd9e16b7b48289aa19cdfec726fa3fa15cc1625102ae511bca45f39d337e9d;
0x1029b4658ee5d03c9476e1df7b7ec5447dca910ddf67e610247695140f7ae6b;
0x2d2fbe8b4aa2a78e6d15b471d034a31c0710a8cb23cd64bf8a105b0f5f6c5088;
0x2c68d13a038f7cc21d4035f2fae3ce2e44b06076755e64dbc95a48ef8fd32ec8;
0x255433e441013f28b645c439abd003cf216195cd6ac89e9cca3a2605e2afafe9;
0x2b6131efd66fa044954f1b2cf0798c44840b9ac5f91f73bc1d6a435d192c0606;
0xc50cf3d47abc4d5094e4faa45ef8950e9f30f6125953caabe1240c70dac54c4;
0x19ac7bb02c466c14f957a8683f2dc7a0f888f0bb9f233acae0568493f353b438;
0x134932780855ca4e70db189d5439192d257a8560daab00be7ac2bb05a5f43d49;
0x14652e3f019f18958f6e8c521fb5b375f755691cdb4cf7cc5de4ea7e5443845a;
0xeee4bb3c7a628fe38bd14dfa58f7a774001261e2c1b0013b8abc115e4059685;
0x1ad10967a8fa3bd36d86621d021c46dba709ff285387c064ae6f305cbb0dc77e;
0x6fc3833718a4e8937f1151ced67bd1059ab386ffca63596129980ffe0ceb943;
0x2abd9e16b7b48289aa19cdfec726fa3fa15cc1625102ae511bca45f39d337e9d;
0x16d751a67c79f9914851155d386e13b0058b4682283da2d2078704c75576c7e1;
0x2ded2eddee5893bd27e85a03d6501a2968b3ef18a20ecf50642d5201fd40252f;
0x1ac7670ba55f7ee1c2ee56e825e80ee2da811ef8fa08b90d8beeedbee104929b;
0x64cfb658abd66706a012f10e3f27e0d8c9b83b3e8e5234774dfec5e1202712d;
0x806d16963ae96badc162c4595f484fc6a8cdf753d18d336aff5b24ce1303ddb;
0x148cd069f578f6a864c92ca38fad53423c9a8792967e44378305739c39c3951b;
0x1513984d0c1ca0b24ab794ed86a4b94f4750a3a5bf1977fb6feac9afc85f45d3;
0x51f998093e4dbb4e7f8e410139a65ea44764f0d2af6ab5461b34717a9561bf6;
0x1f87df4d84ecd7b55bd03728de507a7c5409886811152634e16cd2d35a18db0b;
0x956f375546f0b19f6d2f31c5be42795b17904341594daa5f98886bad442108c;
0xf17b03f697af65662c25f3dc43f1f5e050f1ecf009ab004f3fc632938130339;
0x2d40326e94d3dd13c0534db03b0f6ba6ee54bb280af99fdd05d1cc7c94c9536d;
0x2abd9e16b7b48289aa19cdfec726fa3fa15cc1625102ae511bca45f39d337e9d;
0x2b0eee4044939efed29b0a5002b16ab0e02f75d1e193a21787d6a7f93a018508;
0x1b59d055ed845b4c304fc1e713c622d1dfcc7eca8fdaa57f38d7182d52b1b4a9;
0x1d2d4adfe8bf73cebefe07a088507412eef5a1efc020c7e3c81fc9c6a11036a6;
0x2857125d19ae926856a3ccfcaf70acf2b258f9fad70fe242f7168ffa2d02d2e0;
0x2f1da0ad4d4cdbd868691a65495006eb3728c6e410a57db82f874671f75d7c81;
0x294d34350a9bbf726992bee62b3cd7d2a333002340a4bfed74f6209c4b6173ce;
0x16e5f374066b223ca5a2401f102d65f5e7fbd677905b2e17e568612ff96b602c;
0x17c1bc44d70706417225c79dcc9db569c79fbea66c018f2881321c4877b7fc31;
0x264cd13057b3635518ee4425f88edba986a49776e94760a4d73b17902cc0d359;
0x2b8fa1e65fdb45989701a0f231114c0ef7a8fd3725c62070a9d748e5aae95827;
0x79f16e76efaa3caa7e2f266ae7b3f1bbb54a6ee571688463c9d62b17acfd6e8;
0x1c5a6ff0893053c43c552cf41b68b48a7759e63d0fc6069d2ee247c170f71d25;
0x2abd9e16b7b48289aa19cdfec726fa3fa15cc1625102ae511bca45f39d337e9d;
0x277dcb1f82810d091b7dbd02eba6e8edf5c97b08407a469c4ad99ec0a7938a26;
0x1507357ce338a6f1c5f01907a91c62082e6e5182cd8b8c47f9051b2cbacd5238;
0x10d9fb4dc60b7064e8d6ec643727c394da7318244c57696bbb473e2bfc273cb0;
0x51cdb7af55af1483816cf02db477c5c21a2e16760ac17395417afc92cc78979;
0x57d7491951dbf51f0b1b05406e58ea37d61518a67546fd430178a47e5c34dc0;
0x1a512039992c0d21bd7f2436bad315a3955b38097568c306fa92e603d4129ec1;
0x3047f751d881408a1f583df677a7313f341d0d90150b0031bfdaf5a17c1a71a6;
0x182d95d647c5f27363818039527bbbbcf23f4c143f6bb98b064daa5f09d127d6;
0x25973c85813c7ec78b26bd63395f522e0f8cfb0fa6a82375b9b65ef0e24c2aff;
0x30016e4e94afa204d5c420908f1aa18fbbe286a9512a0f7dd492b268e2bd4d0a;
0xde8759915e7ab1ba0347e7d3cead6663449cf3e56dfbc87b231f784a6a16f6c;
0x2b3e7d63f286ab49bb3ccb30f9a8d337c2a871799020681e7c1e5170569bb6b6;
0x2abd9e16b7b48289aa19cdfec726fa3fa15cc1625102ae511bca45f39d337e9d;
0x22f6dc515f2a6d844a494d3c307ec715cb4ac439abab7badd9f0084ce1785718;
0x1ec843ef7fd4d4078d3c68f3f699197d1818a3321f64d15d940ea6816db2d4ed;
0x27488355bc40e3b48175e215bb7937413eb1fe296f51266e42d421d1d744859c;
0x2e5cb786cdfbe0c74b05fcc700ee95936658634d6bb9152251e1ad38f3ca6666;
0x92f4b8b30e895442ee3f481121a04542cb01e9a458f3e61c773328e1b887f51;
0x2943525f7b6302dcbdabfbf7ac5c27c0187bb016069c33b3947becc68c00a873;
0x22a61651f69e2636019411d42edfbcb0cdbcc3b1c0f5bbee8ac9baf66b1b8487;
0xcd43ea643c19e6eec4448fbae1ea6c40dd9665d93b04099658f4e216b0d7925;
0xe6fb9ac72a3c4754de58d5b4ebce0f32aa651db3d14d5adbab0edf79d746644;
0xe18bf3657ce59002f57e8a25131e39534ade10d742313d81f02beca3cbef04d;
0x24d31ca462d9f59dfe6f114bafbbd67bbc9fb15e260bed3552e06e559bc049f2;
0x1663ec74cf67dbb8e668d7eac5c8bf51c5742c090f7a707e297d44a0e300b093;
0x2abd9e16b7b48289aa19cdfec726fa3fa15cc1625102ae511bca45f39d337e9d;
0x159eca9b923d7cbe5bd8ca7b3ded11c3ce6226130a63cb905289e0f02a5351cb;
0x2abbc33b435baed63f3c31aa583ebf8061236d423321e6ca666d33a0159b1193;
0x22798974294faef1e314beb8b7dffae46b50276230b06c98069b742d5bc789ce;
0x56841bcb1c18a70dd298ada142c577a249b7ca301d1080a6be5a621d604f15f;
0x1823a55887acaf96966399d381bdc7b8a792d40d71e5c5dc24a51d02f9946cd2;
0x27bb9a8678b0a2cbd911e61b68f4a6928ec6f3db90fc28884af8e20ef711842b;
0x1391eb35e10db17d84b0e7dd45145a754977c4cbb90ed1bece966ab89de71f10;
0x1ddaad4930fb9cff01affe0c6bc2034acbc20df09fefb4fea7c346dfadcf99d8;
0x967a6467b486450b51ca8d529d6aea1efb101edf31f3646efe1e969535a6a8c;
0x26edad91bcac2202606d579d3682ee71417af365a5bd3cdeda16158d0059f32d;
0x9c8e2fd871c35f3448ee49d7e7531dcb5301a6e748809ee639b152896773878;
0x2de254340f39689fb3c5e3740c1d1ceee26e8ef87c64c8b3ef5eeae2712a2fd;
0x2abd9e16b7b48289aa19cdfec726fa3fa15cc1625102ae511bca45f39d337e9d;
0x229ad4c71354c4b2ae2f011e374de05f72548aac7f407d8f52f00ddb74f2456c;
0x15d1ae9e3d615f8321be16db99bd43b9231dc51fca7ae9ef2c1ff50cc948d5e5;
0x1ad595eb60e44bda1591a4a7ea6facb03ed18e8e4c7fe44aa4949c176b3fdd93;
0x21c6b958e8a24ddfd5686e18a1b1c93843ea3efba13869302f46382e6a57e567;
0x1b4643c47be36a9608af217edbf9b2138045e295b062dd4b720896c55c1980e6;
0x44415df1dbbaf342d11d905f569a68a53cdef58ce2bf19503ed0d032ad3cb58;
0x2b1b266d410ad7a8990d350e5be5b1be70822f5cf0591cfbc00302c6a1504fad;
0x3cf806a68e9ee25ea00b57abdeb9f4b5ca199f9af3428a8b5cc87db1efe81ad;
0x1013c9c92352dfd09c3e6acaaffa2c44923b35492c5691bc7e9e734072fee822;
0x18afc92340649e0d9608aa526d2f86866d4bc5280c3f45addc6567b8339286de;
0x265cff469832ff20e35d2da4e50505b8e17a4eeaccdb516f36f3a71fc916a82d;
0xc83c2b9df3aa4a874494e329206968b89b23b02f35258788e9bafb43c47c973;
0x2abd9e16b7b48289aa19cdfec726fa3fa15cc1625102ae511bca45f39d337e9d;
0x10bfc00fe5269d28301b200756e26cf1281be271d1300b11d988a9ebc062b10a;
0x303c1e41ec4614539b4edebbce405652475c1282eea708cf2ff39ba8aff4a4df;
0xcb8f9cbe9420f6adf09e987a8bb44158ffba89abd7a738ed54ac6a95f17500a;
0x2f0cb3011c761f84dc5b01ba7a89194919d06f94304fb99dcbc0ad7a7bfaf796;
0x10151a6d8c2e4d4dd265b3ebcc0e778aaf056a02139fff9c2ef25968dd2abad9;
0x1e50838bb4dc4ff216abf8455b8585010107e2d64d1fa600f6f3408655d36fc0;
0x528850ff2c7ccccd074baa85e0989e57ce76ea60b697b8ff19c97f1f9b5771b;
0xda83be0e16ae4edebd1fbbd5b3003486f5783bd79164ea1c6a4fbd945a285b;
0x1bf809aaf61005aa262952e1ac2141e5a0aa596fb9d828cf2ee2639b59101e65;
0x231a51ec8565bb72d6791bb758f8abbe5392ce08a655f2bd03f7593a026ed371;
0x227aa3bd0866433629f3cfd228e20be57f8499f4a5597d3429c40eadb238f1f0;
0x272b5a76f45cf6eee3210ca6df476b2555fd79fd06180b3f7eb546bdf2e9e4e8;
0x2abd9e16b7b48289aa19cdfec726fa3fa15cc1625102ae511bca45f39d337e9d;
0xaba393911c001b6e701b44726a176bcdb276d02d3eff5e70b0cc16aa7570958;
0x282c157f6cc7614232f974eb110212f786134a965872ff9ee9430cf05a7826a6;
0x16cb3b06654e4997a543284ea7d12efa7b821e96889b0dfebaab9eb705d829b7;
0x2364c3f74a3b18bc2af5f89126552fcb58c80ecee9c05c0fcb4e39332dedb205;
0x267b1113aa1f20f45d5bd1e042290c8d1e7e7b4b5628184704b81f894d07fd0f;
0xbd187c337ead48b6889b3e20026dbf604729fb27460fc1b51b7b3a03e9812e;
0x2691351a32661a9080480e51d758cf0e3bbb9dbc43e108293576c153dbb92654;
0x13c49152d941d3664ef620a47f29229b8b41060b9ae5880658772ac615f6c48b;
0xac5e68b38810d5343dccc099076b7ac9388c25cd6a2b2d182800156ad18b438;
0x18a7e5e6e2f6d92c409fcf6bc1978d963fa8093bd83667a95f19841f1a826022;
0x1ee76fbde9ff833d860abfe09f44cce584cede5a6a20aa765975764d97c3c38f;
0x29139e18d16666687e950c7f417aca14588356d6737bb72d04444fe31e15c292;
0x2abd9e16b7b48289aa19cdfec726fa3fa15cc1625102ae511bca45f39d337e9d;
0x27ff4617698e6b395ced6d0e40bb327a4dda5467ae001e4ed828713c58e4cf72;
0x1faeaa26b9d4016a7b060a1125b5b83e22174ac6131c860d77c34cf368d4d5fa;
0x116b96192f543b8503130b1bf684a9bf282b41f400aad0041777f741f97d42af;
0x1ace40f357a524887cbc0748e9cc2bd2f968a87ef94468359c48fdd333eaffd1;
0xeb90e74f33e537563c4c2f8633e6d8f8d2304266741ab5b0c0c97a89c4f76b3;
0x15f692b65b0e4a2729d1d07a728029a22e6aaf2d8013a26d80ea2f4ed7230b2d;
0x199c258f1265f41f038d234249d79a9d7cd0f435355f9c9f9d671d12b3d81360;
0x2aa4870dc13bc48b19f3d7ab5df282f855783d5cb1539cf358d235859cc38328;
0x2fa96e08d4613eb78063774846b608be0b7014165df4207b83217229d452336b;
0x1e45df6508abb41b74eef391fe603465e142e7331c1a11e6d1a6dce3b5af459e;
0x157326de3fc278a3ab49527c3bbd66e6944065a068afdab3426acecda2fced3a;
0x13cbb184686e4e800c03d32b9bb0e86322c0547ff70bdcd6b6dd622fe9cf772c;
0x2abd9e16b7b48289aa19cdfec726fa3fa15cc1625102ae511bca45f39d337e9d;
0x2195bf264d78f5905511e946fa2bf8fd1c31e251405f24edc679fdc2e28c4935;
0x2891a04c8c9333c3f86cb9c27db0cd4590b91574f283d98d87588c5329070ff8;
0x25774ca47fb81e980d6024bcb7849e10bf90974712f1c15b3c5e42d48a990b32;
0x19afc1bfca44fab6dd8cf347d13bd9d679a663ab864dd7474c095855a69489aa;
0x2a855f347153503391af5cdd8f33ba84d9b7f330c5d71a3d4d1308aa36ee1f5e;
0x2169a917b5586a2cd1f44fc39acee8a0af21c0b0551fe2823662087b50d3e183;
0x165c3839b46f2b8d9c94cfd1acda9fe4cb4b37b64f7530324e44a859b82c083f;
0x12bf9acf97c5d1b2c23723541455fbfa679d3539879434010843e578fe33ba26;
0x973d4990abd501d246a5bea2b5d467ae07f8f141968bc7049a8d7d100b8d80a;
0x281a0f1018049ce5560aed11919df7e93c341795c9fb1ea17ca7f6e61f56450b;
0x1607dc7766404c513850fdefc9f3e25d2b9f6e90b4f566418fa142b787ba1d2;
0x100010328a776d1e0c53f55c79556f12bee9f2fc908b0b19b215253b91c071af;
0x2abd9e16b7b48289aa19cdfec726fa3fa15cc1625102ae511bca45f39d337e9d;
0xfe6e334c004b36f6a9aa7a1695325b8413cc3a527fd77093960d6da1da678bf;
0x192c7a5566dbab04d61dcfaf9675cc88833477473f0742c7df458dc0c72492f6;
0x16d9f79f4e2e32895e9b7d3a13cba3f9055c22ee00fafaf94cf1a2237279c28b;
0xb3c970c3abc81a5c64df8177d69ce62aaabafe4c797eada6f8724ed59924963;
0x1e3480b6b43165f2e9e98cdc6b1750c9f8552375c746fd9318f6e98dde188146;
0x3ed9978d698020e1627fbde78f83dfd7267a525315d03c27f934a04901d717f;
0x14f962e4f1786884e7ec52bda63442115550a7523e9840ed60e8ce1d97e81c27;
0x352ef9bb93ac53fbf0cad44a4c9f359d8be239da7c8da512c3b8f339f1eb8ca;
0x1d7daf3d516993cdf2ab5199f7fa038ec18b7bc1d7643191dca490734b41162a;
0x19c4fb9c7330292b9859c4471c0558692ef015cbd58c7d6b9f8f6a61701055bf;
0x22261c2ca798dbea2a989b4959a6ce59a327a1a5817ef4d0c99147d79e119d66;
0x1c8a822a7cc949bc91f32624282c0b91835aecebcc805add937f2c33ef2b13e0;
0x2abd9e16b7b48289aa19cdfec726fa3fa15cc1625102ae511bca45f39d337e9d;
0x241eafca2ffd1a89501dfb8ee9f6b91c270d2edfb22b77f5d96b64c074972866;
0x1ebfd44d328c120e25331359b950e96faa3b24d803cfebfc3fbdb5aec7d3f21e;
0x1d45f9e955be39be29b72435e60ccb82ceca4dd1f1bb242ca40461f9966dba18;
0x3e68e982b6f9a1317a8c72d1519c8d992747107cd1647f55cf86f1274921934;
0x24d58310c23fa88e127678cfdadc69ced4344aa62dffda5d17bfb5cc6cf92164;
0x277159e31996dcdb712c9a030b14b40e45704c9debbf6c83381d23b98277564d;
0x3fc9ff00ba6b7b1584eca5fb9bc2479289e05be8f7fae084849424cb08a1412;
0x102731ced3c51f13b9f0c571a0327d5b16984151ac388ae71008e062b103c7ed;
0x2aec624f610d949b7e050f9240bdc67eb00b17980637731a93401129babc51c5;
0x348bd0822fa0e5733e59d37c6c25354a899286210dd11b006b45086b8936e64;
0xf7b4685de34e45e8e884726809202d717000926dc62d3373ecdc8f6d6105a3b;
0x229abf24fc333d2643cf514ec877c3155b9f5d4563975ddefa179e69e728ae0a;
0x2abd9e16b7b48289aa19cdfec726fa3fa15cc1625102ae511bca45f39d337e9d;
0x1e9a882703f9fc17e0b9b0e13c13361beb7f37c04d00ab391d59bff4ea9cc738;
0x18ae81de5d561926c49500b4a1c817e127ff35bd92ef713b8becd8ca934e18ee;
0xf691c4241640871dccc03e386a591c9068711b69e35c618ae8213a7b976b467;
0x1dd3a781963eacb7623f1a53996b79b1c5dbdeef63ba509d264179d7c7c58367;
0xe30b8151c59129f74a868583f2da36f7f32cf07d93a21dcb8a418929a3bab4;
0x176a4a7f6bf803a3b2d7b366d35468d449210f48f31753fb63d4c50a522f04ee;
0x2d0138a0a5f600964d4ba4ce8391caaf610e7b9cb46ece6bac438658e7284606;
0x1208049ec66dd8b35cdd748c6b7e54c3dfd4ce63937a8e5f5d7bb55c70bc3256;
0x1c9f3c36dfe21664afaeb0f1d29166f2896455fe34a3e3a937767a3de6fb92ba;
0x203ca885554ddda35c4ca58ed2150867f677c99a1afa4796fbec4c3ea534b7bb;
0x20e28f5d901c425eb6d48980e9f86b212911fd94de850663e4bc4042cf2fb8e;
0x8eee40dacd3ba8ca8953eb7713bf9c642327bb96f55a7200f7f19851a25147;
0x2abd9e16b7b48289aa19cdfec726fa3fa15cc1625102ae511bca45f39d337e9d;
0x2de2cac04d23e8f84478018e4160a1cf34d66ecd6b4cb8ca67379b0dfed1707d;
0xdee104be28ba9a4493e05d14072223610a77ef655f646a8ec1f254146b0739d;
0x198546db1f9b3073c570cf4937bd3d716336b8267aeffda95debaad2764c91b0;
0x2df10c785477ccf2aad54873a099f7a5245b7a1797d4b7692df35a01a4265e0c;
0x38e6b803b72b22d07f3c4d4da85d583d1952dabe6f4cbfad8ae16ffe5aaed55;
0x20ff66ad9f9056e8a0c513785f7f1aa1ad0b53ee305429c5d299ecb3b7d3ff95;
0x2662e4ce6ef014cf95ae1041e8ee8f25eb02d188a234bdbcff2a4fdcd222fa0e;
0x174299b27d180d0ac59e31ffb101a68ebee5b5e17e8ee251b61cdc2d73b5d96b;
0x2cd73c6ce46c664bab760c4d73a7f05132e1ddfc0ec113e9b37f9144f7a1a24a;
0x1c951a5015ebe45893a92af1b5b51688298fbbba474875f7b9bf97faaa69cdfb;
0x1292a82ec348fc639f61c1b9d4f48e1a729f8e4d297289c45deb9d79245a7c6a;
0xa0eb1649895b7028e7b286f147cd47655fd9380ad96b12f25d4d50134f1b624;
0x2abd9e16b7b48289aa19cdfec726fa3fa15cc1625102ae511bca45f39d337e9d;
0x153879267fe585e41277a47095c2e71a556aecc89b880549a3e6598a2b679888;
0x20564715ed17601ede44b0ddeaab78c07b24d7c384b2a278ae5902ae4d53ac21;
0x244a763e10b0ebfdea4ad6e115bfc6294ab8592515a0f103750f23ff4745d4bb;
0x2313de5d350a08f83a06f60301627b52170678ec4089d95e31a85ce639d4d3fa;
0x2f61c7a357564272a6c31f1d4a2c37d68f947ebae5ef06f0003f47baaf8b2551;
0x2ba56182022bfcaa94b28c4bac74fd7bab368e2f17b123aca7cad3c07377ba7d;
0x903e97b86b03d63bda9d015cfac4e1df0c7eb553114d6603e1d9cc6def5a2bf;
0x17ef136a59507887ee376c9d03155d5638f73695829bdf753f2027c93f6e0ff4;
0xd2cf9780d3b8665f07b485f9b61c97ad43523b52b89a216175fb479596b429c;
0x2cb10c6713c9c041f988e1d16e1974db3bbf64fa6a0dd716654d2f3d7ee3fa08;
0x2a7fac0f7cce1677e53465203478eb2a87f4a5acfd0ac6b10b24261967f265c1;
0x150f1a3251ea142ce9c8863adadf908f98b6f4eca4fa8c7f60834ebda805efce;
0x2abd9e16b7b48289aa19cdfec726fa3fa15cc1625102ae511bca45f39d337e9d;
0x1f5f9f0a9e7226242aba685459ba2d087305dbcd15238e0d61537fbcb4e8ea54;
0xfec778388bd29f1fdc01719aa2acfbbd07873a4c628caadf04ed461a49b5730;
0x8fbb80d8ad67e52030c52512f3947eb0fa257e7a6bc97dbc18848ed6843fdb0;
0x220ae6fc4a1411f922a67c3d2191d16fa72e4485881f5c44d07ad1b30ff72534;
0xc24db144fed773dbf4a285f6b292f097e73c4210b64f60d0471099526125207;
0x153e33da5f9393fb14de5f8d9ff25fec63f9c284563c9b75485b8c5965716022;
0x28190eec890ed4fb51176a21643ca8bf8a4c6d1ddcdfbda70baee9842e771e0d;
0xd352d314f8a649bedac97ade9cbe51cbb4c1d76124bcb753ff46124ae2c671f;
0x589454222f880ff67b3b6771ac9579115ef98b4a5291ad1f466c37df59f7a0c;
0x707968b36327eb7bf42d881932225d1e6a9cbae3e9a9eb1a3573575b081525f;
0x24d15b907584822d94ed3cfb07644a1d9cf985b94ac08fbabbbf5070ca3ba2cf;
0x2d51c48b63d97625628fc1a9c265a29f4b5ac1a1d0ba807f3f1d6a729e8d0d7;
0x2abd9e16b7b48289aa19cdfec726fa3fa15cc1625102ae511bca45f39d337e9d;
0xc5d3e1681af8c731635a66d82e8ffa52d6fe9ae4551c31d9ce5c7e9f1482f3c;
0x19f573c7bbaf4af57ab119d9c34a976c7a2770e9960f8324bf938e67a40bb621;
0xdd53d93a158832a63ae02346cfb050f4aabd93d2c376a694322b70020af739a;
0x122168471be451e1fe2383a1a82795668084d4602e136c3533156ae4eb44e5fe;
0x181171e6af7921e268f8e4ca02a69df02f99e374f086433e2d8438465b878fa4;
0x20fde424afb171516bdba5aba1302f3c40adbc6df6009941ce0978e1005f1570;
0xc999a3c07697cd6e4632110862a0e3cd6f2ae7ead5a0c62f83e57e3752726ac;
0x181e43350d64b75df7c57808060a8a467304a9b10766426597fb485016642d1c;
0x22f941438fb638d0f6e1013d81672149e91bdd794816a149426830a140ba5520;
0x27bc96df0a03fa540349df2a46633309b8e0d2935a624c7aa51cd859373b1d3a;
0xda6574a31cb0b010480dfb6ad33015708e71c420b8f3664186876afb8b48b69;
0x2a932da3d493f5d229a00f18bdc6b13a00783ef10510ef02d3836a9728e75653;
0x2abd9e16b7b48289aa19cdfec726fa3fa15cc1625102ae511bca45f39d337e9d;
0x1aa840ec7905fbed4b22675c84cbd527218db6bdd21e9558fef98860bc337607;
0x2c5107353c0edc8e05ad36b277477c9d3ab2d26fd43dd2252878ca814c48459d;
0x1aced21cae771d0294a1630be67579d81245093d2731898a72b822f8185ef3f8;
0x1a24a7fa4d6d5498af1df2f86ca66471a340c4747a1e24f592aa7667346aaa8;
0x289caf37dc4c64fd8c66718013fc3f1492b3c76cd1ca713196aef3d95281e3a9;
0x284c43505df8fa7ddd6f9ea7464f3caca8a3b3b55d39512a38b2f37b7437802;
0x501489e7c91a13086c850a7174848dd37bcb7e6a2f8571ca3086415e22a249a;
0x1d911e709cba9411cf221392b1d8e8f292d3895e5cf250977f7bdf724637e7a5;
0x26ec755542bd45c2c4968fcc98192cac25bb539cfecb7c16c926edfebc0dd4a9;
0x211b3d812f9687467d623861909909e8a579e66c135d0ad0d36038116e858ceb;
0x1835f5c44c7bec7bff1c814c38d109572702ee85860c2977650db910dd555db5;
0x22bb08010cdd744ace85c758c58576d6b353ca6326e9de8ca594c57b40a76b48;
0x2abd9e16b7b48289aa19cdfec726fa3fa15cc1625102ae511bca45f39d337e9d;
0x178bdbd863dfd248db7cc60881b17996fa8cb0f5a806ba37e818d493dd4d04d5;
0x2c2feebc25c3e9911fbcd7c77ddfc8feda0e36b3045e86059eb2507db84b20dc;
0x1d8f0924e2fe93b786ea1ca32cd7dd268097e1144e5f386813e40d7de6385414;
0x1d7b4297d5b583bc00d946ea2d45e79bca3b869f3889a3ef8b6986ee80515603;
0x6b29e8a6cd82571306523e57a88ae2f1c627688af6a57ab4adec48071d864ad;
0x23f708026a0738512248c05a5a51dc0f0b64cbd50c98f2c001301a8dada15649;
0xfb9b67606d1b70a59afef99cc15b51ccdacd8ac412858e37fd0a5b685aa1187;
0x2e507b8087200a7b14d7c84650e5683ef78d7e5281b489d43524206ced314cd2;
0x1bec098d210e06aa6b800469725bb7d361da8f106e3df06fd5788b3b423bfecf;
0x6ef2b78454ee5f43388a7ea4728996fcacb8c01c644534fa590de1da8642172;
0xd5662f25569baaa0b10d66142378f0ff302a3654da318bfa370812bad2a66fc;
0x2bf77b6c0aa149a79c695d67d64005c90e926b44890085b3fe631b4a8da64760;
0x2abd9e16b7b48289aa19cdfec726fa3fa15cc1625102ae511bca45f39d337e9d;
0x1bd8975c90ca4e356f1c37f12fcec0ef5ecf484736f375f78566ba8aa9e86427;
0x2bebb46043c675d8d4b13e9d3c243f49da64640954fd5e194022c846d69cdd69;
0x1fb7e54c00e38234348206b136e17db48743a1e8833a4146f905113960314be1;
0xfa50d544f0434df48d3dfdcfdd164b9ebd8e57d7a60be66b879294a40a9c396;
0x283ea6139b65326666af04d9913f3200f9b93067867be1f2431796e9add5bdac;
0x758ac2a306bb32c1030578921fe09a5d40d83d968ec10aad31a15a7c56da8b4;
0xf413088d4106e8a46bf7cba046d1f47b7f8a741400768835d853830ea00ef3a;
0x466358069d58f4786b2ca782dc4f7a6786fce88983fcf9275b9a5850f814f28;
0x1385f23802d6bee8b76743564dd5510ed1200f094ae6c16f03ff8b4cefa07047;
0x108072d197cc79b4188436a0c50845d245ccbfd1480a4882af2cc88351d5419e;
0xb6d297f7ec667c68d5d7ff7aef48259dde62daeac24b7868e0fad90ab3f3a79;
0xc82418faf403bde8e551554f4c8be945cfcd1f78615c9525d3c607930b0aba9;
0x2abd9e16b7b48289aa19cdfec726fa3fa15cc1625102ae511bca45f39d337e9d;
0x297b1a1c6fb19a9f0490226d23936796caa8c47a390ce5e3414d91243adffdf5;
0x1d8de05dd33fb6513962f6bf1406d3da402064e2d32000dcfba1aae1d39a2d97;
0x19ac0a18a29761fe4968baa2f8d4d4d7a8d241c5fc5cb54a13997873a4bf8f0d;
0x13009a2e1be50b353babfbfa0c9fc48341125c9028a93d99b16c31835e2191cd;
0xd660995842ce191476ad064a5599e2c5415f48ce57392e66e671a503a30b119;
0xe5587ae4cfd416edf434a263c9babb45d793a1b522fc96e7845005f516944b;
0x10fbbc420434916261f6ce95d1ca7497b8237143757089de2c813388acc3070d;
0x190d15507748b38ec5d8d96cbb40cbccd3cd004f1f500f3a8fdf9d9dd05cffc8;
0x70e81c5cf9512b85087fec4b044bcacdf0ebc36939e0e33f12095929b153fa7;
0x20577171accc171de1282cef827a5b3f7620c29566598066037947da13dc09fc;
0x105c02eabf359c9fb180c1112e560bc894bc2c453941f29e1b52c28c0d8c6c31;
0x701986232b2471f9bb70c70941f0732c59b9d1c1d7acd7df2b5c9a3d1063397;
0x2abd9e16b7b48289aa19cdfec726fa3fa15cc1625102ae511bca45f39d337e9d;
0xbd0cfaeacb5343bc71818eec4baa3eb1f73e5ccdf4d4fb1e585b9326794d8ec;
0xab6ce9fe9ad13beeeedb535f9cc7bdd51a9edd426a54a9b85b6f23911dbcb8e;
0x20f5023d1e52fefee124ab42f5eb28a0c18cea887e3a0bb7c4626ee694946984;
0x180f0ee72343b33cd7098990a9bf33abb509d454700f602d23067f031a314ab2;
0x9e006f3e85886370bc11a2c92d6b1905da2e1d7389fbbfa8ce2b0c3797b3204;
0xcd828a1733f7fe84eb56482b0c373b7bf9ffee9c70933a70782c46104a7abef;
0x14ae5043d94b8f236d770e5435d370e07be470537fa8734aa62453ef2dba83ef;
0xcfc46dedc8f1535ceabc7507cb5bc7dc27a44b69eb8d799ea037b9dc0cb49bf;
0x13d10cd39447e65f03bcc27657ce46b8f4b9f0d6d0d9052eaa700aaac4e56204;
0x1d19d4106503a113839685de852f7dfa1ccd2131552e18f9e62799bfdbd394e;
0x1c1e57d62f76f88539ab7fd73bd7577c358aac8bfdbe0c0953cceccef55b1c7c;
0x19f2dac762392328c37a5a54d4cb980383918297078ca2fccf8605c52f36ee48;
0x2abd9e16b7b48289aa19cdfec726fa3fa15cc1625102ae511bca45f39d337e9d;
0x11104096d51f11f8db806853a470e1f2838eec2abef570a01a7bc833a27526f3;
0x203846151d74394d322ecefd82202cb29361192fc6692f8de4c0788e5364bff3;
0x2a3214dc89d8794cc308f0b2fed1240426e9095879935f4889f7bce9b06d1223;
0x296caa3afab57aff0ceac16ecf05b6887ae6981c263b60b49eaadbbdf5332a76;
0x2ca633b28c1343b7c3ca88c3b6f4f9da113daa93280626e98b3c79d6932d3932;
0x2c62732b69393a4495154205a9b636650a201271da60b65433419ae8f4543f2c;
0x54a20f1bce174b2063f5581a86913d9edb5b6b30de76348a881f320afcd4c0d;
0x12dbc8f4c166edc2716c576248af681b69ed94ffa1e5b3b48459c9787ce39569;
0x13d733d018ed7c6f4a1e471d7b8a6f36047ac9ca93167d7f0aa674f1704fe7b4;
0x2baa1b752a095c0d7552dfb65cf2f568b47a132ffd5000cba2720ba8ac4c18a1;
0xdc97cfacd4771b400ba35d33cbebba737c70e84f07d0ca37dba093a2460c944;
0x2eb71ba2764a7250281b7d3506deaf0416593ec3428df1a9fe2312e66541f31b;
0x2abd9e16b7b48289aa19cdfec726fa3fa15cc1625102ae511bca45f39d337e9d;
0x24a6b2f63282ecf9be0988f99d0b11798ca33f2c8bcc4e5669bc7a256ab3594b;
0x13b074b54de58e9fa17ce6356d3a6da3d800419d9a7170e3bb1310daa4f4f96e;
0x2711023ae2f03c0399399775a8ca018e7b91e50fb4c7529bbb09d5cc88dc9d90;
0x9fbf1f0c9fc28e92f2040fb7b132373a55bdef07f9009c3aefd13ee0f7b369a;
0x2b5a1ba0a4702083424b045869aff8680388290f4b164cc2f022b16eb0e96e58;
0x1292c762ad6a3abd75f5ead608b8f2f90f8c528b772a42d750cd244d74db2e86;
0x99282d849ffac983bc6cd99827a1d368dec42e7fbbedfb56a6947854f4177b3;
0x176eac7dd262c43fff3d935c0c11db3d23b0542a6e5e07502dbcea633ae43106;
0xfaa232a1d0ceb281c3a428f3e67aafe0fb1a27fbd58c89b3143f486dde5db27;
0x20cca8c39156be9d3b7f3caa041af52ea538f3ec173cccc0b3497aa068b8e1a3;
0x146799bee14e96cb93165e30306e78be322d11b4ff008af316286989d648ebd4;
0x2b1d7a8ffc222693ea0d5398028d6042bcbfbce6894aae6c79c02d3398fe43f0;
0x2abd9e16b7b48289aa19cdfec726fa3fa15cc1625102ae511bca45f39d337e9d;
0x13a158f9d67d4b35e8187f741513e818c32a15e9ce3d7ad17e5e0ff76861073b;
0x2b64a21d911a768ed8f424092d85badea0a141699d41bb31b44d05ca7677f622;
0x6721fc051436a604df0acd76947426dd9464034c79d02f434ebeae270b8f113;
0x1ffeeeae4f5475d7b8cfb723d7daed094e18949532bb7f47635ea7290d27b75b;
0x94d465c413d8f36b86f1a1d2cf263ec81a2588fe3784ad6c7e7abecb2e59853;
0x205f5fdead5ce83dc8000b0320741d41c9d2c729ff5a7f0cf8acc2c875cd3257;
0x1978d9908c11cde5f456e20e6ebbecb4d06fcd7e31e5e70ac0efabc721aa8a8f;
0xdb51092fb5654d04e24dbca267fbaee53776bde616f4f87975b9759cd833207;
0xa93c02bfdbe4c17a20506b1a5c56caf375aec6dee3b0b2a0884a48b104c00ca;
0x26d4bd0047fbd72369c8f4834ed8144c5ff28a42ae16b56818b842b9b4d6b9dc;
0x17c89c980d214a12738a2939cc7fc425406aed9be9a932e0c427991610c0cf73;
0x49a23ee91a6c076fe5b135cb6f92a8081c604adcc21c8d6456332de80420263;
0x2abd9e16b7b48289aa19cdfec726fa3fa15cc1625102ae511bca45f39d337e9d;
0x13f9655a5f1532244d4e030e782ca3f9d236f8d302af289b9c0a946376b45f3f;
0x271d8aee48a5a8dc6bdbf29a491b31f24c71e023554a92693eaf0bc68a6f0272;
0x250f4bf66572c4d089c73f90e1ffed7638ae0f926523295891cf7c765abcc0e6;
0x155c20d00e84b634d4884c42359c91df2fbe1de2f75006677041c0e70bc23acc;
0x14c2c6a209a7bc6aa6d978fb994d95646613ae8e6b0e0e5f5cc8f5707766c7b7;
0xf12be26119ede0fddb6393af22db838f258136f2031fdd223dcd8e1bea243d9;
0x2efdb0edc82b4dce032308b04745dd1f1fbbbb5640bf28b188031e0cb2e1c1dd;
0x1ff34842585b84d2bb8c9151b3f6c65f48b84a4e34b07f60192c13a6ce08a7d4;
0x2d9fc37d4a22c1f195838803941d2f629e69eeefc566990919974d8e7aa968bb;
0x21b778120c0eb0974971f5a24e29c204042f8b50a61b785b7611b8c0ecc6bd8c;
0x1fd36ff9b7adcf1b3cfa6ab317bdfe9115683da95b29f84c4e113fa6e55c6b90;
0x151cf47cc2e82f3eea09b8d6aa86037caafdd0cd43a85ecf5fc3d314380e99d8;
0x2abd9e16b7b48289aa19cdfec726fa3fa15cc1625102ae511bca45f39d337e9d;
0x19c8e29952ab4d0984bf1da922e2448fa9910c0123a999a592dcb473f296564e;
0x23331f65cf68a733b5e8142daf41bb2cbc40b2c334b78820e92852637f1e87ab;
0x2a7f938a6cdc65be6c071c8807ff6df4c48a36bfbd92f55fd06c057a48bc8aff;
0x2c121d40b94585543cbb38980aa3e320f5bb460d165fed90e367f2799cc1e8ad;
0x2082427ee8b6508762d08df82f8449c47d4b4b117165ff4fa1ff944d63b74d7f;
0xbbf36473715a6bfeb2bd46b4650b2e48b4fabb9059c1d41675fa76d880edf08;
0xfcc45095ed5a36166ce4033e91caa2446d9594905b652b7b56bfcbe7fe03ff6;
0x270c8e9de025f4460363730d789c1f3dedea3343457841db516e129b670c25ad;
0x1e9cfb5b0f1dfd2465ef5d2731a8d5d26b5479cc6b6e438783231e5b0e805faf;
0x1884f4ef9e723cc405fe49803473ebda5080731b4878e1d3a5108fb20896d14b;
0x182b8932fba285b925b7454327ae2a1aef739b088bfb47dcd675730bd1aafe4f;
0x222f2075bf57fc059a247d5e733b3828fec1aac68509a2c0e4a8ca1fdada90fc;
0x2abd9e16b7b48289aa19cdfec726fa3fa15cc1625102ae511bca45f39d337e9d;
0xef4c76e42df7e6d4e71b536872ef6816d62d64c06322bdaac4aae65ce6d59fe;
0x4e28c59213cc28cfb7b21091bc98169875e4488188b70a385197588025ac778;
0x2d69c1a48c1be2b798dd77218a0653f7bec46bdefb7f55cde3e6d28f56527260;
0x198d2bf44196f81d74761554f80cc169eae8e817f44ecb588bc64f6277f1d625;
0x13c8bbb561fe1109612865ee008786c5d50158e42d9e91b6f52b02508b67874d;
0x1eb37605af262ce36884c03967bfc38d8f625e080c7bbeb4bfca07e25458d12e;
0x25cd986975f4cb765e4a8f17706cc4438675bf8ab7b110470d88dea1a64f66ad;
0x71d02268b089992a8d62240d94fe171bee083b1a2d9bbefce3cc7c8cff5a577;
0x12ee53cf69c9a0be3be3de51789d16cbef35961c6114e4b01244d814a5ced3a0;
0x94acc645dc2e6929022f4b4b946e8f51ac595fb3200074cde24b86643bbfc43;
0x22af41b2a54ccf55b3030b344dbc82eb8499ca8c67c191d4b6873bcdb7639f9d;
0x14c87352fe94d929e26aeedc2421c5812b7fbbcb00a7b20a79877ee086416778;
0x2abd9e16b7b48289aa19cdfec726fa3fa15cc1625102ae511bca45f39d337e9d;
0x21cdd152af751112267ca585f98b2abd9bf78eae7bc404dfd9e8d34010af7c3e;
0x20d39dbb9c5188640b6f30abed60efa7c61433e6ffeeaf7cd73bbd2d713f55b9;
0x2642c98bb9bcf76eb3b6e3f86c309b400e79071f12bf462c19fc612a89722b65;
0x2c2562c294b65505f0ffb6476def69c03e6d1324fd2ed7319368a61c7fc672d7;
0x265a567985ea221426328919c3ec1bccf462516e6525bee01d1d810c172e88e2;
0x7fe7a2e56090a75757a54a27a15711c9b7b3451536b61e6a5519a3a073a5a9e;
0xea63f1b7258831a4f087c53827988f0a5033170186619e513ad470ac9691088;
0x1d0082b1e2aba35d77b41e3fca46a4526360eae2d1d49d7be6a4498f315be6c8;
0x17c7b18d8e5324867653d44a765f34f6653a43d2795b040900a2e0b4c03baf2c;
0x29e0ca8dc73ca2f25b4dd5c756bf5316b25be6c0811e62c2f4437fdb9a7e278b;
0x1f1e7e26201e619629f66ae5a3c2e09acde700436c22b1ff505280a62db0e242;
0x2fbd789305950579f702ba8777534c2708028a7845173f13e187752cdc5d98c4;
0x2abd9e16b7b48289aa19cdfec726fa3fa15cc1625102ae511bca45f39d337e9d;
0x2a88c6c0393f56fa63e8e340f708efaf40ac4b85b2ee681d39ee1aa0dfe396e5;
0x20a321497aa9e78f16a5957492e3ea0428d22442056649de52d115b1c73b1079;
0x1f00d5da2a0498a2c1341f1698df1a0780c5169111a7b02fef79b0faf32d6498;
0x15f194a187cba501891864984a6f52cfa2d4bc63ba2a35f61489c70cd651e9b9;
0x5cd85fe0fc0c75c027f4e3f1bc62872153988eaa0b2ca20b0cb5e7fa3a687e8;
0x1ed21eaf16b3d661b44df4003cb3636184353d25def19bb04baca933a3142e78;
0x2b37b5e88cca20d2bb43f1718091b40fc1ab0ea7350f77a5a0ce905708bcf2df;
0x232c7f2de11cfe7ee3c4dc933a0bd034b32c9979b48e2ca966c6a6cbceb82ffc;
0x974bb70523301360dc181faffa4a31da9c89a158d446cf9f1d0dd078d681a5e;
0x6231c17adcde68b2df5512d5137e4207b5ab127b989e551710a7cc87562fe8f;
0x2694daf5d67e6751c38511d595f6ab520ca299dc52eea4783a1c6fbaf85e843a;
0x2eb55960ecababf455a49b9ea9db9801a47ff818217381b791b546b262df5836;
0x2abd9e16b7b48289aa19cdfec726fa3fa15cc1625102ae511bca45f39d337e9d;
0x2e375ca4dd0623584c0be2078652c7e0f1999eaf84f80e86f6161d129ce76f8;
0x206f7162f5d7700b7cce6981f0748ba08695dcfa544eb1a903207220febabc67;
0x176a8b69b12a5a3269ee7ef982044b9895baaeb85938900d7ef35a89f93b879c;
0xc58b1d3319260e528cc712e2f2a6c606d711cca0b2856a30f2ebbe57d5fc733;
0x19b13e16ddad7823e970721ebfc7e4a7c6563a7e3d92de2135873e0e60e750a;
0xa4e8fd444448adda180b0c6a3ffd32026f0644911a7f4ff85797d7e834fb383;
0x18be2ac266e3d98839e5efaf7ef5f17abdfd6b6fc729e1f18d834e9a383bab83;
0xc56583074bd6c3a67fddc94f840cf7b97b35256e00a647bdd7f992e731eb61e;
0x28ab1c80f8d8221dccd8818785b995aaff05e17d4fd8f55664b3729715f67715;
0xb886b2ff06d6d3db570b2060a95b75e3a085d74c6ed9dd8c4f96065ab77c5b0;
0x841d7473d45e77983a689c8bf384015f323838d32fe65cb9991784db323e25d;
0x1c1ee3b1346ad2c298b7ae7d837d8cf98af1cfb7a2af5e1d06f0c9a826ab1bc8;
0x2abd9e16b7b48289aa19cdfec726fa3fa15cc1625102ae511bca45f39d337e9d;
0x11e7a68f1defb47369a757ad1d47eac4fd12ec54eaa4c2f3a84e2b97e56697f6;
0x2386b42cc098f278197163ea21b9f6758c7bf1e8a97fc99d0d48b329c908698b;
0x2d1e8f11167a3889b194c794e8566bb92d1c622807fc519445bb09a92c10d11b;
0x1e998707bd13625c95c9599bae3261e67f2d517f78805aa50356b8a5e6792427;
0x1c6b72fa7c47168bc0c13b70af218b5f37ed9977f1903c64c6b0317cd1b5f738;
0x2f50f79c2c896a12658ba1449023f04c4dba2c68e327ee5796e83b6cc7bc7218;
0x4b15dbc180b8634691f763a02187916b21f6a9b230302cdb226c9c20b1f56bf;
0x23c08c77cc0ed597c537ad1232524e7f9cde922aa3b9acb7a8e0eecb3f09dca3;
0x246b55cb9b404e710f5430129208fd2f7d1c3b71b8d5d1a3c954ca326fd3e7e0;
0x2a3c7dcb7f8fa6097e5c00f781f27f884c76c6b7ae85bd0a71ce537fd50388d8;
0x268e6eb795786ecaaf037752d214a2422ead74f48d800ed7f14f4b174c53f76d;
0x5ac3952618af339466cb8428c30acfd937e76257609d299f1346d72f87ed82c;
0x2abd9e16b7b48289aa19cdfec726fa3fa15cc1625102ae511bca45f39d337e9d;
0x1b2b7aacc25b941e4a03f085a09a773154f908b9e5c2d20d3f67779ca448896;
0x22cdca81e323db126eedc2d331697df5f2157d052ec4f66e69c17307bdd15692;
0x267f9661ee6cfaed2fd4e4c8140c3e168d16232fb26a3c2a2517b6a4899dc512;
0x10ce863d93a47aa85b421e17c96dd0b05510418e41c576b331770a10bd4d0baa;
0xe26a35e642d56208bc813191e7980bc9b8cf0044ca564b4ff7d92f4a0410942;
0x230f6e95f170836c89332e68f4522dc26f56be6fb7079958cb175770aac34fe8;
0x1838b36fd6f0d488d9d7029a50a8520511aea9750ba69c8a7f08c711ac5f9ca9;
0x4f19bf00ae88b7c9ea78742fff7593867760fad46d653ea407726b452cdc403;
0x133619fd5268a1c03b2486e0a7a1ab4e8b83eb2540c2b9f02159c3e487d19602;
0xd6268401cc2509a633dce917407f9a1b569c6f9e56063022183e4be7651a006;
0x365d7940e1c53edea08251eef9a5529c9337a408926ce27f35d56389f2d0d63;
0x125f88039ff7e0df7f265d09018809058d3e38c77907985c4c87c75d8a76f515;
0x2abd9e16b7b48289aa19cdfec726fa3fa15cc1625102ae511bca45f39d337e9d;
0xfa21fe3e0314d2e7486a95e6feef8d81fd5fd1b6e34a456054787fd85453e68;
0x2951984c7afbd03db22245a37d1df055eb109e4ac7344127f2c35dcfbed8e73b;
0x156bf5310e6b76a3cc65f74c58593ff14ab052dd9d0fc09abeeb4a95fdf0de19;
0x774fe420c3ab105f6dfbb8eb0cc6ed4f5a13299cbcbfa9a6e20d01ca5f834eb;
0x13a7f1f4fa81d9e5e24d6236110fd39528fd3c216f0dc86a0c79b2c438470649;
0x1019d2e8646ed7feedcfc77169f5e9fc2dd718dace5f6f8b9a67637d933a3041;
0xc63653fc5eef7c50cde7d0c3856f90e2b0e0fcc9c5b16fcddd1e9740faf9b00;
0x1343f7e28ede90c999f7312542d0fc39d1bc0d3c656440b6e170a6f3bc35b0f5;
0x1bccca2bd0880591b20d5501ca0e4134c926c5d0d97bc70da24c4c70dcc61702;
0x227006078f001421d3488f1bec3e70a69d8a51480ee878cfcfa26a8caafe9adb;
0x2badd9b9334957d41b28808cceebe3e3c55807bbf4e7d1997d8b7a71121704b6;
0x15fca0d19035e164f8fecb36822f26b07efe12ffb2d831c48e5ea9cc8258b755;
0x2abd9e16b7b48289aa19cdfec726fa3fa15cc1625102ae511bca45f39d337e9d;
0x2316c328984e3a8d25f2a26fa5c8d29f762f70b66fd648c7df1248c6edebcdd8;
0x14f86a4483471960a505e400b9adb874961582c40ad4f306ee61ca15f769db60;
0x22448cc6b58101c266b94849c276c0b469f440cc5699098228fe293a3e15613a;
0x9e98ce02891c97faf65620ce63a9279fc5c0ac4b7ad0073a03b8ae8951620ab;
0x3d80d14e85f09ebe6840f5ac4f467568686cfc56acef42550d8d8c33677bf3a;
0x3d857a698a64801730b3c11467d17cb8568fdb626cbdcd5a5586912e558c022;
0x1793c7b3f75f911d0c7f4c64b74e7a1d344a52438774d42922a245fd55cf10e6;
0xeefda98fc56b0b2f2467ab429a8e513b5d4ffca2b9355de8b8ef645b14732a6;
0xb7efc4302f68263ac68294dc896062831725e4bdb1d2a6e8da2572aa4ff8471;
0x2c4b370a050627bca60b267ee3154f0706975b6cd9df0fb5be76162dccd293c2;
0x14b35f50c4e9103a3452cdc68fd4db02677bfe9dcc9d7619ef62197878176588;
0x2e598155fa34aca3ecb0e66e290d99b9aa080539f461e9734bbace8c72bf2c60;
0x2abd9e16b7b48289aa19cdfec726fa3fa15cc1625102ae511bca45f39d337e9d;
0x2f83ce87bde779865b4ccc5eff39d9bd2e8bd0ecc9c2cdea49ec7472976d923d;
0x933a19319eea25c52f096207f6d8a2ea91fa531291fcf80436ae6ebb2ada32e;
0x263439a31e513a82bd9fc8ce9e074df4e27e59683382019b7679cabe55618338;
0x1584ecbb64a4db8dd2d5c4608ed26bda0e0c38c1130b28cc6c1b4308dcf40e44;
0x49e790446ad72623caef9bc50395299d0221c2781686a04415190f52b5143a3;
0x10b37775f18ed958dc5dae40b445b28b2c4413b5ffd672491334bc73470274b0;
0x24701d4ce3d32060677e07f1267d9f7e55d4332b56379700ccf64ee9d57d1e11;
0x202b8fb221cdec4a092a035d4e454528eaf0b319d671e60a063f4c0724cd8c15;
0x1d43768bfae552891485d63ce8e1c3eed865af9e608b31a925f4a31a98675866;
0x32b94736117256d76b6f85a01f3aff1e4d954eaabc9a367b61ca0d8bbd42c37;
0x3231b4434df84936a826b7667aa33f161a86607219730bd78142eba4bea0dd4;
0xf45de5ea90165e3da111af4a7775204d4ac83dbabe4eac41abf318487b1e996;
0x2abd9e16b7b48289aa19cdfec726fa3fa15cc1625102ae511bca45f39d337e9d;
0x2ca2db65ad224b51a8b24e8042cdb875693897fd5503bc751d888f695d9607ec;
0x44928f5528543c7f450eba9d4cb5db7e58b8081b98c7f752162303a16af1ed3;
0x2733260b5780a3db7cb63e4fc82386491a217d4312c7a93e54707894e3b20da3;
0x24f726fb193e627cb10dee649b4e3e2242b94a2524974242835db3e96befff11;
0x1e38f6d8f6306aeade802545000b3da45ab90c9bfd2405dbc765d184b91df08;
0x8ad1a8e37ea4e152a07cd69de6b60e41de49ad1047fad9194aa32849052b8e5;
0x235d4b4258dc982dad9cb9a47a963088a59fae5f730093f1e9ce387abe83765c;
0x2b01da9199fa4220f95e00c98cac996d65113f5af19912cb331c53f9c52334fb;
0x1eda45b7f8edf24cacd398e7444437e30670bbde613facb9f1e4676b0d3f3d32;
0x119f815c307628877d5e222bbbbfec68834f7b1338bfa7688adaf8c6e8c132a8;
0x5f96bf0532d7b9065530d4777fa98b0410e5566b6b048b85cae029cb0e497e7;
0x340a6c3788a26e7492b9d20754d96aa10ec846f07aed7cca49f234d45988d63;
0x2abd9e16b7b48289aa19cdfec726fa3fa15cc1625102ae511bca45f39d337e9d;
0x2515fb66f81792d13ff8bbdd5c038ae895a028fd5527645f96496ac910d44e03;
0x18dee821d0ad52dd6641fa0289b4ca755a70a603c6bfa5bd491ec55ba7af13e2;
0x3015c688b294a9657c6ca12c65b33865b1b79556838bbe3f4bc1af83c1e1cc8d;
0x14fd24e81aa0eed88a08b4ca95c08addbe4ee861d173dce5289aa6897d828128;
0x19d02cb7110cd61dc1991b925320208985e0f64fa145d3017537470c77813deb;
0x496cc3972bd13c9f0dd2715a9cc66b770699b0832a8248334ff5d213c5a7b12;
0x528b341e3531d9d48b0a65c5d6316d2fd21cd8801adfbf0050e0cf6f0f74553;
0x388cd95cf4d04968d3443ceadc7fa242abaf4eca59961cf3c850efb1319a4de;
0x1e6588c7ee49bb4547504a62550304ed4d3e5affa5ac8f08b8c0cd0eec44dd46;
0x23d611ae14db5a2638609c8212d29f327ce0956038039f270efe1a10537363fb;
0x2b86d928a54b3f7c987dcf5ae89d7de994331f200381dd09d12ecb846a7a9b12;
0x13055b796975dbbe1e5a913a59c11ae296ab60bbe64202c15d4d6108d086f462;
0x2abd9e16b7b48289aa19cdfec726fa3fa15cc1625102ae511bca45f39d337e9d;
0x14f38d1ffa510f2b0332476733f9fc5c79df981b55acea4a8f0e3b4cc61dd759;
0x1f312d4d6d9a3ca368e3dc8912bab32366d7204bd0fbdd3ebc577d3f26bc407c;
0xd0f712e8570585e196ca13e8b1f1a2c963063f27d62427af9eaf6aad438e723;
0x2dcbc4e8492001dd99dd80175771d5bdbb308436faa08e39f19b4dc21828c131;
0xbbfd5086b33a2f0e5afd9be44f7ee3267d62833ae3019938c440d756a24588a;
0x2e11c7002202decd43434c9730452b8ecfb543cd892429fc88db33c63c404387;
0xa04ca0b4eb3a67bf9f7b699b179d0339883792d4bf4800802aea15318b7c0d0;
0x19004be334dd838c3cfec0528bfb1f91db2d10d7d3d3454a5cf35b7f431d9f99;
0xf0db552b704894427ab3ada1a9eb881506e592325b73d7ca4bd04002efbc259;
0x1a1e713b1af5f35ab4fa7f9bfa19b0980ee21821afd1ab3445352cf784b8d27f;
0x179f8e92246a7a24d55045b43b515200227c4be9e0087db3654a34db445d89f0;
0xdf566626948128c150102e68c71e6cc60d52112b96993a1d15c43f2aa2d0d5f;
0x2abd9e16b7b48289aa19cdfec726fa3fa15cc1625102ae511bca45f39d337e9d;
0x242d3b170212915d835e974b8f24c64c866611832cdf59aea0f9e9269dd8f615;
0x780ab3cb7bf3cfe1cb4fd742ef1dea1daf725d4505f481c9089f9a6a1aadb10;
0x224f1cd253223cd87977be41be77930bf651ac744d3b362b302fa36ed0f6c37f;
0x4637e287df2d94786d07580a457013d8d54a6c31418d3f3ed4cfc582ef57154;
0x2d703aad67bdcfc9855e65f429a8120ea93da66d877ebeca1ac3b1538f2dd96f;
0x11c9e9aec8fb7bdabbf3696cdd441207e1749e0d8fdfb21535ef940f68e904e7;
0x2be2aaa990f638dcd8bed18d9b76465b1f326abcde1ac1f3bb907b34c6029c27;
0x16a6ff3478e400876366dcf2c41671f4ca6cae21bc985f0493b4cea2948e83fa;
0x2d5c1ad3358720b486ff21f6ec096377f8564a544f54db36e9fcb540933022f5;
0x2706883c34903b26fc209d59a13cf12ea7513995f226c80e6eb8fb69ae20bc67;
0x1c0cfdb4290fbc3c53be1bed2a7e271ed1ba5aa5f372adf67132a8e53d2cda28;
0x5d00b6e4b2d0a2d0067e0d1ad30789c2dae657135d627485a6e782c8b9ced92;
0x2abd9e16b7b48289aa19cdfec726fa3fa15cc1625102ae511bca45f39d337e9d;
0xacd1175f3984a9e7cf08bbf5c1777cea1e7256defb95b191ad3d868d8092534;
0xabffa5e8d3f345572069d11f25ad4e654e8006102f8d4759188a07201b43b95;
0x3c0a0138dacff601c9d0631e83b8970db14ca395f83cc18c7a64db35eb6328f;
0x26cca174ba7d6ee3fcecd1e16f868bcd4228785252b2b7de96fefea71306d5d9;
0x15461d04466499fa137c5246d7c65ef254e24fcd50b5d43ec9d5e012f89a4840;
0xba61686f2ac1ccae7946a24316c258848a86659591468507870c9983c272759;
0x4017df4afcb1ba3116385bf4630e9cff49539b1ccebc1f4942b5f43ce3711d9;
0x1424d70cbb9da7aba0be6bfe60c6ed4310efdb6c0a7389ec0c17d4a6e390ef53;
0x1b4adfeb3a81ffc9088ab0cc532061a6d3e88830178f3771dcf7a02534532e8f;
0xa12244e29cbbc56d28f49bad8f18c3bcdbe95681a7b84889c1b8f356db69c17;
0x1d2798cf1798c27d89de5f07a9da5e45553ae27737020e51d7f6d365bad0491e;
0x99921cc276f9a00e458f09183b359359740bcd453f652fc0e6f6c9a173ee5a1;
0x2abd9e16b7b48289aa19cdfec726fa3fa15cc1625102ae511bca45f39d337e9d;
0x1ff1617e14011200242d96c976a9b73585ccc1103145cf23d1e2b922d03d5d6a;
0x2c20a2a5dc3bf0aab0b87093f9c0e9ae5118db1173adf4f5117b33763bec7b68;
0x1a5f9d44d0d30cae600f5592492ec4d112e9c0a24631d4b49f6e14ce69836859;
0x2506549fb4f1fdb290bc61f697719b418f146af1cf8d61da1632e293230e302f;
0x19761a80b065bb3820ea466dba6f358637f3a298d986e9a5024a8701149ec0b0;
0x23f6ba2cafacff6a627f60f1ce6dc5b30a4caf64f4fb21c226d4c2d847b841c0;
0x2e6f1caa062248065f02aad7120cf91d3a9c29ff5680cd4638144d7f2ca95e97;
0x28b3b74cb98af781b0f5344c7d8526ab317280697e26d8503eff674cee5759a1;
0x271858d8121deee03fc457245a298384b9a55b3a8359a7190ce8bd23de50eb84;
0x2dd5829605b8e77bd72dc4ba2a12eb8a9aec46c1d253e3a8dafbceaff52cfe03;
0x2d30204a0bede236a8b41721ec0376629eb558f6bce9a69e6a93a89af0a637f;
0x2a6e862532fc598b61ed8c490ace702e5e92ef403111f4a9888e71f058b9883a;
0x2abd9e16b7b48289aa19cdfec726fa3fa15cc1625102ae511bca45f39d337e9d;
0x8496e866a25167f5c61f388550c49bf6639d6394274cc49d136a8ea4aef8f04;
0x14e8da7feefe3d716eb940bedfcb7a3f6cff1ef49e459c3d1d0df8d9a403e1de;
0xdbbd1d73459a395ddb33c120018d9692897578dfb67ad660d628e3a46cd398a;
0x1342655df63fac44d438d6f4a1b1288e693cc3b530cd73b3eeb588e8f2236cb9;
0x31a141b9e2cb72dbaa792b5b29c8a7c748c5cb4f1cd6f5c0568861265504f6c;
0x28f97968428b8a94432861d7fd12313a084d3c7514886fa6ed30521e588088b0;
0x1fe9feb5c7f7c7a426bff032cd6a3158278b6c6b2cc57a871213fcafd6427989;
0xcdb2db9e4f9d732d217c5e3114821165d49e5a2d41556bcd53d0c4d433224c;
0x9664216ca565c1a44fc2b98347ea8b36904b3877f2159dcc999895adeb4d70b;
0x1463f51d4a4cb1eba16dbc115566aa48fe77b43c244c9988a3c658d2f56493d6;
0x214e41788bd2b990347c7f2a8f47612d4dfceb1a1e6da38165873df66ce51f59;
0x548541724f64e20128260899abe8fbcdff184a1957a9385fb715923bf0fc79d].
Definition tabC_8 : list Z :=
[0x123992df3b9daa65139ec13fbb52f7d348e134333684c1596feb0e8d8c3ad596;
0x2fa46f5dba9909ce9984a01e2af30b550dfec978be92b49119a3959c7f623703;
0x21d8f94d3bd98f0b63a7aacb175b2cca13b2dd8a8cf68fc36d94ae29401b2d2c;
0x1a8c06c61046e0f8dc6a39bc57aea0d07fd7db34e68f73579da89e116af87eb8;
0x298cd7046f58c0cab77523a58a6fdfd1401b89e7ae5eef4994442d167f7ad1d3;
0xeac737966715df4a20b31ab693eda86a07f3e830fca475a6574d67fc5f19f63;
0x6b9b718bb3b6d45e0cbe6d5d9a2f096a77beb056821750d072262af2a70a33e;
0xbccdad6e8b1fdfba846a9553fc7905b3f96e435d653eec3972565e1fbbc302a;
0x21c2dfe20dc5a72167bbabdd95a18c147f8483cb7c0e2e684a1ee4012f4bd92e;
0x24ad6b2755a6a6ee51d92fa30df2489320e50a8ce7132504ceca30e9480079b0;
0x67a46fc4c52c6ea102cd37b4478fdbdb5e749877ec437bcb7acbfb64e61ecca;
0x1a2623975652d476f4b9cadc4b85219268910c7c3b2d0ae12fd47eb162257f35;
0x25f8ce30441ce86e6b21d52ca87463cec299a3ef543220d72bc2491fdc04c4b;
0x1acdf0b48d8a4789a9b3ac5ff8962b16e9a56c880e223668a25018657834aa5d;
0x14d3fa7ee1cd2b8be2f42eb6f4b95bb8b1d156d77f143fae3e82bb8c5610ea77;
0x3a224f6470a64f294fa4dd67524de58b18f70812e093c0e1c06b31d758a113f;
0x2c822aea71402807ec21db11a089668fce2e6c2d23174de3eb69484a53148527;
0x1305b66e890e97e11d52771a60509026baedd0e0bd5e797134259c748a289995;
0x2b1e80bc5e3f546f4b11399e77a0784eb7c439c546e9fba26eb6c77d89c14517;
0x1562326a8b0d5436bd7bd173d3f9e69c3be74dc79270b4fb1e8539d584eac1d1;
0x8c9aca89b447e7468bf1ea6db080346b6a6827eff1fb81392cde7f6130910b4;
0x138e002e8c0c597550b72acbfc9c50952175ba85c061b7e973d87d979476b54b;
0x317ee43e6f4e38796821ad2d55844d012bfc5c2b990fa48b491ef7c6372bdc3;
0x1b60831fc11521d122d9cdc6ff45c7005e6a166717e7aa1685cb286c9ecc992b;
0x2e73d35eba9b43a5100de17bba5c59d871ffa2a9b522b0645e283a89259d446f;
0x22a4d3cb7750e5f4d2f0381294578f698be7d678311595793ff6f1ee3eff2df4;
0x2471b7a969af295b9d407634a486a1c82cc273506d89a9cd5c80a53b40e1935f;
0x197b73e1d792a106452ac3d31fd02b5e1617f5442fe26bef5fffdb7e1497754;
0xb2df733b3541c788362a5debf818a087bd9c9a9d39c1fcf2564ad3980bae8f8;
0x1cc66ea285b3c09cb4653283b9c6ee66b7e7a3cae20cd50315dafe3a92113a2c;
0x25b6152ba9ebe836c2f5679d0f891b30b96ae3e06a6132da2f6f6d212fc4b52;
0x1a889aa16461370a4e75ea6bf7ff9405c29656295996b0b5884216311ecfd7a2;
0x1f6faf41cf708d8307442a5194c1d38dc3e833ccc4ecdfdb8aa44c5e9fce566e;
0x170221e35fe04da2303dea141113f7711c651dca57beb7fa3624d2881085d7d3;
0x1f4fd254340f9509fc1ce072bf795c9abcfedd5f80ad8ebea2726be474197b1b;
0x2bb4fa69cd631d5b418837b9155db02d5489e7feb92b2eb5a17bee8031058780;
0x2fc737a4c1073c018432cd0f9e8bc5b75c19f94f554314251d510fc788b79d5f;
0x299d38d16803616a9065d1820e2b8608280e8157f7e9ef5b954eb3d2beb2646e;
0x6e8fa64f6f9e2a66650e0f002b2afa7e0c2c9ae417072c68b8f1f31b217bd67;
0x151e2effa0eef7ae28945060179f4aafda3a50635be3b3cfd4252b5ec9c29449;
0x13f225ff220789cf3d9547f15ff5f6bd6b057570636e25cbffae7b707d6b3a6b;
0x75f0d5b2f3aef1e72cbe0d0b406505ec9a0c2b61f37ac0fac82b44d9fdd5f79;
0x26f491b65ef18ffd2382c44ed506a506a375a9049e2f6fa392a837f3004c50d;
0x26916c460b0e2d5697914d1652fbc3da25179b010a1158e546de85020742ae2;
0x178e270b0c35c5ade3457fa5985c1295f64d458a2a25fe849c7eb5b4bfc81348;
0x12b5fb7e1894d846ff3999b3f9105329a9cc459d5b605ed00f333da7b2130905;
0x138f42f4f01f4b059cd6cbd6afa1aad443f29893e24313d2fd3b0e61a378cfa2;
0xaf68a2bb5f9b6fb492356bf6a80f40730056bf1d85424614ae9703ebd20ae87;
0x711a1f848efb7d202068d15ad1825720c2b82bb2114bc884043bc38d727f6b3;
0xf7275b3afe158fde58367a5036fd26eadb8cd1c646afb4dea64fbf1d80e1f50;
0x455acba2c77be3a518fc64f7977ee3c646b30b534294726ec896976d6a16529;
0xbd261d1d46c99febb2cb1bd70ac8fbe0129528be059fce75cdba328f73d7348;
0x2e5aeeb04dfbbf5fc35ddb3712549be8e643ea1429fa000872af2ed500152719;
0x1c86ae64c468a452e8c1c2d5208ba6e17378cc3237380a48279889bceaacccbd;
0x2acc9d15663027fc5b4fa467e70c3b476f2a07a6ea585caf7287921100567a40;
0x230d03be86fe9114145312605773dcafdf71b97d8e2cf9e9ef246106b5fb1459;
0x2ab60a4154e2261c6e4e82b20be3e08f7613cd334dbae29586e48c1df49ad592;
0x2328aa6369f0af736abace3f7885d7dc566c39ef831508178e6d62bd4380cfc1;
0x1164b8dce7e4179ec0e294da56e5ab43de2c20a75d57b8e583ffea2349e62539;
0x2491cd6f23416063e77171095c0db217248a2c00adc3e146ba32d9ac2b941742;
0x1cdc848d353fc772de151f8656a7e2e24b7fda385568d6596fe81a303ea208f4;
0x2a398eb8ec4d3bd99bdc3520db7341946d4eed3a16f6faedf167905e6552884;
0xb07f73cc8432e1f9e4095e392359fd46467f9bff3e24af5bc4cbe9b17b43e62;
0x4e964ad5ded274940fe678e4f72079ebb09f289b8381bfa71d7c8ef0605954b;
0xdb2a3aab326c1344771f4c5f872a050465f87469ca27704fd93ef3fe5a5a1d6;
0x27b044fefd92da8972a60b0297f9b93f291786a749fef1e29f8ccf6bfde72564;
0xc6c0bf5ece0bb9be0737e0c94f9b10594489ee5c00676e51f31781155ee8729;
0xa36c8af931781acb11cc6922f0bf6e28ce01a1a18ee990da3421a0a9aea0147;
0x255f76204e6137ac12ae576fdc49baa054ba182678d75a0a3cebd01d0cd6c286;
0xaa31a68117f221fbe1b609d8e269e9ba1e9ac228e2e0a512ab9c774a3a63f79;
0x14151310e656644c86a5cda7620c6440ad2bb09688c70530c1ebac60d96d56b5;
0x27b953b1de0e30a1a423405b749d830285bfea294cfa1d3e11b4cc5801aaa640;
0x30476b760f0b45ab4e5b7bebef2cceafb2b06f3b4193fb9938c946c63115b008;
0xb70ffa00f97a377990544d9501602376ef9a496ab8dfc44856306bf28a1b920;
0x2861adb9067f446db45b36bf93ab6345f53e07746c063546df691604ec026529;
0x33e9b4274c357a8c6dd61a3e30236735b5a23f396acb52d92d6685a5f03ef67;
0x28b4e505d5309e29a6da8f94fdec039ac44b43110bc0f8bcde42bd833dfb0d31;
0xf6fae1122b219ee0b1675ee8bb5c7c48744954e3dae2f9d5d1ea71c0edb0a9c;
0x2b4173bbd542f1b89fe8d3478a050e81d42fa495e9c96af263aaea3c498e917;
0x8d72f5f016ab29391344f20b821450da912ff016e4da674ff97c5d92bd3a1a1;
0x1d9e387998377d9e680b0b55e8309fb8a29719551de783c1cf817cff9ad6a90b;
0x1424e2acf5db0d91956e15d5b5dc4132ad6c4fb863c9c8e572bb49feeebf7e22;
0xb3db34e4253558779669b849ef2fab55ffc654d4f9f770f74cbc45ba117f483;
0x1269861c49d7f3713673f6fec4b57436c9059aa10b541d64aebdbc11e6513f6a;
0x2557b7a318681664ac27c48349b1b5f44892e5ad02c8b81493418bdc66517342;
0x650dcd4d3610b1d776d673024e679b6c76b5cde0b985091ba00e1cf4eb26062;
0xeae77312a73dc3ecb243143ba64f7cfdc9465cf00fb0872958286430fd41aa;
0xf43d99f10bb7c8d851384f5215bcdbc90489bd63c9b4fa3ec48bf1851012d93;
0x2d95bd041d1b5522fed823a5d9d607d7afd455461f33bc8c1404ef348221abb8;
0x2fd83f519597b7e807ab80fd8701dca3f4085957b8f2955f5df79c24f00a1f53;
0x25c0c9abd576c803e422eecd77a3ca4f63a32b9f90f5366ed37658eea86f271d;
0x31509bde9a7286eed15ea23537ac72dfcc35a9f4c8cdc92baf39dd7cca4939b;
0x2f6692e9fbfa0ad64b3f748425ce43c3c69cb5e4c13a0ff06c14f2bb75141af0;
0x1aa375c879966cbd87d4ce7089e354786c6f2a58e26b97c760dfafb72df9c5eb;
0x2f14baf1792365a476c4c193939244a6a4edf35f41616bb6db4b2bf511642a23;
0xc1552511a3185d9730d9ad3a86c6dce629f5871d7e9ca38399758b587830ece;
0xa499163b884b67402058e13910d1c89873c952ea1a7d1a3eefeaa22d2a37d7f;
0x2cfdadc4634dc875e4c2be0f579768c85b32e5a19baf3b5d536a3d10a3199bfe;
0x2ba9818b35db18cb7631164687c593c9badacb53bf720607b46212330be420ca;
0xe37b0ae73060dc2b5f671e27e14a7cdbf6f37b7a03e69654bee75a9fbd52c6a;
0xfdce2fc3a75a381f6dd84b4ca5f9753a5f0f8bebf5cb6e606c59717aa7b814;
0xfb5a2ddc03041dffb808a10877d437c2764240964c2edfdbe545854aae282af;
0x1ea4030900b9f74c33a53a950d21f40738813f69e8baf44444d6f0a1368c6d85;
0x2b26ae52bbf7d41a66d984ee37a40c95129c4949cc74ede40fd7df3f3bfc7714;
0x16062ea8f9c3d1bc9acece3e3afad961eaf765069773e679240dd723dd4530fa;
0x78830573fab36a4777b4d82c044a60d06fc2abcaac1826fffd2ce0630d00eb0;
0x2f17fdbeedaae54d1409c5cee2a3f3ded005fb6f84db8eb600111679e471be8;
0x1a01b0c5b209af90e35799cf630441b0fe38394300a1dbdadf7e80230425ce03;
0xfa20a26a6950d031e20c9fe19f1317c0e694eb4397a25fdf97946bfd66e5198;
0x1b63869e274926ea2e91c0fa091b7074d5fcfd9987e887614da86eebd6b42c1d;
0x728043328557038e7370dd984a822050199193a7da9c0a670af7af9094382d0;
0x9570a7f7a06102b55bcfcdff64c42cf2ae994a20254054abecf6609318b3707;
0x1c2ff23fd6d0090161db54a99810f76ec767e2db6e830afc9aabde9614829e6;
0x7faf7d80752f501cf0eccc6bda01cd349376330df799ca842ed4f452517f6fd;
0x2a25dc90d45e36b9367d207e45be38d449034231ed7c6422d2795baed9e08d3f;
0x5d6d08e40d2741bc318cfdd961e62bd5b1439145206f49aeb0e8bb68a244851;
0x9d7b3f8a46f030b3b0b27bdc77d990cc642e4f3dd667b085ef114d08bbda9f0;
0x2d17960ecd06706c37ddcdad5e4707ddc0385d883f08fe7c8b36659d94ef85b1;
0x15f2471564848a163204b074c1dba4c518b1e9a4052a3a7e5d9c2a0e77e8ea99;
0xbc29d644405d0cf3ef18b311474b8f6d0e5bb9856059ea6b908d8eabbbe4a3f;
0x1f3cc2b9a666ca5dab8bc17436762dece0ea6ef3becf39214992627d49595ee2;
0xc5c7ec0b72c7947f7e1129191a11ea5c2d21a431561b3ee1513d0fe07b6b5d1;
0x1b02b02f8547bf62c0250622fdbf6c094909fc25151c3941b5c8c2e06d675be2;
0xd3213b732109beeaf102b359db224d86031ea2bbe1406f70b654eba980ab84c;
0x15848ecf21e60c3ec1ef45998777202b708426a72b03f8dc4e5696dc74eefc8c;
0x14dbf6efa7caed2cf9ec698db97e7552c62b386a3483ac39028be9fb5d6e3b0c;
0x2616126b746c3d8a4dcdcbee6d4bb8c5ab7a3ac8c5c5b91a654747119bc70ae4;
0x191fe12396efc23ef8865e32908d76c09ab0fe52a4665554020b7ba659386297].
Definition tabM_8 : list (list Z) :=
[[0x1aa4d470abeaa2357079129d114bab1170944f929fc178216ad847d4430f3f27;
0x254b8126f45243f14dd8211df41fe5516b35952d56c62678c148e73cdbad3718;
0x270712f18b1518fafe093660f492cdbc2fb70ffab31d8a4d8a1934be68792369;
0x2bfc3981a249aeaaec4ab9001727d32d4e6fe75598ee964fc85cf30d50df584b;
0x16060a17e1b11f851ceab20464572b3d78d582ea050014843101485f65ab723d;
0xe73217a106c402e4c6c166cd9ef1fd2a0b16ac1cb43646bc1c726f83177770;
0x4b959ca07e7182ca08f2351a03545bd7ab676f740b02331637ea1434c8545ec;
0xfc9cc95222f92715cf7476010225e14cc38f314071e50e0f3bc9ec674a8aacc];
[0xe1f4e4d26e9da5f8ee3deaf48b493610be61d7d3db1d9754feca30879adc644;
0x2089c597feaa4ca9a202edfbc823763100e294c9e33000e513b2a216491d474a;
0x107cfefa1e864045a668396526ed9f675b2bbf272ca635d8d3e8801099bb97d0;
0x21630ec3f236ed219f73cc617b9f8b267dbee99a63c528544ea31b27cde49fb;
0x2741203d66c523c7639ea713b20346119c961cc1e9659a458af74cbee16d71bf;
0x17b2092b0f634576b654c6de21a1a8d812bd4c01559fff83217129082e2b2b20;
0x68e8e63411df2b3a9d7c567f66419a580d3ba15bbfdd1226effa3fd6bd47b3c;
0x2f5a2a0cd0cb24896c94878a8106d57e82c68dcf1e209167a45ae9cf8570fed2];
[0xc298c14356a5a7f226c5a549e59184900385aafd8ea41d9746729964ef75f34;
0xddeaa906cb65f3e9c9bea6344dda8db90c253c0f7f99ecef88786fefe0e5cc3;
0x4b96a296a35acf415929b8784b6bba64a630d29dff28b628fc98ef708230b57;
0x28890a03199b727fede5ed0090ed69494c053c97930fbb6c52358b0d7d104c16;
0x2208c5004806c7aaf58314590bcbea16168fe62ec0497afc6bdd2938c12d9a23;
0x2f24d609cb23720eda55fae29ec6f19902c42d8bf904fb656202736d97b2eb69;
0x344d0c772c2f053664a7b9266b19d48ae5d2ab3d1c1a18150754ab4b836afd3;
0x2cd19b5c55bab1809e52cc9fc1a038c08935da19cfc563e7048d6bd1970a0c8e];
[0x19e070982d3ee675e1622ca20d13b2375e528b676706882eb8f1afe1c5045ea1;
0x1114c9120442750493d999d4dd45dbd4f3b75ab183209235396ce83d8ee9916f;
0x1f0465a9c133a1c6805d705be6b3ea9912a2d062c34dbef92de46955b83e7bd9;
0x1b80f3f439396c2f466b8e9b25765a014970455a1beaed7a6fa308dac75fb582;
0x1c01f6db435dc4885eef9cdfed193250b9d3eb4cee366674b07bdd194ff349fd;
0x2df183fe2bc9b8b75773fa961c8d4117e582a80b656af5c58763e7024ea4189c;
0x7e0cca1a35ed15fbdb619bfaecc7a9a8f4c51293927562acea8eab817c6b84b;
0x24ff2986781fe40ae61e8f5ca0ef17c5a5ea7bddbc127d431547c1f6a8f5cedd];
[0x333e2923992e89dee570a650125eda75a20a72e69e10863a19d17b7beea9295;
0x2e8b35a8c29e639dde8dfd49b4b347f00ee467863f6efcb355fa1534ef70783f;
0x27a2b7f5549e5eedb90105c0f8e20f0571ab7af0801f1bdd23eaad91f2229a13;
0x2a4bbad245a33e5d9701537f751410e4ff297b8f1d1d9098fe9c518c261a1b0a;
0x1f0e36c2cf9ac2c4388e74966d9ee7d1a0b3186916a08cfa306f6bb36d21e548;
0x15fe963f5bd0d92878c10a894e118018db82e63528afa4d4703e9881eda118d1;
0x222edf3e26bf74b2f503983189201d4ee8e6d6fad341d7ff50748dd739749df6;
0x12a87d0c5419f448419840e5e5a92d276ace00963d987f2a1008913d98a27114];
[0x1944aac72bf6fbcdec04361238c3c4d9510d5f07439a1b6ff41f652990be0139;
0x20e6cc613ae6cb0a518425f53db1298a7f8859ee20aad08320d0a4f9bbfe8512;
0x31b0afb7ab2f1d241f882178f7dcdad48591cc67905d651dbcafce94b14d073;
0x1e431f2b1b7edae4f8cbb5d307bf5131c352c2a215a870d739617f4b017c6d16;
0x199fc2be60e49e679ec2ede6cf3345dcb3b918e5b3e07c2cd8141333934e178f;
0xaf594dc4030e8509701fbd3d8995f73126ad72a7af0fff344eee82a31ce77ff;
0x2d4308b4823b465db653d36818181209d23cd12f844f72f7548d49e55055a601;
0xaf3ceff2c865a901b9406d5d9b2fc58833d642f46c6493ca030ef595061ec6c];
[0x27d802ad019a42fd04892ad167d9e83596a730605890401319661675736359f3;
0x2420dd1281fc0dfac176a752d15906b55f137b9cc320d5d5daa9df3f3d43d3e6;
0x22e0323bbbdace5fbc74a0b3dedea6e1e3bf10e84dfc71fe395089ac197af744;
0x255639889a259ebe59f74a8fdf2efce7fde1e3a666b35d8e6ec601d4d0b22689;
0xa38d163b8a2fa3092999c1797b1af909bd971a25a656baefbdbdfa3628e678f;
0xb8e857d9fb1d554f3a4ec307ad907de7a436438603af1b28d4e4ee379960ce7;
0x2e8e67fc85f9b4d00e9e1197b35bedf55afd7300a4c370987c83c15cf73cae3c;
0x27f42d86842f4d8a8c3aff2f47ffc1e179f097aaecce55bba0b0fdfd5b190aa7];
[0x2bd05a040a0987ac6bc01f67242d54b7a2c527a970ad2815b273471eb9623e73;
0x17bd4f2726748d99925af9a2f2929e231c1869428c13b1e397bb0099191723a3;
0x1eef36d62f3f864eae67c63324e47a6344e33a2d5bfb82f05bef9900c54e745a;
0x2d0d8a814cfa16c2323f174be2dcbe0c295829fc59bf2a89f13b4ead0eb056a8;
0x198949eef2b27c2b9c3d699e3fe57da3d5b509c2b670afce400aba1aaa9ed51f;
0x7ebcd25a10e56693a28155fcdaf7b3519d9e0e08241e21789696cb76ee06297;
0x22f1bc4ec138b596128ce5ee5b8184964cc262318e17ad21d45c552477f53e61;
0x2b6b3bc340d4119e57831e4a2187013f1216ab3b639945dd92a984943241f1d0]].
Definition tabP_8 : list (list Z) :=
[[0x1aa4d470abeaa2357079129d114bab1170944f929fc178216ad847d4430f3f27;
0x2ed795314c562ca0b6d7070712495423ae6bea218cd94677d06e1043327d5d11;
0x1c700c219b9fd0ac323c67f0960cfa94e637aec4a5b68c8c8c579da52123752c;
0x126587f4ddc000b06931fd6bb92c2497aebd10bf7d001a3f664c6d6934225f1d;
0x1d322025a71f8a8445b7c50d8020f3d755b7ecef465abebec16e0d391bf9bb8d;
0x1d3fa515e56ec187ca7657d279ee613e0f993ad146ee2b37f12d142eb8108e07;
0x146acde01679ad962ede1caeb39836b4d818c68db52a9a1cde771be24b2e5e20;
0x48997cdde9b1ec6f3bc2ef708b27929596d02b366f44386093108703f4a6106];
[0xe1f4e4d26e9da5f8ee3deaf48b493610be61d7d3db1d9754feca30879adc644;
0x17ad6adb37b2fdc36e43baa800fc4a0fca98a20a2ff9c184a838a1bff5baf530;
0x14583143fe69954ead766939d693b018c9c6d99e86ba2002e2960640f993f19e;
0x9664ce4670db8421617eef97a4619d9914046ced174c5907e7305424656d460;
0x51301752f12f6de8c23dc31745b2b19b9bb7c39cc1ea08d08738c36a5e85885;
0x226238a28654ad973e1a259a8263c6b4aec4209093ce8e563b3eadb0f1144170;
0x1fd98a7ceef4a6d3b32de8b124c7e024e57c37498fbec5e451b92f5666a9e441;
0x1f471d25bb7448b69310b975678ddae2aa9080ef691242dc6871e6a680bf6a44];
[0xc298c14356a5a7f226c5a549e59184900385aafd8ea41d9746729964ef75f34;
0x4ef313ca88e6a46eb38c9aba804ec4264f79f1dd0c05857bbdf427a86de4483;
0x117bffb0996f3b8796bcf62f00e93cded9b3e7b07180721f2c01e53c98502f42;
0x36d342dca9ebe248ef3674d1399d5cb02a51b6ce92efed9de36f2adfc837cd9;
0x1521f1fad861eeea8bb068264dcbe68a93abb6076fae2f9e17066e4ff5be87c;
0x2d6baf82ccebf60b0fb1632990d9bff876ce740798a6613203cb078a9ca1a532;
0xa2ce4bc27cb25682f84ebfce048f14689f31b45e346b713dfe35716b9447431;
0x1e1b9c1ae86ec688bdae2fe7788b7311114a3a8d6f8d7fd8ac4d79a3cbb38e4e];
[0x19e070982d3ee675e1622ca20d13b2375e528b676706882eb8f1afe1c5045ea1;
0x1562e5b3db42e4e28c9c3c085cfc8fe652b68e8bce182e6e1c84ab02661a8cfe;
0x1abaf63769a9a837a0d09e1dc6efb2dd1dc312b0c1c4a8c066663998ae04bda4;
0x338e5e98906f68a17cb1852bb77b5f42f287cb74e3afdb066fe966889db200c;
0x2d74e6c13b0856c0dd85188c8a80f41dca1e9791b1042521e7bae94bb36d499f;
0x7672fca8816914835cccdbbee62aa422a95d77118fe52444b5af200af0e00b2;
0x276718d84a065a288179b23b9b2d8ff3f6e55cbf97d873ad1f7e9a2cc8a09649;
0xa1bd98c224950369af79941d860914b7cfcca9596899786e6bd0889482641bd];
[0x333e2923992e89dee570a650125eda75a20a72e69e10863a19d17b7beea9295;
0x1a197674d40c43447787e6079278b5812ccb17996403315e0f06230e2dbe016a;
0x1ae4af74d44320001b70a0a230327d586b0319d53a839f5fd27fac9169085169;
0xb169fad164bc7690cbadd1ffb6ab2e67be46376d16629d663b0b83ea7b7e4f5;
0x154b82a74672e1433c3417f9cd1c53d4ec0e4efc9d4c2655eee3c24e4449655d;
0x2c54cb56058d37bdfac59708d54a16c1c7cef8012ae5d1cd83d87140ea73adeb;
0xaedbd439fc8a60c641e55ba0f17880e00420bbbe5ae332855e7be146a0a0b24;
0x1b87ebdbf566fc8747d2430b3c45edfa8ea4f8c9770230ff4091f58d6cf6b61f];
[0x1944aac72bf6fbcdec04361238c3c4d9510d5f07439a1b6ff41f652990be0139;
0x32aac2605d772f1fa6f328379ca86f4368bf679a39937cfc508a58e982db9a8;
0x3a38b1fc1f632c027894c17bbc4702d45616649d8e3759d1bd4239d89c9cfa3;
0x26492ca60cbc803da9930bf40b24ab2136a9275fa8b299cfc2674ef08234ad11;
0x37a36e914e568f3de0d6be824fb24b107bfc8c77ed767e707f8aa5f0199b205;
0x5de377805bca799a16d073b79fdbb07a672e7597d16df2739345938a20c5b3;
0x2eec7d749447d3df1f1c2da415cfc4b448b3fcd473b9cb5891f36db1c33b5c17;
0x5c539bdc0b98fdf23e2c568d8aa039f8d4e200a6da374c8e764b530e9b65d2f];
[0x27d802ad019a42fd04892ad167d9e83596a730605890401319661675736359f3;
0x1e8382dcf318cd0d7f58ba77c1e4641ed3412a480f0b779ee6c9b73147b09d2d;
0x5fe56b2e7f2cdf071f3a588f1c604b2ab62cf34ffc1d2c72cf8a86079f01fd4;
0x177bd045809197d7bedb995ae85f213e19c1e301a646a8caaf7c9f3492042b;
0x179ab9300b69ae8b9b7540f256c0947b8dee0e53289ed0b5b7d0ef09fd10826a;
0x2c2ad35579f01d21b61c81721de5f2787950facb1755abc12e63b0ade9c66e4d;
0xe78c7c5a33ddcd2ac7aba36f3b50757bd7e867f9e6775bef50c85632f870959;
0x2010d6aaa2a1cc21415a72760a1a9d8e1aa82111c3f91e1a35f2abe8b79f2085];
[0x2bd05a040a0987ac6bc01f67242d54b7a2c527a970ad2815b273471eb9623e73;
0x2f337068a0ab32fb994362be568487a5c9974d9ff203f3db13234838c8246469;
0x305fc4e93cd1c823068e5063fa983fd71a9804864231e37d61035bef75f60188;
0x170e3b120459d017daed43224c80f6425f59ca2260178321543bb556d501c090;
0x1e1ceec2c1097c4b47a0523f89c94a42f52f2e011da379b6a0e57ad09973e16f;
0x13e72b920d7df0336d643ff47f37bc44888b98f7ea8064d5c96f8d39d11834e;
0x2fa9d8cfc04dba7c7f80eae1154d535657bc7015459a3df9dbe47ec7044ec009;
0x288ac5e38d20b5159d4c37374d8ca702decbc6265b6396d30b2c2959ae2af9b7]].
Definition tabS_8 : list Z :=
[0x1aa4d470abeaa2357079129d114bab1170944f929fc178216ad847d4430f3f27;
0x1aaae08b891f5b2046c0e697f481c70f34b0c71e81cadc7603c7e5d31139d196;
0x2693bc2b2377f44f7d8c291f332a6bf184d993289445a794fd3f815824c7a4aa;
0xfa4b8bf58974824edb3fb2d26038975f49c2cf84050c8208ea7a30aec1cdf02;
0x1746022555831c140765eeaeb08a06bdbb7e2e65f5a5f70977d41f0f2a18b757;
0x3004430cc176cbbe7f33aa7eaebd01856b009f291df0567d4fced835382f68ca;
0x6406c73da9aef2475718a34075970df351312c5203526d0e55bb00aac90c6f6;
0x27db71cc71c8a22d6133172f19b8bbaf0e37ff0772a58aecacd25e869675c3d2;
0x25a9cb700e5decd6dc4544b9c5e3b49c0e04a8d1f8557e231da51d8bc228082e;
0x1f8b293768d050b67db5fd50be414ea637f6ac51998971b57ecf4e4db972fdb3;
0x537fd07b3ac0757eb471a2745efbccb327fe00df9da4b4b37ce2798d5441343;
0xf3d208e42fd3d45dc0bf71a72621a3a1f735caa82faf0c3829e666889211ccf;
0x21b6ec876fedb5cabffce8f4386966e8f1bfd0bbac488ed7c3a9cc73afe3638d;
0x95100091241dbbbf7446ae4b3d1cc2e00fd45c725456edfbaed74111168db13;
0xf1cf912f0d9e8be188f3d193aa91b094e79780511c3a3853b6f20c771a1051f;
0x1aa4d470abeaa2357079129d114bab1170944f929fc178216ad847d4430f3f27;
0x1c0b352556b629b1e64c6e3abac4b349c05801e9fa43439fd61a8392cf186509;
0x1298fbf78e8967359120670758f382a8c951a8d2186b96e364e9b221d7b121a0;
0x32529e49b3721ba593bd059db34fc4c01b5d036d2495b6d3221456edb02fa3d;
0x2dbd37ed630dd234ae12f4c3dd4d106e277497f79cb16a71b4ed871d708729d5;
0xe9a1b9cef20c937bd369647f84e2a310bd5d83e8d177ca9c7ea457169745b77;
0x2f25b164c0610b5cc1a2ffc3e962a54ab01e0632b062e87a0bf249f8f7a51cf5;
0x27b73694b83e0b1c06069c9cc1fc20dba1d037e481ef2161a30f4de74c4979f5;
0x1aca98163961aa6b3b4bbb40fa812c86822948bf91d38e606bbf5e1dbb732f2c;
0x23f67b87edb5d48126bd42b7f2a9f8be7db2ece0206f97d840d28dc3a4967c0f;
0x2d7104faa91a3300e3ec93486228f3657b0aaa7277f0aff4760d0aed02ca07c;
0x2f948955cf159477c7b411b0a868b9ae9a56a240cc20e40ce1a097a4749467a1;
0x105151aad6d4d7960ffafca05d4f8ab4ac1930b222fb91eb9eaae07ddc18ba84;
0x3cb3379d04500d1996cefd61c5032852d43e41e87148d92329bd98003fe5d8a;
0x12cc617757c857678ec716ed94050bfe192215d9fd76be3bf98b65401e8d12a4;
0x1aa4d470abeaa2357079129d114bab1170944f929fc178216ad847d4430f3f27;
0xc8716d8ded0a8c521da019c24594a1b859e53e85311efae748ec9312a0697d6;
0x2e082be597fce21e7ed641c2a50feab6a4b26c6050cb7733979656d9a71988f2;
0x1775849fbef452ce7a0863e715a67ad4361b9a2b72a055469333b0b8b8175b21;
0x1fc8ebac9a5cabb10ecd4fb66339a2fec1ee8af951e69f5837775cdf4abd3e0c;
0xc92dc16c65e5fc74d162103763ac39f2ca7ad692aa9dbbf9132b8d7af4025af;
0x1e5b7963f79d2bdf1f857f13e667e9d7a97b4605846db4f0a26baec8daf691a3;
0x19172d7e44ac5b1b381c2c893dd30cfda08c46fc6277dd38cfe1b1cc4daaa8b9;
0x184154d48a6c6cbf9613d54a604aebd5820c53049749f533c0efd168e4e83e60;
0x1ce093daa2ab71b132dc2d3bc1fdbfb91292c35f083d350eda02629f66eae2c4;
0x12b07847ea7982e0e6dfb1b2864ac2e8f04ddf7d766c33bee75749015a91342;
0x1b96c0239c9b6643850b8a653486e0df1d4c7f667a59ede3064e4b5068b44200;
0xb053365816d9cc61b7e857531ea416ea33d60c4d8a529317e29a73a3aad422e;
0x1fb9b2c50a99cd788717b3689d46c05e0d7dfa13c58f725a54851b1174c2278a;
0x2c34ad3345bff455c0e461587b7332e19e0a9165375225769e8dbb2087391eff;
0x1aa4d470abeaa2357079129d114bab1170944f929fc178216ad847d4430f3f27;
0x60718f37a9480c0837f5a5e7c13eb75c07f60a8d8c1cf9ff30ae132251203f6;
0x4f4bbea35e9b9001e92d6cf690b28e9c0a463382cb76c5b4e6acef622c0436;
0x304a3b30d2300c7bcd5a2b7ecea51942b79b7d04bf346f95961d37dccdfaa238;
0x626de3124c2c8f04ef55566942ffd3a46f2b7bfc898ee9c5313e50a3810a397;
0xaeb9945d06bfb644e310b3109297f03f2ac002c31dea430b2a06666f4d93e09;
0xb9264fb57be56298cdbd2084d379720375d397ef5d09a3ec90f29983f0a1538;
0x17dbef787498ee541ccad5751663330e379ec632306e689cb3dd89480adf582c;
0x15e36a3829fcaa26cec9655273017e83e621b84a1eac7be9a764638202a1724b;
0x243a86766734068afe7659f078d7384e2ae7a73c2e2b6dbede12dd0ac2b71a76;
0x19f171461fb4bca771adb125c689bdf519519dc2b7960b5a7caf07c1700f0921;
0x1f5a2974eab40b787b5ffb6de24e939ec04b5bc31475cd803bb2fe0395a6ec5b;
0x96ee06e8758968f1be067fb4582c810694a7205d39ac72247c3bc4e74fc02a0;
0xb960361062101863b600c67724666f71ff5acc674628f46d840329eec2a20db;
0x54f72b1aaf1f0531eaea95d0148b0525af381f598b075f56f86ac0f7edad99;
0x1aa4d470abeaa2357079129d114bab1170944f929fc178216ad847d4430f3f27;
0x15d5de1e8c0f0d18b7aad179279727eece9d2ff735ee49e3634167d4d440491a;
0x16df68e36d342998fa4818e065c50d575012f4203a0ee73e155fb6f9c4ebc049;
0x283e201525e86ba0ffe200bb698683a35d51810b72339aa3773217411af1ead;
0x289ddd4c7635287baba51ebee25b7e42f98cad532e2f57073dd7e8465ace409f;
0x16c3afd8596d8515eed82ca10249d26aa036c6abdfaa26efb7c98841b2719d33;
0x4d76016f612698f913a86dc0749646b7f4517d3e668903f76effaa95351e90f;
0xd021dbb869aff3f4fe189fe3015d9d5848393aa6f76eceff7f9d9a72a736843;
0xe769248c92dd03d46e9e6ac5835329f2d5f7af5cfc5d1bd920f097379443e98;
0x189d6ee4a5b445947e0efa11690f186e98a54d3e6406d880b7706f7defe167d8;
0x2d9bcac46f7ca9415b13759c9b4cad42a113bc19565a01cb889e1d2d698c76d1;
0x684c2e542b4e0c59a7f03a6d361369a5f6421a91b98b1fcf0ac1b7144e631b8;
0x1f6608bda209f29ea2d9c7df3a924b661aa614e1fe034f6ff1ec18bba7a14f38;
0x203c71fb9d4f1881845f258bf12de6153df99d35fa3da8cda1ef4e18ddc0a65d;
0x2bddac5720ca5c69a727c029e4edfc393e4115f898b9da856f064321ee8e37f7;
0x1aa4d470abeaa2357079129d114bab1170944f929fc178216ad847d4430f3f27;
0xf415650a23aed782936a31cc331b3856b64768dc9b29c9a68a8904a08a2366c;
0x2a3272896962e7d3fb7a1c783e24ad141781fcd588f4cdc319b3deaca21f79ed;
0x1aa729490f697568fa8cc7587c9d92bd19610d8712eb3d31a03ee9a65bd443d8;
0x102aefa3ca3e1722980dae564122eac6ed4b1534b65d6effe5503b615d7b76fc;
0x8fec616df09b477c42d44cacea45c18644a68c59183933f1fb67ec8c452008c;
0x6b5b266f1fbe4ea9237a231f8c28ea19723adb47729b6913b7af9454f23dda5;
0x2d4a264e748b499d97b3320cffb56648af68616fd73bd29e1225e2c45c1163b6;
0x2224e659d1d7f55a80406d270debf092f713eec67aa001eb50cd8b173a766988;
0x20260ec25a18f49225f3accf1020805f5982f34b658c553f5f744d360d50d571;
0x1a692c93319abaaec066616f97e14c1d511e86965517496540cc0391490b1b57;
0x2189d255d9ca828ade6cef86f5de626fc2689904db402a6131066b41616c23c8;
0x43059b6857affa85b90d865eb1a9a91f036aabe5a12c9a03e8ad87934991a09;
0x2a32437cdaa6a32a0a3c060c2865abcd8cc2a79bad7efbac1cb8cdece412be75;
0x1746046edbf4fae210a3f0273bd7cf58beabba4c210b3617b030f7b51e6f8f44;
0x1aa4d470abeaa2357079129d114bab1170944f929fc178216ad847d4430f3f27;
0x166371ee86c08d7d38a594cd70011ea1ecd01154007d555fcce5796dfec39e35;
0x22f89213a0580e56569c73128c8a41351b42106d11f08b6f900f8c61e89e3edd;
0x1b3bcf6322de40853b5647f94ceafa4b109dec51c81cd7a38b51ad6d96ecfa8d;
0x2fed79c7828b5f8fefc7c73f312de0739c9a2081e432cf2f62731a5f02fa16ca;
0x243db465df5d6d34ade58f233829cedd38dfb57101da284d42207eb4df69c7ea;
0x1d49c10bee07998c64facc37ae50dcd91a17966b8731f2d1a34b3f78559bfb14;
0x2d7c4a750b7000a296da599f89c4ea7729cfb85883037333e1b4526aed397cea;
0xd4f4d2dd076db4bd67ac279bb51826a827742918d35aa52a5c1df7a3ac5d339;
0x228901e5388a5c10531d4122f7e0772759d1e4d026379ec16676f45a64b818ed;
0x111e7f5a746d046f4d7c19f2fb49c31255ba045db988cddecfa0e4172fcb2d6e;
0x1595f02fae7bf2b328680bc0ae805194fe9ee83f4fdf4dd0d35e84ab29a122ec;
0x2d22c9fe81fe2db64f3ba5cbac4957fada1f0c6a6a4cc883db4dd922d35906ed;
0x21587d485b2624d0549a6f5de06c009ed06c5b48201d8f9a750c5e5a98ff19ae;
0x24c33e212e7e9d3faf0ce44a3cb2113e74ffb7c28b45c7b4ceba5c1d6944a64d;
0x1aa4d470abeaa2357079129d114bab1170944f929fc178216ad847d4430f3f27;
0x187f5db526575c180e8adcabdda34e701463bf8b1596130c0c6b815dfb5e7a24;
0x75eccf8b0d6ecb184e0f168c64404e50e013ce0df06bf31cbcef2421ed7b0e9;
0xbf2f82a1b14f888c48822e147e332a2bcaf77ebb32d7cb3cdde813f0b1a373e;
0x1f587a1be361522f8568d2109e0984f059a87317a35f7ccd7365c5d97d447e62;
0x24a69effda852c7d20fb4fd8c3f413db1b6ff3979409e83922789cca594a462d;
0x2ce67cebac6bc12ace86bece70ae7a5a59a97023cab6db35a0f8cb7110552ad4;
0x2ef4852f4fa73b0c40c37118ee2690692f1e7101a78a38771a8686ecd37023a1;
0x4ea49b4f2225a5cbe53c157c56f62973f394fdb3076954bbbdf30786debedfe;
0x2e874d03cebf495782ded304d1f37903b06c3f834f170e96d26812be0ff52466;
0x23acdefba9e5cff344b212629dae61e76e03a8a8eecef4e6c0588277f53d81fa;
0x1173808e27354b4bfa76d6bd920cfc8309f1e9e99f997f773195070843eda183;
0x29aea310845b4a505ea34932e7bc2a8f2b936c47fec5f2269a3c999413d048f6;
0xf5536e4420b891f4cc82c50a833a17f0cabb89c3ae4cba4c28fdd5cb02e3d2b;
0x7a3576f0287b2a1c0d832be178d43b6858a4c8989e30041cc143f09e2012fb;
0x1aa4d470abeaa2357079129d114bab1170944f929fc178216ad847d4430f3f27;
0xa260dcd98e220b61c2012dc6380f52adef96a11d38e7371c576d54563f7bfb9;
0x224028c158b4b4adc53ae913cfd9ea42e4456690be5dd8d4c459779945157e4;
0x166151c43e43373467888a2ed4bdaf3148d8ea2432d998162f62f8159cec690a;
0x556f9ec39ba4bc77b183cff006a0a582adb55d52dd0f4a8c1f156b33898b28b;
0x201670bf6f1fa62050110754b53b3d0671086156d9890ac85f40c69aa4aa297;
0x18a78efc7a694b6e957b209c42d6044af319f194dc16451c6da27802e7f1c85c;
0x28efacaa79a0af5fa9ddd71cc6a711629788664849b96ff0b42a61e2e43c87df;
0x1d07f908b2ac7783f0d734e871a40be7b2e164afe885db6fd312bcecf4cbe9ab;
0x8f97fb3cc640d078af3d17c569f37a9ebfa6f49c48db74b3d948a8675db96e4;
0x2718e729e940dd2d26c6a6fc7de40b89927f8c9df032cdcc06ed4ebe194fd596;
0x2c68ea4120e5abbe11f3b62801199cdd8686dbecdc52ca8a9458ba48b19aa6a6;
0x2f39ffaf54a4cbf00809ff50047289530732279ea49607ee779fb149b87e10c6;
0x130fb307c6cec609ab7c5f9bd5910a9ed9958fc11e443705609ef3066197a9a7;
0x129a1c66d1eb5e84211c482bcaf70789e6d5cc473e1001dfbda059379f7b58e1;
0x1aa4d470abeaa2357079129d114bab1170944f929fc178216ad847d4430f3f27;
0x1cff973af21d88635ec9afbffd85b1cc595703ae5bd5f4faa6ead489d7aeea20;
0x27ac0db61623f033dd102e118d47d847f34fe11826bc9d23d7e3e43386ad16a9;
0x25ed2b22b59ed4baed8f5c957caed1fb52630971092d0af3ac8ffe5fe3a13904;
0xb634c3abd9ad8e1b2da84a144207c4ddeb62c8f4860f65aa2209c1c0d0d7e75;
0x2158eacda450c34d62fe6ed5e3c9e211c170f4c3bf4247c5caf0b9e2340e409d;
0x1c0e715ac64d64535fc97e4d86b95c6120401f5c2697332b1ed6a9e83710afca;
0x1a491a07ee1df9abb02aa300654e59bd34f593a15b74306b41c04e8b9530986a;
0x1523cc6481931e85611b1844832abbf8763fab9c85130f50ab3075fa4f60762f;
0x2816926c129f5c99a970733571d5c01be1cc18ec0f45bc5e46068f0d188bc9e5;
0x2d94c81e271fb9800d333223a141c9e904476dec1f8f1e6d224ed49467e18a1f;
0x1bf8ab0b8cefdeedac41738599d38ccaee7c03914364eb617b5421e9a51a0b27;
0x21fd6c59b0f417453f2a4d669851364f5156b6adf104625f857681411bd04c64;
0xaea3c50afc0806b117aa98c104499b4d84bee966a94865896a39b9f8ebcb917;
0x29a8795e1f8f1e27e7e04b23788ac40e102536d56b57aa85fd1015cc21970f55;
0x1aa4d470abeaa2357079129d114bab1170944f929fc178216ad847d4430f3f27;
0x17e4ac7e489fb7da610506535bce04186426722fe24a261a3e286df2f3519b34;
0x10ae4901e443ef76726afccf1c9099fc18001fbbf5d144ed721196ac9f2cc130;
0xe60f58884bc252084c93a18b4feff245175727c03003f025100d435a0debb60;
0x17de16da3692bd34ac4069982a1fb163da3119cc01d12c6f1ebf64db787deca7;
0x78d14f36f6349d1af6d92afc8dd98ae7322f3c11993c59a225b079c7acbd4fe;
0x2cfc356c4f60781e3cc83474da74607b9567ed3a08cdd7242ffec76f7d36cecc;
0x1531440db56edd521c68fd2dffb627155130e6f3a2b47fde65bf8785ceea104f;
0xc9d25b13772cda116107dc0c4fe9818b74f24a51f4bbca5a63bc4fc6441996b;
0x28a4751755712b3d33f9eee850ccecea47ebbc32a1fd199fc256b69c04456500;
0x1eb00cff68143cfad376aa8ec83216badcd664d55e990cb2d611fcdda52e4407;
0x1bbcd528cc66eb76816135706b090ea3b46d45f0db08af962f17df4eb996dee5;
0x19a41df7dae052bb5821aa4f32e9103dff752baa24b9fb51fcbe4359827f8cdb;
0x6f34fe490adf4a07fee6398a39e84a0c32c04259c9691daba54ca4bf696ac5f;
0x10cebd9c9c4b941425619aacf24419380dffdcc7f5326e766d38e72838be3120;
0x1aa4d470abeaa2357079129d114bab1170944f929fc178216ad847d4430f3f27;
0x214aea2850fed7223af80a5906052159cbfd07a30736ae5d95e6b60cb4989d14;
0x15595aea45afbcab1d4d2e73c0a36cae9d2fb50d36cdfd5c0c127f95862add38;
0xc4055b948c4a9fe79aff19190da8995eaa7c537a20cdd18f5bca5371d0c895f;
0x202dc56d64cd4dd16ba2e50781fbf937803bccaf08b7ba8733eadb427c13989c;
0x2ef4191b7deb37e92edd46f965bfcc66bc5a8539957f319958d91066c3fe15da;
0x2f6942e918adbb191600a517edb486cc96e355737961c85e0d8595ecf579552a;
0x2cd60b5a15f37871b552d8095cd8a6ffaf033b539d7bf1ae5f671e2ffcb9f2ce;
0x2e05c44549c1ca99a8aa9e5ccf4726240f75a4060ad8a71012deb2ad55486afb;
0x29b52fb3d57ee05634b2864e7b2977f7393906c12e903931531f95c5f4ae08f8;
0x1a565be54d3bd12bc9a46a1e2853a18ed26d6744c98e5cf53c83e6600cc56a60;
0xc806f9ac20225e54ea2ff82c73c6809497b46d85d51a4b05c46f667bb3ed592;
0x2aac8b1272085c7986012bc5c7612d5b7eb5933a9140498359b260116290048d;
0x1ef1b93e5e0c4bdeed8d40d74e84fb0ec5e8bd52af3ecfeaa54105e674611a3a;
0x1a1fe313685a247b03cc9abf0f0ca133ea119ad01ef6a090baf774491a001296;
0x1aa4d470abeaa2357079129d114bab1170944f929fc178216ad847d4430f3f27;
0x694287a5d6c2f8c7e6ad899f7960ea1abd3aa7829422a66be8e8a1ad6bafc0b;
0x2aa1bd4878e2ef8252ff42d595d2d0b59d774a98e3439d05682cd28463e15104;
0xecb968856d9c8a1317c756d0e48d5b1c365e6eaf980989d3cf77d110237314d;
0x8a950f1079254aa243fbd11fbb4d25fb0cb8a0c39bea71a3aa1c0df80943907;
0x2ca441a867e40ca07b530a40b899052427bafd17c7a31d484188f96ea21cadc0;
0x60117f9406bde6b52e0af3a54444fe9cb69bc9ef22405e2b85d223051852c23;
0x18cfbf11b6c20bd7cb8fa67ff4c032c39fc2b3610cd8f90bca3e6136c6b04f4e;
0x14addf2c0a38c601d30bf96a82d3fcba2ee369b0d2f232adf5da3e2bd2970a43;
0x2677d87f29a2a948ca7e8f5a5341b56947563be4acc97c46e557f5c60eb84442;
0x2f423100c2e9988b6cf5e9bcb1b2aac09d926458b9f1177f841977f39109c1ec;
0x2549090369bcca257da260694265b951c15643c8103c9cc73fbb6b065db979a8;
0x205c0e6789ef1fad3b8f1367cf4eb199b400b16499841e1feac1cfb774412d97;
0x116a1eb2caf56acf7308b5b7a7ca6b98224c93a655d78ca7867a3ee170b33fba;
0x319871e083a6e2cfa6a69f480121787a71853c4c6f772fab9dea2e267f3576b;
0x1aa4d470abeaa2357079129d114bab1170944f929fc178216ad847d4430f3f27;
0x5b98a534aa4041bb0c7e79ae6b2f5c164053b4c0a65dba7fa318a5aea8d22b6;
0xdd5bbcdcf0d6fe99e9ab4774911a304957b461e3e2d809775da6d9c66ff2cf8;
0xd5e13e77b22ec3447adb2487c15a4ced671076f0d0c0e8ebc9072f1d8e37b87;
0x20468b6dc384b134a4538c25683b468c877cf30b1321dc7c39e0fc942dc64450;
0xe2bfc13ac065e251caa703abd5362783941ed0060dd9d1b81f50c630dca8376;
0xf300f277165a02ff123b3078e87e6251de0de93dd81e76e8f8197b949960e0d;
0x19ecc98c331d8b440400e5a71e1ca2f830536b1900580b3348f3b7ce93f75a5c;
0x2b60e2012b670944ceb50be1c78808ec4568c7c442933b21f125e9cdfa7ecba8;
0x2c3e3476d128db70aba892a46c2061ef24df0ac74db004e7731b167f32697459;
0x2eba0701ccabc0ab29863c74c80f1eb3f6a6ae79792249f4e4fbec63b6282e0c;
0x1b821e2031ccfef578878ebe3481c9b5db9e7df929755b98059ae847b7871a1d;
0x12424e45b885060002f66118e487a97bbb10ca97ee0414712f85f2154a6395a0;
0x22dd55670c91344017558b62f32c530ef0f3387736514af44cd43812c3c3830d;
0x18c607675f0a99f94f2e7b161c693472ca5963f71823a62bcb4545249ed116df;
0x1aa4d470abeaa2357079129d114bab1170944f929fc178216ad847d4430f3f27;
0x2d16a32d5c9663139709f054159cd7cf6f93c5f9133007b4ec8de3983231be32;
0x1af2c4175ff13a4c27cdf6f91e6ee2d81e56a4d42d6c13f5e1b41d8f71a985fc;
0x244100fc9f31adb4e58ef3e56c2fa32b5b534d42a226880d78eb3be202c9dd07;
0x25fabd23de22009b978a089414dd805837cc0e1d2d68f919a50b7e17418f2151;
0x22f32d43c35f5cb33a857ac06d5d9777a42b92268f0c06b26d68f7542a6b50e8;
0x20b44788f504781a9951e09b497f1c1c2d2f723b864b84e74c1523527f48f996;
0x17192ddb8a67bd2ccbb940532adb6e376759800df7429c45e5a09314e64cf7b0;
0x116b6619b40c6172f572650a9566ed2b809164b994e388b6fc467637b61cc2ae;
0x1e0133f2e4adbf08938a9ccc82fa3d3693316aada3b052fb02ed3900e1d730ae;
0x1664c7e25e5a7d2f285156dee897b4af0c1446a32e575fce4d56a3cab23deb44;
0x2512c8e3d7d525edbbd4bb03394bc4ae7aed7bab5ed55ce3fc4aeafc329b7f49;
0xf5800164acb67ed0f6efc527bbcdb851e66995c9dd3ea18cdd9b54259f64bba;
0x1e4dadc5ca72e83a6f54dc097f0c2f72d506ed77d576abce800858d48cdb9cc7;
0x398b2ad87a996aec8db980123effebfc59ef1d35be0e6a7fdacbf3929551bbc;
0x1aa4d470abeaa2357079129d114bab1170944f929fc178216ad847d4430f3f27;
0x2e351fe58b5f36389df6c53ace1a5366d9c012a2ce2e0c4a9dcb30cf75f59869;
0x290c7b5e749c1532ba364061abbbde22272b62ee90ff19be581c4ea68f58c5f3;
0x1313fd3c761307310d30f5aa63cb0733244796351a9c6077ab5ea343e996a778;
0x2c31bfd37ed16abb1583c403f09dd2a064e4d03f9487a076f496e0c8c5dbb3ac;
0x10cabad2beffecd1d735b7284037753a85845e6fd5b7247f3b457ba9cc9a323f;
0xe02a96e2faec73e916458f940919859a161b6b85894abe5ae146ea4d3736d10;
0x1d6e090f0acd4da143b23f3ccc565567bdf49353b3416207af2096389b791b06;
0x45f7f1687d62eaaeedbfe3fd4f725c85176968069afd815dda5778563ae1a93;
0x2874ad2d5ff34d854490d2f41eb79295d0bd9befdd54580b257fb4f2da1cb9b3;
0x201894e0f41d2f3f21a6641ff9e3959584a749648f98c6c6b3c3dc6e8285239c;
0x1e51409dcf81bc661657b6f0cac27edeaa209baffb0c862fde7c0d0610506b73;
0x2cf3f549a9651db991a798c7392afcb8cfff307af338cee2a501dc1be740598a;
0x1b7aa8f35a2488bda1d6ee416a8be05035872fddbb96fa56645d0f63bad04b69;
0x182132ead4b05f9e1a44e7422da93b1e0e94d5906a78f63469cfa1b0ffd06a02;
0x1aa4d470abeaa2357079129d114bab1170944f929fc178216ad847d4430f3f27;
0x863bf81ed562159fc915b628bb76e3bae663dc10556dae9cd432ef8de50b6f9;
0x16eb9ab36c92c197c99c3d11ef6d1469a9c4f9779daedbe99a8e5f24c8f5c0fb;
0x2a0f1728e8a783630378d81f1509e94bb9803a47a112d99f7a58c60943c5c97d;
0x20b391efe82379701a0f86af56e5d22cd881f98d0ac433df14ed990881cb5ac;
0x586a52cbe0c5a8a0c45440f80dc7fc52451e815c5b0f784bb25f0ce319a1c01;
0x4af2601360cbbcef49162688f13409f2fb6026f4137a0b9f85d4e2272106766;
0x9ad52f4be13ee678536dc64d24eb019da0f5cfb36d4c35b667c7ef4c85ed800;
0x177a0d318b5c0b226c15afa0ebdb0f3d582caf9373d45e73c25ea6dbd1ef0e8e;
0x1ad9d99de7417cec3a5d831e8a8cc4d633ba770104d76f19740f8483411bc837;
0x69f24d59c4dbc2351edef37a68c5e0133da60eaf4ec85cc174f5509e4676f2c;
0x2f87a8a8a421081d17480f0363088e6604780562ec2d97aa1780a7be1d7808f1;
0x2c2318745d149dfbb796aaed50048227cb01c1885ab2eeec9897423d824e65bc;
0x128ec586a98e49ffbb2a98e078eb12b4c504448f53a7c59a7e2944ce6636ac02;
0x2ab7de0aed5e6302873d6cf0f642ecbcf4b84d263c5f60316ea0e434f518e270;
0x1aa4d470abeaa2357079129d114bab1170944f929fc178216ad847d4430f3f27;
0x642e786838ddb539b8b481d50922cf6acba80cbb8cd74d91558b4f7a59cfe41;
0x1e02bec25bd53fcc6becefa234ab7a591e14d7e1b9dded90a1bf8bdfdee1ae72;
0x261a2baf4b655675fadc57ed29369e831a3a236768779c26340007d048dabfb6;
0x10b56d5ccdd0be5391c62cda87eca6a70f12f8465ab4004c6742beafa69afad3;
0xd1e13710db39230e576013e5b339b6697349b6102a915993648b2097ad216d6;
0x2d0bd075d622a9ffaefc6998e1d3a845ac07e8827ceb27da1eb79ff36386be91;
0x17f840bc566db8a3debeac087e4c9d5db07e4eccd0871c09c5314fa935243f1;
0x299f4beec86f210fa27d718f78fae4f2d94a7d0b1e029c92bb0e33456c572506;
0x6aa7db000f3f4d915c35090ac9b1a90b269c8d90e76269053befd34b76c41a5;
0x10dc89ce0e3e131a594f3bd90a12586629af838d2dd7cd9566a66785cfc7b8de;
0x14e4b1cc172d23e0d5fc7f219fa43fc301be8d8702dc1311fd97f784d0d1d773;
0x26390978a65b917ecae0242affc450f91c4649139b132aaeb1406b77a751216d;
0x19aebfa3fa2b4cf836f3d9f5b672a682b20f82ef9cbf8f092608c22327f1663e;
0x2917d6cbc77bba7388d8c43278a57baf86c1fc54fbf57d0dc985238678c404a4;
0x1aa4d470abeaa2357079129d114bab1170944f929fc178216ad847d4430f3f27;
0x2962061bef3a0b557f60a3af8ca0b4e6b44336359bbfc9d30149435deeece130;
0x1ab2e3bd8c03c56d30372867a29a5017fc95e868c228c456e318ebb2a7c2de76;
0xdce3071ee2164d465e882c1f319aa89d169d4216a2b3a29dca0d74244c36a5e;
0x1c7ff77683589db1c00e5303d9568894c240201761b546d2aa38e6c63831a4c9;
0xda3ad9016d141320edf78fb242fc386662fc9183a250242fbe72997646ede8a;
0x108c858506802f97c0a8a005b6f3d0e73e56ade83d3e1ef9291783cebeb0104;
0x18a041ad99415766535e735d35e2406d99f500507d44c121194ab5d62bb3dc73;
0x804d788ecca64fcd1dc6eb9594fb8e91b5fc9027c2e0542369f2a125b1cd397;
0x7731d16594681b792f143ae2ef1365e94c7f0fe15a472a29d71aef1760961ea;
0x2bfa3cb90f13111146c89385af82d9051c4e02f738f2f996d2a5f1db712ec6bb;
0x1fddcd4b1429134574b4f66c202cd63a4214580e654e739ecfbfa3fc3bf8b41d;
0x886c258df023184bd7c942c2f273140834d867b8def498fb10218af80d66425;
0x19ccae1db1a9300785f134702d3b1c8d13d9ac87b9c2013e5285209cb804e1c2;
0x7a4b8155eb76363e05e5f00ff95defcbd37b94afd901c13045979dcb63d6ad9;
0x1aa4d470abeaa2357079129d114bab1170944f929fc178216ad847d4430f3f27;
0x11526ac8331c0fb6dd4e34233c163073d83300629288634713359b2dcfafcff0;
0x2ee5b7cdcb61f59988e2794312192b8afddd8f8fa1cf883c998f7a782891dc7b;
0x2b88c35e9f5dc25ddc81bc209216b88fb526ad94c189d5300c9476d0445426a;
0x1947ffebc3ac4ac3ccd1d57cefaf6190f1c1035bc5ba84706dcce44d9706f1bc;
0x99f8cc64e0503354ea12b5a678143fd74f1b4d69654c9a8baba1d58101a3147;
0x1afffd8d0170799d162462549921f3c7344d8a27eea55b4f9397c509f59f0e83;
0x2fcd5239954935486f68514bc4cbb30282b25171bb9227ac96ce5ec9e6486732;
0x2ca2a102b6561ae65db852da22c3b486fc77c6a2f5583506720a328a3aed8e20;
0x1002dc58bfec0fd85333fb805a44eaaa1b478ae253a3d4a57681590d0b52ddfb;
0x139557f5ff664db54d6be4e42e0b4f7ab92b47d9d81da1307240385200759205;
0x2c89c5c93e90d0a7039ca638e7a1ea5cbc2358e61044b6a09d103cfc9ac4d9c4;
0xcd0d79c5b4c6e7875b58f2c619fc727aba63df991c99d25ad2f24beca0df141;
0x184b385669595dd8fa774311e59b2abe04f59546686f74fec70c9514899894c6;
0x1cf3e5292afd10a90414741ed3287263f4af9515b8cae7f41d45e4109ab0ff06;
0x1aa4d470abeaa2357079129d114bab1170944f929fc178216ad847d4430f3f27;
0x2e764ed9c7bcd1b4f7a64f1afd3efad5476eece0cbc566617cc52bc51885cfd;
0x2e6eb18b75b4908c063a9204147ea1e9707791f2c6fd201d081703b4cdc97ddb;
0x172b99d8419fe0858380c2295d156c711ccf85f150ed4917ebc0942aba4ae961;
0x864eea049a1f9510949a12d9a6e74537b3aac9f670c50d4f4bb77a7b68d73f0;
0x1f9a772d2f96ded0661156db1ac0bbb7829ad3cde0c3e63bb95a5a47d4a2ca23;
0xe72ce0076500c498994a78879704743def13b87a1c78bb60557598652e84051;
0x183ca9c331d42e15818e0dd9fe4cea99078e0cb54013eb596f798c3dc22c4e52;
0xcf4da57b9a9c07ecd1427b2b437664b5a2e885e76e1eb08e234c7b12761beba;
0xc7aeb1957239cebeb8c3f35f94ab2fe443234d88b99fa1a77cc669717410a30;
0x120218ec06b07045ed6b079c2fa91b68cab9caf72ffef5816c4bb77cb3dca124;
0x290ab4acbb20c93cf9c99d07c9fd3189dd8a395928cf9be93857f3be7a4dcfce;
0x1da24af446511ae52972f6cb9490df5fb5ef6f0414b514380f9c645a78c8511f;
0x8eadf51c905e829f936a2a68786a45c09296b064ef0764b59e05398f7601d65;
0x19b72523f030bfb311fd94c66cb20d105ba2f1ff248bea6c3bc314cd4558005f;
0x1aa4d470abeaa2357079129d114bab1170944f929fc178216ad847d4430f3f27;
0x177f0b80a1de3ab56e24bf4f8e63b45b31685e1dc1da5e30553d6be482bad1ad;
0x5b07ed986c2df68a97a40e1c227c2f72d5520271666cd41326394722b9932c2;
0x24d2c3f8955b7a068cf9a7bf1cd3cc1f7daddbf2a99b581f3af4980fb1d17892;
0x25838298a0cc4b774b6bc89dc923f9d330599a9d122629aa96ed251b5bf10bf5;
0x2afd3dd5e0fc21f0d9a2926ae68745e8c7bdb307a5e790ea08872e878cd3bdcc;
0x80f2fce3bab6286e19d950f3372e78d4afe22d2b2757373253b424858b37e6e;
0x29ad15ea08093d81d74c6fef9f18aefa1a6915eeb05e47f4779c8c44bb17c8e8;
0xe004451085075e404f3daac34818db8878cd02f134592adbed0cc081851599a;
0x2c1793f6782d38379e1e1e3867db57bf514320c0e37fc2961e50ce2cd3a61c82;
0xbf3dd46be8800ec0b7452c61319c2aa365307c9b7e9d955aa7aa1057e91dad3;
0x2dc74ff53d61799295950b34ea3daf706a0acd6d5cd2ab7461ec706dba082402;
0x12d0bf8b8fe9ecbabdc9464854f9df7fc9950388a9f68bf7920aebb5f0285a2c;
0x1e939676347eeeeaa96e3c0bd51e14604ecd97336f72eb054c61fa71309e43cb;
0xa5c3db062ebf2c84c384588b0e97a0d2431f7334ea9006436f6795aba6423a7;
0x1aa4d470abeaa2357079129d114bab1170944f929fc178216ad847d4430f3f27;
0x41b75c1586f0664a618abc2e19231f4230761fbbf90746fa7ec06d4a517311f;
0x202eb00eddadb4c0761953255195ee55af32ca0621e408a73eec96f080f07d1f;
0xf0cbd02267d601b91a1a62e5d54246f07b337e84661c9a7f40de79f8527e94;
0x14f2c248139059dfe9f4d970c661fd17be54e8fcb3a7e2cfc1160288a01d3904;
0x1ba2c5f95dfaf2df18985f49b0be1c1892b59dfcde7afcf553fbde41c2397183;
0xe0b040e8c04374f4ff9c54e6ae1cbd79cf4e46a5a32d644ae35f95b6c924540;
0x3d017d86b1b62da699920b08e0bcade7c6c365edb3b9b2ed28e1cc5c37351eb;
0x23b785d6905e142dc5f955a2ed3b4f57c0f18c79b9599d1f21a9d370d323283c;
0x860b1ccb980266b5c9800d56394061e4a39bb2b31d503e915c8e4f2678a66c9;
0x1e3095884e8e3e82a4282d39e2020cd3f4dd4c14def98a1bb3e4dfba4f372cd;
0x1c0063fdf232c7cacaeaaf3243b4acd8511f8b784129c8d6a7fbaca45477c377;
0x2de234571d455023bde68bbae1fb69b62b80b889c8c8099beb25adef8da9f879;
0x305e6097b1a9cd0761e08a2509895f2d6ebf453aa7f3841bd97809cfa9a46635;
0x2bcc7b73e56788e3f70565b4168248b0321f65d941840f199ca849402bd52971;
0x1aa4d470abeaa2357079129d114bab1170944f929fc178216ad847d4430f3f27;
0x1d437882b57028c88c69eab64507b2649e1705eb397a4069781ac10151eb2258;
0x1af1a36aae7b181df7ddbfb34e34a53ae40e8529c224ec940907fdbcf97522e2;
0x2785516123326658487ced2a9e864d2a9372df4a480d96a810f3ae1246840a50;
0x27d476e2c174e2eecb790e9d96acaf1b17c675fd85f84923f0bd1744a0f700cf;
0x1eb090499e37004464a5edf2eeedeec40e2c2becdb31426992f382a1e1197753;
0x92fe84aaf6c1b773c1e9afa8775db02848a85bed444d4133e1fca601c6c68ca;
0x104d16cb816ebbc760c4b3e28fe8c18aed972dadeb94896a2310ff9d61d44e3b;
0x2fa387f6bb06f1d9cd2e78be84286a7d58cfd870c5c1e8315232361f2b44cd0f;
0x176b64eac41dadeaa403f9ed5910f11a419372fd90df93bed240c8f79ae5c550;
0x2ad76ba01e94f7bb8412f271b92d24ad2d7efe5eed06b0852d8f53a7700022b3;
0x1a8932f1b4cfac9286ce27de3faeaddfa0733d07261297a38cce6399d96fc38e;
0x1eaa55a6354586d0087e1d042859f63927cf27def44830af38905e3d876ffd15;
0x34c7817421f2bc213fd6caced95f1cf9b176473e8721a100b1b6eef4348b786;
0x31efc323d83d4deceef06774dfe798dacc4c5946664b0431d54e67acbb840fe;
0x1aa4d470abeaa2357079129d114bab1170944f929fc178216ad847d4430f3f27;
0x9e3886c90029fe260f4a2fec7d2e1c9a0d07abe79ea3598a758ad63c20e807;
0x1525c95ae08bd592e2e428803d4e6a493016a47943488b02a78f2d552d16c4a7;
0xb1011a90a452ee3a6bad8aa9e4885a62472da29771ebb98cee7117ba1f0e77b;
0x2fa5ca0f8d2c52fb2b4578e1efb6e1a77fffd1bc525809626d3535833c5001bb;
0x1db0397e4ddd02c509cf2ed25df7b81dfc5ae489bb9415ccb7127a205d3e876e;
0x27a3012fa6ee7c193ece6fd7692ee96b8e4c89797792262db8d6d1efd755dbe0;
0x274e23c2c097373e9a0d952f34b70020e233fd2e0a67c4e20729a5fc17f88c;
0xaef53482e7e1c25fb664756df6ae69506b5e7aef718b3b1486aec64c4078ab9;
0x457365cb68df73941a3ba80edae9f25aa2250e63cdd3a3b86b031cca2134d8c;
0x1ca262a197b5402ad0640e919508176a3988519d3bcf91b55930fed1fc89ea20;
0x2131c2ae4df6b479dcf26ed81a1ecfd47e351d7dc790ee906dbafbd803991c4c;
0x162bf8864391b12a2b1dafcb658fb94cbfc90e0bddf199cbbc66564550036827;
0xc7a2f06399f8766bbc313a2f1fbda042eca4ba85734b4040db27cf4ac1e8ef2;
0x2f9fa0e3320e9ac3cf702f8750b5bd1c71c697a583c34cf417706738314eead1;
0x1aa4d470abeaa2357079129d114bab1170944f929fc178216ad847d4430f3f27;
0x9f933726715613504e7cdc8700fac64aff61cd1899b4754249b7e61bdba19f4;
0xebcc03b0c123f471bf2e57426211644f0098aac347c81fd12621c7187bb787d;
0x246aed0e85ffca6527d79f2e223c37b5d7df029c52d38b340bac3b2d3e2257bc;
0xeed1e00ab5b0ecbf337edc63d27cfcf9135997f860f96befc4198c56e59c72;
0x4df1a4aa55992245ce955d325c1c08a841f727b9e9ce11cbe54835d575c56fd;
0xd5e59bf9fe7755023aaf344298440987786568aa06aa9d03f8a33f70b227fde;
0x2ffe56ed078cbe07667f7e48e1a360d4710d046f0bb51130f9b924eee01dc332;
0xd13ed4075159b29a4d4ff4f9fd7d768fbd28dd4487a2bdf2a813540bfb99907;
0x173512477cbd6d2a69801143d1e7fce3a6ce79cfe3bc2a2ebeed24bb7e6672a4;
0xcbd4277bd737219d8739e4e818cecfb664e369782e296a56290020877778329;
0x14588264fd7d1fdd6d4ae3e372417fc1ebd7fa434fb945fadc55ee805b81d3e0;
0x14acd0cc6605c0c722a1d399ad5433d5450614fc3231d5af742ec5926c35e77c;
0x14320d8cb13dcc09670d6e93819b69d7e66504066f9095ed4ff25566d3a066a0;
0x1b3e47537a897026a989e433fb7c4eba62144a10781548577de3f370434b6578;
0x1aa4d470abeaa2357079129d114bab1170944f929fc178216ad847d4430f3f27;
0x263d424c886417f9b6ac1de0e2c1bb2e32b870fe671b11e8219760d1ae4ad0b;
0x1545d2c32ddd1e1e37103adeeb116e09275624e964f6efba626787ea0b1089d;
0x287183d246f54265d2283b5bad5c4dc4ff3e5765025efb643ed93015c1de8a71;
0xbc24a36833b64ccaa323f7622d1b9bedcc204bf19b7f83be4c62b8771a2ecee;
0x2ac5f667d34cfc3cc80a3788402696009dce7f61ad3483b54de3246cfbdbe164;
0x269ec95973b00d3f96125e7daca220f7ebd6bcb6f08df2d39301ba36c6ea4fb;
0x1bda71d6e900e79196f126cddb042592ce1b6c0c0b92cd7d86bbb8613c2ee0ef;
0x2dd51fa2045a74f10e86b8301210f5acf7bcfb7f40b8d984ed23a00e3268219e;
0x81f8b7c05030b310ec5adfe7f6ee0efc0c44b6facb8701fb1aa3852aaa29db2;
0x12cd7c92b7efc7b50810ad410dee511e137f3c995e4b8080e98902c5c862452f;
0x222b991677686866f2059fb4d66bd16b9f3fff5b65df7c782747dc0bc7dfefb9;
0x171f3e3c2562f120982c7dd903d7b74665f3e8d085e398dfc4d7f73a837c0ae9;
0x1b7b4bd3c56e17518b850f06f15341f6e610254b420dbd4873030c0f309c3c72;
0x16c84ba6c4962352d3073fbefa9034f5d7d1035773e84ea47a70b5cf615c7147;
0x1aa4d470abeaa2357079129d114bab1170944f929fc178216ad847d4430f3f27;
0x3928b7c1f5234a3ef4caf7d19b815c0ce64a8e8906f2dcac43a5ad59c24f14c;
0x254ec8b72f52e44c83734b672b33b630e8931d1522f5b25c69273784b997bb46;
0x17084c1eb0e0ce6e4baf294ce40d5b24ca44b06ce6551b90d9f0ef7a5caf4339;
0xc57ca90acee1624f9315266c48c653bd44400b9424e172953f044338a77b27e;
0x5c7aa15848b5250efecf2eefb8b6758751f0e69ed1ece426fe6f85666b6a5a7;
0x15ed7d3733abe5c01bc9491e0816d11aec10b0dbfaa86fb47279d7a1448e20b6;
0x2fcca33e780707db84102f6a8f1e9a652874845769918754db5d936fbdbdc5d5;
0x2d23b90c995b3b2956fbdb6448195ed441e717a7895dc1e433815b9a8077d315;
0x138d37c5ccdfefe044ee28894bb422f29e9f3860154ac2ddefdc900bd5b1e2ee;
0x801587f5637bdf253298bdb8c8fa556bba51f40c6c4713d73e31a0f0e72ce6f;
0x23cf40715c260876a24e43b5c314c2a1cce16e1f412ebcb0916f2fea18e5893d;
0x2733d53df2ccff16c87efc741114e39ebbaeff9f12ba0376b931b402629c525c;
0x23e801d5f635e9af022f077b1a43f877db7241055d3c71b771ffa75cf6eee4ad;
0xd094fe93f2bf4cd4af61d10a7bfe2b145692cb94337ecbff9c91aa88ffcf890;
0x1aa4d470abeaa2357079129d114bab1170944f929fc178216ad847d4430f3f27;
0x93b40efe6c068bfde4c0c198171a60e496e1d834c28765c9afda090405e4a56;
0x2305950150a0b9c2cae71061661c181c1a6b3d5c87980b91ca959450e5cad30a;
0x2107ba64be5e7797def29bd72b72b8bf0b1428062ee8902aaa58f0676ed03aed;
0xed4b91b00cb5bfa594ed5cb57d703424a8f2dd9daf5f54f6fff74e5cb0198d9;
0x2c7df01a6a701115c6d07756e4e0359ff5191b58300db58aa98cdf3c985252d1;
0x5d54d23f2d684e0c609aaf56ce816de9d5871924ba47ea7025885674f2bd411;
0x248f367c66a05a93adc27d36acc9ecdaceac63385cc5389d01a8d7bed9388525;
0xef717b148e289194b332dec7ed2ac824317e40beb40d74ac7bfddb23d2b3cc9;
0x1559abe59817b0a24492729506cadb87e76fb54f9214ac87346f8013c3032b3;
0x3bd5cd6f008061a1c0b2da097013ed88d28caa10de0036904ca03a4bcfade75;
0x2ba9dabbe0f9fdc8efff7060142fe244cda2d8feffe907ff23cc61c08b619da8;
0x139f0add5443dfbe642f4f60a57ab2502a2faeae1b6f12e1e5e09b1909050fbd;
0x8965484ff559d1e6864e3abadb5d8dd402ad180059473b76e9bf827b7542463;
0x240c21fb9f6cf7f02e733c6609f9773970098adc7e21b041f7486156b4f78e3c;
0x1aa4d470abeaa2357079129d114bab1170944f929fc178216ad847d4430f3f27;
0x151923a505f13bee4d368e9f471b79b499975b00aabef8962a861e7c858f2999;
0x20f6374e3f28e5665b4288c722551c898eb41fd64f2878b47ffc9188812c1e3c;
0x1f26fe05c0ecf99843cc88c28bf5c7bb0f744153fcb405c37d4c9e5c60dff349;
0x101a3d68872e2a2174e1e73cc53c3034532ccbfc8645ba9bd17744a0a9b7c7ab;
0x1015cbc312d356c0ce96131b59584b0794aa717ea120efc994512c1dfdeb4226;
0x1a7b53d07ebf6963fe87166c26f5c041019f2210f4eb48383c9abe98a35c3c77;
0x8fd8a0e2a1df82e44da83d916b870960f621aa62a5336b9cd0bb124bd30ed8;
0x2c43cee66409ac215740bc8b1f684999679b5e240301f8030ad3fef640e05c51;
0x2c29dbf22349ffb1635b0182ea7d3ba41c0748fe4bf06b44a401cd15eb0ef330;
0x1c13b6b5651a6d7f3929ab0946246f7366f5addc9d360bc5ddce3599638a090c;
0x10171b916d8a14075abfe7c468b01d239c7043a8f97df103701e716bf5a73f29;
0xc57c3d6c68c9d2da843ac9b37adcf1c46a3e0eac7c42fda4dfe0ce5c799ae5d;
0x131e361e5a8725d01e57c3c77bfa27d1f3329533b82ef4b01a1ab3ddad098856;
0xfd9e076ff4f5dc71afbb2743c74f080a43853793f8f6d80a93f3cdd39012fa8;
0x1aa4d470abeaa2357079129d114bab1170944f929fc178216ad847d4430f3f27;
0x1573d9a6d17cf8af947c125da5f9f64516344307d15be028600d7fbbf3a99080;
0x2b6645695f714c85742f738822c21a26c8906c1bc19f98e0c34cd1eb463da48a;
0x2fec770ae63e759af86d0742b049eb76e81d45f6807728e66930d00cb9e1a404;
0x24ed0296e066560c8dcb239e7e7f39ddcb1898e5836543f8e98aeccb6f6144fc;
0x1ace8484c0d96d050ade091dbcf0c6cd9bef86884bbec6f8ee56ca5ff46b9325;
0x110a7faed51892c73e54c654f2fa35e47fd2647d90d6e5e5a8afef6dda4da73d;
0x1491aa7f36d89ac133fa9992990af2913b71196cb0d0c3511c34aa52af7d4fe4;
0x20cb0c1cd1adeefa16498b4673c4596b37f34fdfe83a41065c1fab66c42f34b5;
0x1ba292539d1568ec6a3e2615134dbb5134c73e6b14deca4c1b1a993f9441c830;
0x21bbe75d7c858ac948623d0de8c35924f28f466ef62a7a473d6a1b4f592a007d;
0x1c96f9fb4c6bc33d46892d8826bd0c2f24d7dbbf38d9dbecf09e77f69bd701f2;
0x12d33ecdd6482928f8aac0987910bbc372ba2f107d6e2a25fee34e82f10be2d5;
0x2c1b610ce987acbfcda328fd40b56c209b6a944bf5781e3a77d1af9fa30baa6f;
0x2d77c3f420a31d59dc0cf83c4518721eca03f4c8913fac371b553b966cfea46e;
0x1aa4d470abeaa2357079129d114bab1170944f929fc178216ad847d4430f3f27;
0x1e081cb9e91ff3eb0d111f2be59f4ec3febd9407a69ecb0778d7355ed3048ced;
0x2e0888b957e0fcfecca2a1157dd74cb01a1d8545d15ca25f937c554195da3c9d;
0x14434487e62089ed7659870346fb4acabe0f9f9ead2a19657a88cac39f773bbe;
0x9299821c0f470cc59fb688b6e57522d7f57aff1e589dc15722869ede760a9e1;
0x1f1ce2cba9b4c9aad6bcaf3bf03f690e267acf7e335863a54e6987634279b9d2;
0x199fab9479b7b342dfb6dfcd8adcdb5ef8cd9cacd897ff15a3445379d86fd826;
0x2bcff4e8008af4e04f02c3373fb37247aa873ce7b7caa35030fba7360479a6d6;
0x3b2b37e288090ff11cd831c00b9fbedf6d82e97540c5607b59a1a5ab4e305c2;
0xd3c39eb880cde63d9a4fec82a68313c912a25d4638a1f6177adf9d841d3d84;
0x121da38157e113a3b3e4060acab7e1b40b36ce2e2a677e5bef5abebd6d4c94b1;
0x1a5923736c007cdd31311b26d560615fadc7e01e86240033e1f2465e93df234a;
0x90f568d806c5c4b1b5e61542ba122cf1f5d4aed3966c26508d824c3228e97a0;
0x20d2b7987c326a68610ba3cecd0b4dc54c90390df012b7d96170d9693c29cd01;
0x3020b14b8e1529cdd9289680c5ad441627632cab08b206759d28e76a0fbfe97;
0x1aa4d470abeaa2357079129d114bab1170944f929fc178216ad847d4430f3f27;
0x1aed16276f89ca766d4502fe21ccce046a63cd2f7d44a0aa8770771e2f012eee;
0x29a61b71b5a33237899eca4e7f4e40d008c97a32bbeb0c7c09d8f24d6ca574c6;
0x301dabbfd4bbca914d16943cbbfc3ebf006988c86b054d6b613f07ae1d092afc;
0x2a3c6d1263e470cca3ae533107339b8dfed7700c910039b2b45b2bc67575f9f4;
0x20ff2a6b8212735ccb82ff59798862854e3244244cb0566f5d3d59e341aa36d2;
0x2e5dab75ff69d4a42e745287c98107ca9c3e423dc6f41096c039eb9724b8252;
0x2f0f8690c7cd4737e913653ebd84f51d5f727bb6ec729c78c42972aa34d6e4cd;
0x2be6c4a5efe483fe0a737eb77df7815a6599f091f021131ef37fd192305c4c53;
0x2f18439786b79df3460f437b9fed74ffa5d899e2fc7774ac78afd1c75d7d98b;
0x257eb2e8a7939be6bfc59d3fc6fba75da35049a36277c37513de03f6cae91538;
0x12f8298c4a68070f15caaf500879659d02c3aa9b771106241917cb6638608133;
0x22aa263182f19c8abe727e87a2291fdd6af7014f5ee5ac6c198a108dcf02f539;
0x14cee2715a061bc708337507b88d099267ffd7d71962eba1bf7d2a117106b111;
0xbea09b03b5e03d2565e9b4f7c43a91ed8137de6dfa41f70ec7b24d58eb7b1b4;
0x1aa4d470abeaa2357079129d114bab1170944f929fc178216ad847d4430f3f27;
0x1c01114013e2d2cc0f452ef7ef2b20226cc69e57b028464e95228e951d1cd855;
0x25c7e0412d2072062684e96b656c4410dd5d77f644c64b1b1c84ad5e882cde60;
0x1231e9e375c85c424c5fac79600e91904f849b8fb71c7ab4c37a7ae58c17d5e0;
0x7a0a63d6b544338243ae9c846b542b213c67256036a719a44a451b8e621d846;
0x2894d383becca5a477263e188d30dd81d7a41e56ef5c85c10d97a309b8daccfe;
0x101c0e6bc868c92f99608d9839fb6263313c2ae6efe4d9efc642d577577066b3;
0x1d2a84f7475ba65bf319106ab571e734611e0aa742df49e03c98814c215582f1;
0x2d2913e61d8423d557920d0a4ce230a35e6f45df0092e1af389d420902295e2b;
0x1eed01941020a3099668dfa81b2a57c1639ea6c61ffd2cfce89f696e78023df;
0x25417306ef421d8d0a06515c241b62dba2f16368b56c0a09f876850c4d008621;
0xbd0953d640552207b0df37f4ab00cfee2f4585286e008d53eb0124464fd5506;
0x29beb31dd4af45a599dbda7e3014c88b4b0173b369e9674313022ec3c39d1875;
0x25305ba821d4ecca68275fbdfe54f068a8e3b5435bcef6b7bc4a8da67f912917;
0x1bfec9a5d8a1c5ed86c4e7fdbb6b96e302602d14f55488b1b98644e612208088;
0x1aa4d470abeaa2357079129d114bab1170944f929fc178216ad847d4430f3f27;
0x177f31701c5cd86c2135c582fa22d1fa1005ad148e125c80046a52f99a278a07;
0x84b44037ca846dc363a64737ed25eae81e47527aad42c8b860d2f167fc86299;
0x5db3b44bdbc42b1b4f26c99fe1a2cf645f28e6ce71253d92a406dd86a607bcf;
0x1878ea943321eb7644a12615ea82860ffad4e28428239902a7f4fb2fd33464bf;
0x124df4728f64270968bda5aef3424393b51e84bcc672db75983ccca6e6efb12d;
0x23650e1dad9d21e3b5a1140b178f9d57e838a0938bdc88ad7c23256b09624fe3;
0x201a52e3c2b36532a496eb42060c6150fd7dc3ac2db72df850c3a2e3f254654b;
0x1f4978ca0763083af095848af1757750ea81d782d96385665df0b60121ede60;
0xb98fdbb00789a5b9590ef157c1907a3e9bd3cb67887bba7a251b58cd45867bc;
0xa497dff0328c9b639bfb1f441586b3db11c09773623bdbc12c40ce544d90504;
0xeb016dd39c878c0b09b6c6e86c6527f9cbdf0992e71d929855f0d4525775008;
0x18efdc04259cca1130aedc7167097d26eea98c38db92d699f7140d3148b782a1;
0x126f37ef258caacf14662c6e1f6df9dc4fc6d1792a17be1af28439b6b7c98de2;
0x288928203b020d9e6a57ee9e15ac29d64e2777ee080493070517c1a3338cbbf9;
0x1aa4d470abeaa2357079129d114bab1170944f929fc178216ad847d4430f3f27;
0x296ea4e3760ee3d1cbfabf9cb73a506d7cd78b9a28ea959e977d056cb07185dc;
0x9a7542033713ab98cae7b350528046a818dc1bc4daf2c2119d38abb2e0877a3;
0x3034706ae9245292d2aef241b738bd3b0b211757e4c2e0137e2c65c1e3c67d17;
0x104ca211af2cb44baee1525e9c4887c1ca96f2d147148d6f8d7083ef975b4fd7;
0x1b523f8867ec145c19ff50d4bdb5606c20ff01ab3bce0c0768fc28a4a3d595a6;
0xd5edeaf84c1e75e0d4f670c09dfaa070db33640e744336c60b18d1b9b90496a;
0x5124b407c8fb40067ff8163af388ac99b168031ecc22aa7423e756fef6c962c;
0x8ca29ea50b36354afce9507079a06f06753a3e21362599c3b72d542050c49dc;
0x4c3626ce2dbc4d64f6ab695c59f8f51f383a183e5033700af83f83c3189c1e9;
0x14bf66fe46f1f1180c24f16aeb7dec3f4ad00c1b6e9988c5642b549609b37573;
0x67b2bfe7bce2dfbfeb90eeedba00121ed2622c38d4044ea6de739dfd5f75d16;
0x9287eb9fb34d9ff43ebf373466427795393823f8d70c88ea76dbd7ac989bd6d;
0x16ff59f0d679ae8e74aeafccd0714d966c4fe1936aa0c7fbaf8828168850524b;
0x2051d8ce6c5dcebc2d7ffe11130757bcf7cd14283103d3fde53e7f7a880a8519;
0x1aa4d470abeaa2357079129d114bab1170944f929fc178216ad847d4430f3f27;
0x1d360ee3116f0744286da43406049bd1b821cfa4c3e823752c00f0451c942254;
0x1f6ccdc7743ba72305a0491a306aacf4e3b036b0f0602daa88feb8fd8cc62cac;
0xf8507197161fa267d0c68cd381d423f3880ca56ebd0d7ecec6ae88fa68d7a2f;
0x18b4a57860ae5f6b5ac2d4f8c924b2bb3872dca3db783bae02da366fc84b7a14;
0xaf716e6f1286cfdfdd93f1417a064cd76b1a7e2347d61d9b1821eb8a4ddeebc;
0x14f128af47080db5d122ae1a8bae27475c1933fe73cfe2a80d89380b2147915e;
0x1f2f97cd81cfeaf9ab80320e688f2af45c9dfc4a74f7227c7205fb05697ce2f2;
0x7a985fca61c3346a08e8fc31167636507b13885850b9cbc64798de9b76cc57a;
0x280e7d98a95b9e3ebce1a4d8325d69f42ae8c7f7325a04bfdfcd531a70d0816b;
0x1cce1cb692b8c6c02c7b6a2e20d1fc36f031bcc44ff6bff0c4abb5b1c743af5;
0x2ac9fd902f4b6bc5f917228507b403859cb67077ec2beae84ca18677858e5686;
0x1b69cbf6f6bcec50e71597c63a62a8253a63412612ce4e79b262753831b970e;
0x981ecb674c4f9996a0f8f019d64520c9d933ad0c6375f17a643430355113cac;
0x14faa8f8184c8aca46363826f864877722020035970dbf1090d4d3911db9a9eb;
0x1aa4d470abeaa2357079129d114bab1170944f929fc178216ad847d4430f3f27;
0x1a6906fda19b094b2bd4def4b25eaf4d799cf919d0e1483d9380180064116cf1;
0x1ab6dc94517f1a235d1107902b6c034b5535cfbe94ca9096bf72330be04b179e;
0x15669b5e4dcd66cf29b6c06a9308f8672f88d069e7e8eac7cb11808b82913038;
0x132f02aebee7db7f69fdb68ca8fbd57f387664e6420fe20060941344fe5b63fc;
0x46f52fecf6e77a95b31226d34954f28b9d0e2e8008de5b3d11c274d7e44fe1b;
0x2b69ede24d4e37f1a8c1d58edf35d0a7f9a0716c3f709cfe5cfa6f069fc7dcd6;
0xdc2cca8f0d3eff4d287722ba1c50b9062230d5b6c748aa4d7003385ec5424b2;
0xd1b03d009a6a0295cdbc9f23ef32bc2933f30a8baf2360203ab064b69388339;
0x1a1972438cf29f99b6802d9a1b24efc501739c6d7278a5f30b1667c2b7bfc5d6;
0x203dd92f30579361e8ecfe9e084cb41cbaf7b93fad6d7f7abc9d0f73fba44075;
0x9d6f86adffae5e4fa6d5dfa644e97a5b382a1c7e90514bea8ecd1da42773380;
0x12d40572e1dbe47334a16c73922e7c4da9675a76d5fe099027ba003cee8f2b8e;
0xc3c34e73158918b72653147d1e3d059b256c1657fe50430a778e63f6140550e;
0x6973060f725dfae61acbcf3171f17ae957cd862e86f9fc6a47fc7ace24a8867;
0x1aa4d470abeaa2357079129d114bab1170944f929fc178216ad847d4430f3f27;
0x1b3a5512b18428893b48c2fe915756e7cc7aeaa8ca36c2eff6dab81568264de1;
0x2ab9670c18ff8edc1c84c1ab36ca686990f07e16b567bf9642165edaa5a6346e;
0x10660d5082b8fcb7f5f4eb051f926e99a5fedbd706fe191bb18c26d34be30763;
0x1aecba1af9b70281bc2722c0d82a097305c208a383c68330a1633fe3b59c94a7;
0xd23a06e79761902a6ef30749c86998c3d20bc827cfbe2f22bba0f484dcc04d7;
0x282b6bffb062fbebaa4772f808780b00b77da1c52fa648bd74ae0ad49fc62d9f;
0x27d48b15b151378a1e738977abc4ce2d8bcab816dc32797ca060ee009ac74444;
0x2552efb9ecebe9e17a82574887359facf5cd61ab2ea64bcd60c50e053124376d;
0x2e505630db4463f1d226d0e1fcc5be4ce4577e3911bd3262317a4fb32d7f8ea7;
0x1d85ef93d9f0524c0d579400f62d8fa7f6235c8631bad07509d79e20db614ad7;
0x24bac63bf16607fb32c48e942d0cbec8b7fb18554f342d6973a6fe3a309c6248;
0x2403a33705855d9d4456779033eeb1938e9c9bcedc4f1b28f90c7fce3e4f39dc;
0xe661908904f5e530a16e3c1184aacd43ecbbfaefe6b55899026b9fc9940db1b;
0xee6336e66fcdb3a64d86b979baab0bd235291bdfb213ed532aefa0a72e5c3a8;
0x1aa4d470abeaa2357079129d114bab1170944f929fc178216ad847d4430f3f27;
0xbc63f41651e844c66007421b547d69d694573b1343b8583aadeb8f39b9c5af7;
0xe5cdb3465f12743f71ef5f504e6a5927eb824266a82bd02df035efe08e921f0;
0x1a0af69734aab2e4304d15e7a69b2e64956b4214c330d935647b2b127f6afd94;
0x2144915f6e6f829e7179c5c005ffe6c9ee3a796e32de5577225696a77e7c381d;
0x24b6274d2f945bda6058c3366b6d91e33740897c6e6f133304487b63bf0ba435;
0x10efc44751f6ba491452b84a92594336c6ff4012098f9fe85420242cdf082baf;
0x36ebc6a6fcb98eed5d0dcf87239433879d99acf6fbdc570510ed6c825055dea;
0x17a1b2378fea94d0b1a96ea700505bb45c4318c9b911949a7107414f636a91cc;
0x2e455a7518e54ec2e0fdcdd2821e488877c594f854131e6a9aee732db95666d6;
0x1e7397644ed4f4cbb8e931b0db4904f29102b50a3ca839c43ac4c0c399c9a8ae;
0xdf88ef1f1a67a39feb725316726c97b084981300a496619a38d3fefb6d362f;
0x24e11fc9c4c7763829d801dd3a205359bb3792da2ef8b2741ab3b2c54acec8ad;
0x4920b3e800f77d7cc99d8ee4d0141a45d27929e6e4a7d7bc4193ae25ae82033;
0x20ab7b6abd43a88f684217ef931c13cc11908564c8603e01993b0e277ab29f8e;
0x1aa4d470abeaa2357079129d114bab1170944f929fc178216ad847d4430f3f27;
0x10f8a59f8273eacdb9154a734653e4ff7fce0da404f36b2fd001b3f077ba68b0;
0x1652153e375ecd237c21acdc3f96d39088fd656dff8d66f867de878470fb391f;
0x12a4756111ec068e3b9c4a1427b09f9a313e018d831f7ae5efe9f3f6c61c13f4;
0x11243b19f113241477e4790f89b8ea79666796ebaa31cc2ce3700ff51ed3cbf0;
0x93d6ab40a9a4a3bd74f097120654c82fecfbefd1067f73ba5aaf031b1c18c35;
0x2f26911b23466c23bdffbb8aba815752b6d0bde3d12088becad0b08fd1dc4976;
0x1a03dabe66a3037832d93a1c3c33574c5b28787fa643ec5149830f81ecc92bda;
0x223b10c2c547e1a2ba41fb918bb5ab602a9ff21a19c37c157ffaebc95bac4870;
0x1f271876f17d7ccebb222aa3da4cc09407aab4dfdd453f1ddcf248631eec1088;
0x1adb58add70e22de5100c3f187057e930c9d122e128c3d1159874c304dcc1090;
0x27b3f7ea1e34373d8183be5e462f0ec51d5d0c8bf049a2b48d30ca821b368afc;
0x1e5ab69a6f006ef5ff38e49fc34b58d101ae90bacc8a638c353a636ac6e0cc6;
0x14ebbd0ad1f23e2c7af18b8c43a41e86492189f38299783c3edf8e9fa8a2073f;
0x939c8f74cf317552b74f7ad2ad5d0accf3e02ac3b9e67a91964539bcf09295c;
0x1aa4d470abeaa2357079129d114bab1170944f929fc178216ad847d4430f3f27;
0x1a55cdf6625cb645cd6090c3f525f6e297864a501041dcbcdb37b6f15af7e36a;
0x27af5f96cbc32f217ffe217d4d478a315f2095286d6589ae3510e847a7741009;
0x2210a4f1e6607e23b90a45345ccc56984bc8a6256c661f04292b78523bdcc7e8;
0x21f9fb0fc7ea61cd6d0ff2d35785d6e7d15c7a9cda7cbd3e39c44166f4b175b4;
0x1ee5d14567c941c70d07adfb6dd50467eb0668b7bdd1fce1879bdceeb059f94f;
0x246ed97e4eadebe50c8a0afdebd6598030f27e87b89f0bf73090da4d95f12c63;
0x16f44dd900dd9f274617e2d614733244838171bf0c89ac30256eeabd5c8ee945;
0x1e45e42c3dcea63b20518075c16745af5e20536983b16f632d3c15c91b3d7d16;
0x19fac5ce0028674ce8bb40058162e50f9f9f8b8905540fb7722930cbb20112a1;
0x1190997dcdb0f5772ca3de8b876a4be62f8ee0b39d6c233c95848d073a8ed6a0;
0x96c7db7d0085737934ded26317191715fa6c789de3df7e68f00e8af528530f3;
0x1c21d771cd0338f0c0c00ff71e4af2c1d7db81922ced098fe6989afe7d1e4d19;
0x2dd43d3c40b768f5625758dc35668efb3ba747347d5ffc980ec0b0cbab709c8b;
0x1030059f96d75e04bc5f81b89fb7b5b0fff0361adf04c4f0cede89630d2f037a;
0x1aa4d470abeaa2357079129d114bab1170944f929fc178216ad847d4430f3f27;
0x1635019295b65b0190fdd718927dafe4c0c965772665800cfd539d559f0900a9;
0x2c17c890b715b3bbec14cfc8f060ea84d7c12df2e51cc1e8a6e987f45c01674a;
0xc8ffea42dd7b206033427a512377d3054fe4f8f86357aac58032fa2dfe7c7ed;
0x12fa55dfd670309af2d98c8de77c302a5ee4ca3eb08b90f27230f05ff4287c7f;
0x9009662a5a28a89ae9d6da9b3981767d2cced18677e42773fd4334297d6efa9;
0x25caebb5501e77f1731a54be0e06f8c005176127f3556ddcbe24fb5804e08206;
0x195e006734786e591acd92fd233f784503f3fdb5db18299592de56d770028a9;
0x47885b986f4d10ab44463042a0bfc3adfa3bb9b553bac96ed40f616291bce26;
0x930f3aa1c5410395f9b17a20a1753b721a0291fda6f32bee8aaa6ede298d720;
0x24af63803104e8318c3e7a41cf8027ad36a631ea11d56552bedb5f00239f902a;
0x27c63e725d17d9a44f47fc73f02d7bb2150ba0f6031f004e600ce008440aef5;
0x157270a74e4ecc8bb6f976c5bdce70912cf64fe9c8816d62d42b0eacd9514dab;
0x2190e7e822c0508c71e3ab7134fd89a40775be99a1b38c2767f6313835eef8b0;
0x234f3cd5e0cf731da507c91ae18d28061082ae9aa580746149d1a48f6a8db2a6;
0x1aa4d470abeaa2357079129d114bab1170944f929fc178216ad847d4430f3f27;
0x1433fc6bf42a2541e40c104a24d5cb9d462fb71bf094bd998c85933874eee2f3;
0x10a8445d83f3b7ec65128083a39f5c759b9f52bb8ce5c024be8e2d300e0cc652;
0x1a1d8481d39a772911f9bcee025d79049764dceb488a8275f03a39870fb4c909;
0x82dea281aa11435a7429463b3fadaa3bc680aaf49f02ee5c40d110f63731a47;
0x13556947fd0714aed251e0fcf91cd0e8d0fef2dac3db4ff9f3b6c5365ee9ba2d;
0x29508794226e7cb06bc170032d377edc210dabebd3a254ecd4df794d65f8cf47;
0x3cf4fecc54b529b247e48048a963709b22630ce719ac8a9e9d1f8e74b73e702;
0x16cc17305b3d333276a9cb43d51089ead04dc2f1e197fff0012d4c7c4db5829a;
0xc36f031884453fce7824bd724f25e8fe71d3e640baedd9398a719d8f01c560a;
0x50ff40107aafa9a2e30ea1a24b64129fe55da84a294ca8d0afcb9956ab09797;
0x28b18039884a6d69dafea66b723072e0c55b1fdab6b247e801d6cdd52c7f81b9;
0xbe18fb2749573c5b7b7534ef3cb0ad5651a801b3c6bb875fdf30cf8b155d8e6;
0x2ed3ba243fb561e308a7da234e581898983172e58ce98d9a94aee5b6de925b5f;
0x248eb1ee129d515abdd9f65a6fa7711b708374187faa61acbbb6d21b2e26dc7c;
0x1aa4d470abeaa2357079129d114bab1170944f929fc178216ad847d4430f3f27;
0x89fb8b0837e0b7c9598c3bb5efc40e62ff31e66ea4f5e51b9330a20f9d5e553;
0x2c17324ec8d80ef220016641f18bb8ef3ad0d18e4de8dec2ca81215591dae7be;
0x23c089339439d665507c0e956ab3208b27d643526045f4afcbe6364c44bf1093;
0x32af6e9b670edec4744d9be16c2fb05dffd7742b035c5d5e34589f5cae382e4;
0x13cb85e74878132b6a20784e3bf61df1818c4d6141651d1dad1efacd58774174;
0x2db07c1bff2eeec8c5b9dbae586d6a9e7dff129340512ee92c27fe3acba78c1b;
0x9829878aad19da18247b6ee680b5d3f8d94c0b046c24fa5641cc07813031830;
0x1eb00d50e3b0c3ecda0b569d961583ba3ba49a3fdf62eab4137ab4ecd16515e7;
0x1c92d7b2ab89c954d36a5da4466d4ce8fe3476cab10bc76716e6fa1469d3c881;
0x29412e4f79957b5aa484f896baa95977808d2ea76cd61e0be6e705aa9c31c419;
0xba6668da5d5bde10cdc9aeda5a050d864ee2f72f84ca600a303aa2f380cfef2;
0xe3041c5fe0dabf954e6d9ab5519e5389cb3ed02301755f24be4c400844a019a;
0x46f80bc5455aac3228986ff1910d988a8608cc8eea186ab821e5b8cb88a8a9d;
0x886037252df484b3b2e909f79ef69e24c2b0f0a9b912d666cf624b888d7958e;
0x1aa4d470abeaa2357079129d114bab1170944f929fc178216ad847d4430f3f27;
0x1e5db2e40041ad9d844fc08e4932c2a893f14e107a68534c2f70fed480beedbf;
0x2d0e5945cf1ff11b864b86659e60292c1d76e29a88d35e2d25007c3aff574837;
0x5eda1c9de06b29e901b43f4dbeef95746bade9533d07a22b08ee2cf948bf827;
0x92156bc60919beb0e2c262d9b4ca9c888221b1236839a25a9457b4d475754a9;
0x20346a64ef27480102685c39833600f03276e5e4094eba2077457246bb5b0920;
0x10807d847901c2b7ae90b281bf84af1645abbcfb22fec7626418273a5c4061d8;
0x1a02e561e4e6c7e5c33b9eed477176c2927cd2331f07d9eadd6ec80d2d77c3cf;
0x1a20365486ae8bbffe437fff696c78cb344622ae0d25c8b6b1b1deb62fd03bb7;
0x10f6bc198813943da2300d26f081cabc8dafd92a953077575e8e2ae4b5b60fb3;
0x1d7d5aaea8bfae19980b3c529fab08e7187cd71a706f39115ad1cf0b7f57f556;
0x1df1dd45ad494f1a872a88240c1a9ac86c18265890d36f5b57f84a6db388b35c;
0x1c29d88c5a7e44b8511c878720f8edbd2ec09956d2a47125ad08cd791a72a786;
0x2aee9b55a2f615b6fbffcce84c652a3f41351fcda1b830ff3beafb075d0472b4;
0x1c9ca1baa0f3d242d39a3ab72580877c176e28a5c887c004279a59b0bcf1e66f;
0x1aa4d470abeaa2357079129d114bab1170944f929fc178216ad847d4430f3f27;
0x1e2b6b0bf7b3b4ed5126b8e8be6b6b070efc28d062f8914ba1b5fc68ed14ee06;
0x2b00a882fcafe8d43e7da424366a73da0b7cab19478446f56da7a29bbf24abd5;
0x441070dc965c1abb15cc4dcd6668cfa56f1122903318ebadbe52af6495c4e9e;
0x1804350e3abaa426cf301eb0241d2f1726387efbf0df6f0c303cd0f983997d57;
0x1eafed7d64d1deab8a1b3ef80d833b3aae94efc9f89286a55789c6b87d637b1f;
0xc08b894acdae0abb3e1c1f653a150d96e0666a92e8a6f732d8b438e2ff7e631;
0x2317408517ec88bd778bae7b26efbba777aa1b4460c3af71cac88aa1d4d2d7b;
0x17dccbe73f5a7b036e83f6233c651c883a7957861eaefbb385468785b5592d3b;
0xa9ad70b9945cdfa736dbac21e4b4426515ed32fdf0476217415ca4edcdec1f;
0x12b21302572045aa13728b65b9e6da2dd6a00b49c9acf7418d03431b663ec316;
0x2f73e6061be74d0dbe147fc3de191cf54657e3516a60a6da650dca53c6d4b8;
0xb907e76289b21473c0e6491744411e520896aa614d955fa3b7e73d25d4f560e;
0x23c6f78eb1f358e4f34d7a1d58577cd8af362c8d7a650c9c70b7cef28c8b77b0;
0x1fe537054dffac7ef4fff98a49f253a17562d32eeb1903ff3172e8089f88a5c;
0x1aa4d470abeaa2357079129d114bab1170944f929fc178216ad847d4430f3f27;
0x22420a556a4009accb54c2b2266ba65776d5455a7944ece37405f2bbb849e352;
0x1ad1968f9921575a75470f22eb1f2e2e3a6b973c58e22ff30c731f97064bd055;
0x2d709e99d4fc4d59e9dab4baad17bbd75d2331e8a448c2595c835e96ece5930b;
0xe1df1d829c920e063cdff32342f223e7b4851df78ffcba180df460988e8570a;
0x23c4fbbe1b0de3e8b57a6137c331e3b284504bbb9f20fbe9dc2b304194ccb264;
0x2ecbb2ad59823898278473d8a768598a22d2be7922c292a964c953080ad8a690;
0x5dba95d04fff06245d0f4ced407a98571bb522547bfbba6c61731884c4d4e30;
0x1b6b4761d189d1e2db04e13f1702f4a15315e1b4061312633fbd2f7d9c943b01;
0x1ee6c5f07a003e7f7cf05ca63ec2c5cb85f0137f55e1e62c81c9b4a40d9bdc29;
0x802b4548da3f90ea8a49c26cf583724835d8add489da81917c17ff7686c97e0;
0x1a3089854e45defe9e953808e58f14cd0f0edb9d65302732ce5450c92ca79885;
0x2133779fb03912c1f1db22b59f3a8e96d396173ce7c5abee98f05119b914b700;
0x18dcc23fdade276e5c1ba4f96a47cba57ccbcd1102fb8d063723523e2d819b39;
0x2a1b87020f3b905940f757cee7f0b459217ea429b77a9ed2404cf9655763e105;
0x1aa4d470abeaa2357079129d114bab1170944f929fc178216ad847d4430f3f27;
0x47bbdc4836a3ffd940aeb2c8608a75fb37d4e0ed1929fa893124a87046333f;
0x2fe188cebef3df8090f27fd40d4e1f557b2a13aafcdbd36d53cdb99ec48fa13e;
0x1eefea2f42ed57d18b8bf7591ddfd0f54a4e7434646e84e7c79a15d2f879aaac;
0x1394c009ab5cc43d8ea089286a43d30c904d227e9a151549bbb7f4d0cf930aa2;
0x2a0bb922c5a36f42819d00bec63da58d50b6dd46ff20d2a3b29c1c2e1e0ff837;
0x270b2526008fda515788b4e38ea86c9c9dc4d650ffce9638f91b85453deded4d;
0x2ba1e2d2ebe659e779301d63ecde988d55432d5bd7f8a4f76a03e20fa31fddd7;
0xf56832b7f06a8a3a1c287b8497ae10dc05f216917450813f21ffda4c0effad0;
0x1959a0963b974ace1dbef8ddb09c9ccff9ecbf4dfa10c2c174d42d523098cfdc;
0x148da04f0aeb03cea78009e2d1192865f5b99d630681b71ce71f9ec05ed55b69;
0x51a40af416f4fb5f9f0f51faee0ae6be210f9b93c4ead16f2c9a96a855c41ac;
0x20973f1fab9890ed48723af234150d1ecca066629dc1d07031c6cab5e60a3efe;
0x2a28a24ef1bdd75a7e501a4f035c1b431f4d7554df5facd800ecd3f024ec8152;
0x1d2ee4e18fa1575fb3ff723b3f9ad35cb0997b436f85746c6857882068333148;
0x1aa4d470abeaa2357079129d114bab1170944f929fc178216ad847d4430f3f27;
0x2629999fb52514197199686aa4c0b0961d8aa48404241177e131bc2396fda732;
0x1f99369d70a63bad0b76652ea69f388fa92ba1658836fa3aed366744ececdec0;
0x4511f41649be85e455ce74338ebb425c895f88540244a554c9947bce88e6edc;
0xb696f753615462876b9efe2ee1fed79c49becdcfa3a2d0d04a29051334ca110;
0x214f09b5557846662636de4679dcd965611c3d78e8d50a2cb0589c3ec90c9924;
0xbf5835b4c0bc4b13a3dbe0fbd68fabd6ea6749b70450547f0c2e3b658c01301;
0xc48c640e88a6442ae5ac574221d7f10eb2e67ca30fb0bf169cde004f4ded504;
0x1a5935756b57bfe02a3efedbae26e5a13200bee0994712005589ddfc1ab5b8c;
0x386ba86a06566ae39b56cda79580aed0647b9636896a47a7e0e9aa9919d9c02;
0xf00775e400bdc3e8685b204f07964e28163ecb3c63165d46c3f463e7baffe8;
0x1a662d8ba07d915cf7504cdbc01ec2a676ed76347ddd4e07f370e249a7b8ea5c;
0x1f06133283ad793171f99a4e8cbd2cfb465d9d6af9ffb4592d90293421750faa;
0xf83059507c852c9750d5280c440af49da9bb328ee63d1daceefd0becb214fda;
0x14d1ebfbc4c284f016134d6ab56daddb4e647593caa1324ecb302a77ef0b3bd1;
0x1aa4d470abeaa2357079129d114bab1170944f929fc178216ad847d4430f3f27;
0x5d4c4270c1e940348df545abf1e79bf647658d2e79eacd5dcbf97d68d05f3ec;
0x275db6ddf370d2f7e21020dfc1106254f1c60fbb7de07efeec3d6722b04bc54e;
0xd8e04364c5a23a60f46b4548459c7e7c002b73efa630bd165ab3b6a87f96489;
0x17f1de99ff5b961493bef67f162e464c42481e448122fa5baecec8cae0b2192;
0x23da50aaa25b76f0dad9f50db23d12f64a4819f547027b6bf52768799362e83d;
0x6d4ab87edb0fa0ea037a4f5ea1583c4198129f067829169c06e7440f354499;
0x18ff576eac16541cea173c61aeb541e0761cddbefb4a90f144818947d16013aa;
0x1408d644973d6502f93fdd2f69a71093a9fe50d7f8061acb474a0a14ba304f44;
0x29e8f556928e09634fd0b950e5bf4e90470d45e3c16b13864d598c555e57b1e6;
0x1637adc0e2bc513402f3a8b5314017d7ae192c809c41f3348226dd50ed82542e;
0x73235d0a9e96cf86e0976953988a3d9a260ceb59ba7633a40cbd7fede78a51a;
0x6dd5e9ba875bfe6f6596ba3cf35ec2342bd03422f134ab99ab7dddb9778b830;
0x18f491c6c3b12acd06a117563f067440ac753ec468a5df0c123498fbdf0f143d;
0x2d09fae126d15952c2b91d311932c93cff8cda2b44ce74c5d1d6dd132f4cf0bc;
0x1aa4d470abeaa2357079129d114bab1170944f929fc178216ad847d4430f3f27;
0x1022b57f4ec134a8f7e574fb62093d415b876af638133d32d366a9b1adf620f0;
0x14d51a25fd8d1dc5c7720bb793a275d83d812983965bc9b05d306794cf1dcdf3;
0x2c6a7b31575f327009eed05f25f94a4f173a544a0d8fac673474177b3b9a1413;
0x304d2a4701c43333827db71975d9c2c4e675056a2ea1e9b72a0eaf127b25efb0;
0x11f7c6c76441a67bc5946687a40a28a6cdcbd0ade84c389115b744115c627fb0;
0x9a1baacd8b557f09fc35e6434ecfe9182a04537171ee1d2bd603f5378206804;
0x8926a69b2d5a4200ee36f786770139781eb60a7d272d31406b75104efcbd3a1;
0x21135de3337256600fabf590e04c29c5e0875991a67d17eed5f5131c567bf4d8;
0x14b248fabdbbed0fd66c899e0a801bbbef4e1afc9bd0abfef471884bfa160841;
0x86e20d28f53332b9e09c5af815694ff83f10f379937f09105e98529fd4b4b01;
0x1271f30b82cb798656e4465c44a9ff204325f5fd2d2e204f2b5673f78fefa4b7;
0x2224a8d0963f1ac4f3e85695e2692e386a3c1492aa58127086e1385b9c2cde80;
0xfae50434b1bf26f790caa16ef2562cad5d238130522db3a97c1893b0c81ffc3;
0x3f2a142e4084164ecfa6300a4be6abefbe155f5ad84a684f761e75275926052;
0x1aa4d470abeaa2357079129d114bab1170944f929fc178216ad847d4430f3f27;
0x274d4d833700eebb5cf7c8f4fb81c174a108932a0e987d2889d9b93a95d187f4;
0xe9bb8c9f9306791b77582a16c53947e12e0dfed0c2adc1ed2116dd451598821;
0x26a098e91130e0d10603be0507dd975431923b338b6c0a3890fbb815af28f7b;
0x26d653ce08eff8f162c1033b52ea7e67ba0f6a8036bc64d556a75817579698a0;
0xa8ef549b90bbf3af6d9fb4db8656b7de9cf14212989422778c52691a0ca83f9;
0xac39f4fce06a27f59b5f434e7ae2808da542d1cd5fd18bb4b90e4d15598676e;
0x204aed1de3b314f39afe27b3b1bd589a851183aed39cb3004e67deca646266ba;
0x158cb2e73c4aec4c054f1759e9f3293b62ae5fdf18f69be4f6ce1c65cc1c155c;
0x13040aca2fbe7c001c14ad386c756ba465796b9ca677735d95861600b3ce6b53;
0x2674a9a8dffb96d38295f6edd1c5c008e9320ac1e99672b9d05289ce45fc673a;
0x57be234d78a86ab47e3691b67a63266519bb62985701f2072494d6343322a41;
0x12bbfac6aed9fbbd81254753e8bf4bd4c562e4af62548e577ebc973f77d9af77;
0x103b3e26bbc4767aeb96deacd771b5b694b4d57339e351c10507f61bf55d915;
0x5f918dc84cbd6a0a32a65b188e3f1c6e3412b76230fc7f6e5b17612c1abe8b9;
0x1aa4d470abeaa2357079129d114bab1170944f929fc178216ad847d4430f3f27;
0x28e6b736e2337dc438ee643098ef22b69c869252509d605d6799ceacd28d6cf0;
0x17326264714761dfead5cf52058e2559b4c57d30fa68b4162ab616d4ddf70448;
0x26d0b9ad617c87b600e3b27cb797f4b0ded965500a6548b554d2445f49cb614;
0x1a57505d738aff598d51ba2c25a4ed8b41f9479332bf95c4a289537dd22a366e;
0xbc9463f62daa20f0f245379c9b36c48c26b8f2e7d393e29a3ab5e30539764fb;
0xd2de2c5e221a927d1e90617e8be308d83a905bad2c5a5b29ffa06186bd62c96;
0x2acfa6917c256caecdfc13513b404367163017f92c68314e4cee7c465c016bef;
0x2300a55d94c34ecc47785790d4cebb3ee14f43f36ed26b8a69b1e7641f5703dd;
0x1b18386cd94edcc53b5fc04a4f6463badb0b6f1908c53765eb2953449d3bc3db;
0x168523fcd8de4e51f21ffaeb5194c5882350e2926f76d76b4908d3e0932b5ea;
0x230836236981243f35eca0e25d7c73c4aad7b8b0375ebc53200c5a169d1ba5b8;
0x1644931eb3e15ac27e176ba4a0efa23a8cd2cd0a495e0ff1459ba562c39f74a4;
0xbdba47f648104678694d1dc3e485f87821387d63b40b643681f6920ee153dae;
0x2934ee754f94b9cda4b4193c2da7abf8854286bd37ce1d10faff250466663729;
0x1aa4d470abeaa2357079129d114bab1170944f929fc178216ad847d4430f3f27;
0x15bca736827fe042d7bd64f77821bfb98ac7765effc787fda6427a9c1a3d7817;
0x1702aabda38575c6034b350e4b88a2a6ef6a5bccaf04bc9f99321753dc12b1f9;
0xfc69497af71268ae3b232540f8c9e5b16fe351e779646f5cf34bf7d41893078;
0x13cf63991c3ea2c423f0069eef61d41d30b7a6d907a6cc3f723b241f676131ac;
0x8212316344803402735c663b23ffd17261728f9fbd3d91b2f86e227a34cf2b9;
0x1d76ef5ad83cca5d452debe5dd11a2a756924c26b546782299e7c9b9e7f6802c;
0xff4763e1cbc755ebb7308094877f3ceb4cb0d393e00545eca169da0f82c6c1b;
0x2ee17d2391f5e2ada6745b0a56c5b2915abb69437e28975e466d218efe4346f2;
0xcdfcd1cf5fb6f404d7686731a9a326dcbab662736555ebe2964d81d7929c86;
0xdfa35c85f23318fa0188cd8ccf7a174e89b324b94484e9f1efed3be25eee2ba;
0x3020e7189aa0392850f96adb46c8476a9d62951093438a948858a8bdc3400b8b;
0xf7d3dc3a1e33f5b68e2b84d9da05e7163b40e8724c46befb4030fa88768e536;
0x2331b3e5f7f1277ecb6ef3e862f53047a7cfbfbcd001124d96437a7559e4d954;
0x205334d2a003f29e2eba4a0f115f491e159af79d1871614252a23ec2c81ee321;
0x1aa4d470abeaa2357079129d114bab1170944f929fc178216ad847d4430f3f27;
0x5c88b264202385a48b939b006669c1866bcff2ce9be97fac1e2b7fb13ebd8ce;
0x34938d22d020660d0a009ac6a5ed48bb0097cde47bbc0d8ce942fb31c464584;
0x22162ccea7bdf2b786c635b0bc7132a04f76645b467df815cc521e977cc4f80a;
0x27b9ec9c27c0f868a21ff55cf455c2b3a392dd5e57ce6870b90c217ed051b792;
0x1d40a01732b59bc72804d5be3dba2fd2be8208fc2f1ffb9a44fbeb30895d6b78;
0x25a3c16bb29635132684ee4964e4f7364c9edb73ff5d41c613347f90519098b2;
0x2264db5f2b0206e0b97cebaef9ae578d534c98b8a20894d99ff4cc52dd4f35ea;
0x8599a766249f3c836cab54623833af8da7345e0f976fc683d04699c33de0097;
0x23a4e769c41d56c98af48d9d3eb4e65d5c3cb8f1dc50dcac0895f70176c65966;
0x6863319f9840fe8a57bd754b58b7fed2466e86365ef6e678dbe7c495054551a;
0x124f8b0efe11009c8a15c7830dac00743a617798bbabda3df6ac877625f3590d;
0xc399275a8d3e83e832aab6df8b0849b9d1378376e90b8a24084074e85cc4e32;
0x119e48a1b4a77a3a6f7c61ffb60b93c904286828355b63b3fa1f7efa5cba57cd;
0x296e14fc6bee3bc2d9dbf89f2482f9891cf1f7df9ddbb7f98292f2bc7fd9a50b;
0x1aa4d470abeaa2357079129d114bab1170944f929fc178216ad847d4430f3f27;
0x26a69af895a05a3493040f735b754e16de06fa2c04c7d990fa5ff5747f83b413;
0x9d38fd6121029734acccc26a34b6c0a9c5472d921ef1db0545ea0d2ee58dfc0;
0x9258525c420c9158ae4a5b72f73cf036d988c7dd50700b1ed3796a595c5b6d9;
0x240b4844e1a39d4cacdaa8cb96df170cc306bd32b46539a155a91d3dec72d330;
0x2f7bfd78087629319d6485647f8267856ac5974200d94d165da35c13dd0f1c2b;
0x10c3c9daa9b917522fb7c6bc6c18a2a70968ed139a349805a2242d8587b98160;
0x42e830892fd09a016aa5998930a085f20871e7305b361d30690064e8680ad2f;
0x1bd229a43207a8eb670f87a25910257b4d6e99ba62c30eaf92c41c887b92eeb0;
0x179259aee9804902a592512d691fc31fe7369036e50df52f17899e9f310ad8cc;
0xc94864bca0ef906ce0f56586a71ebf9cb21907610f55d0d597c910f1832f04a;
0x1b8129aa9b54faded8b6e4594ac9c66268f761b4579bab75e4b84565ec6151f9;
0x138fc45fe0e94d2f56d913eee6f4dc8362019d48b48bc11d566fb136a034e7fd;
0x11ddf7e5f957f4348bd38cc6c2b7b21db6e688426842fe2790dee3e5c7970350;
0x273e3a99347d8bb4443f8803f3144b1c79081762f0c89996e8ca6f41e2ce9eb;
0x1aa4d470abeaa2357079129d114bab1170944f929fc178216ad847d4430f3f27;
0x22e161940b597798709d5732b35b7a4a6b5738d60943450c0fcf0015f74a978d;
0x2dc5270b47eb00ed0a19788755286e5153486071d8676de57bf1dcc0c95b8269;
0x1a70ccda609d7bfdcd04227a1c7b3b5dc51ed832b3209ad05cfff7f94bd17d78;
0x1acb2e3c8872171cf04e8e12bdf4aed98903f30427938ff2ce2ac2ca07e89b36;
0x2adaf126a0f5fb02185e741d6944b194959178f84bfcf24c66caa70590d009f2;
0x1d3244fd2a96a3c547cbcb56974d8a6286e71ade5e026544cfa6a239e32a4a14;
0x1bd9988f3abf3347a931f562d4c26b2c6c7c3b157929f1d3529438687ddc9748;
0x1ab2d592b1c45380283e92034c93e5a2e4afdd8082525f32728c8bef6293db03;
0x25cb1ebe5ef8d7fe207cd159cf795ceda6553f6819f07ccfc9432344648093e5;
0x30337709090c96eb2dd63569df081569d7cb09cbdf4a7c8c1a982b1a502bd31f;
0x26767fe5b44f802d1ac590b4af55a4cd28f4a4565a03fa412dac54a2d953d6db;
0x206a055992663ba140839fb48dde53a37509d75de3cffe05e543ad10e2a6a880;
0x26f63a141092d97b431869438f6f4f2eafd3587d1759eb8dc51129be57d1c9e1;
0x651190f970efd04e85ceb47f6bb491b2391e7e4c0229354bdd377435decdf02;
0x1aa4d470abeaa2357079129d114bab1170944f929fc178216ad847d4430f3f27;
0x16f9cc64f644433e68a60294430fa2cb5932712fbcf1d867628561f9057b714b;
0x271bd08af5ec9271663f987e6d26c91b496975cdf5a2c6a7c5490b62c94041d6;
0x29f3ffb8c6f14251d4e4e6479afc22e84b5c306798067eb2ca8530c01ef8f00;
0x3011f9b6793cf8e594cffd490b2255eec2d7c84caf1fceb7276fc50d598c4631;
0x1592b0301bc7a225be205d464faf0f2620c9879d06b7c97632c4996b255e8b1b;
0x1a6cb5aa790973bd44ffb4ed2981c633750d9df8e6a122639648e0a305870d8b;
0x3006f88fc72833b83c57897743bbdade1ab69f52bd8788b4406e17ec42bdae3f;
0x2738654c515bfb4dd54512aed800e6c044bdb1d4f77cd438945579a03ffa1416;
0xb321f51e6793cb25dcd5261f44260a3b7c9f9c44c5ff3ff64260a81d68eb977;
0x1477b46d71b8684f6448203310aaf0f8948c1232cbba64f2e6372b26d3b96f59;
0x2e11978278f26a764c2c61c66edb6f2964876d189ead6fdc76731044355d9086;
0xab2312a0dfec5f56d70efde481c1222f08750d97f0f378e32416d8911347f32;
0x293b455b67ef83fb98b09994d43c30ce29dfb9b499ca17c6774eec84412eae78;
0x95b635c8679c2757a0299fba438ec55029818e3de0bb66721004d4fde342a5b;
0x1aa4d470abeaa2357079129d114bab1170944f929fc178216ad847d4430f3f27;
0x230291320aaf817c9bdaf62fadc83c8e9d55690dddc6ab42884102fbb8c1313b;
0xebf9d983145fe427a9c98d8467c649a6b6fd0666f80cdc3edde2d6103a0bcb9;
0x1b8a2f071acf45649491b58cf5576a862c45978ec121aba4cbc2b344f6adcca2;
0x24287f43b82f4a84f3a2500829657e4890974e8321736b074241d6d4c6714cc4;
0x2ce1f1627b642c8dfaad03fb46498d7f85eba85b778efaebb2bac14d3d4c2f0;
0x11ee152a99a5a0de87751aab98180d05db1e64f3621498bef5a821d813fc7ae6;
0xce62d91eb6161313ea7e48273122d6a1774f96e571277109302b68c53dadb0c;
0x19824bcea6e4ccef8b23d501840bc4f3d40837dc60b4370146a4b68f6f889b91;
0x2d1fc70e199a73668b4d0c37356f575269d258aae7199a266e63c88ab6eb4cef;
0x321c2b5f8938df1e2cb30488e61521a99706c58f4237e4c61500bdfe47f5626;
0xd7da06b4dec9fc5e1dff140172e0a84a9d147154745f2678a98aabc3f7989d;
0x2fc41f67cd32d7ec4ee517c8b667c9a0ee2308f759ebd889f6ac043d8aa82f40;
0x1fbd55b07a5725b3de1a9739d36114c9340a987b1e66ac212b12795249bd8102;
0xae9b9d9f2101c972f848f0a2b7a8916a3a2987bcbdcfa1d300e0b781d2da062;
0x1aa4d470abeaa2357079129d114bab1170944f929fc178216ad847d4430f3f27;
0x19f45db7aec76df1b89fee8492cb760e8f6d298cac167d2aaba4702d30f3105e;
0xeb3de3aa60a1e43df813790a7b02b5774bb93b654bb4f690bbbfd8b2e19c155;
0xb506abb65dbe55553fa65bc43d1593be440b9c5227fdc84e142ee9365742ff8;
0x1725cf40cdabdda24e0cb35d12315bb0bcf61a681ab3f3b6ca2cd06bb6f9d899;
0x5b2e0df1727482fc6597c7ada0624819471e4c4f2dbeef58ced0c2e5a2844fb;
0x2cb17d3d8a51790efcfaee971ca9155f0074b2e7622abb74d7b8c984feffa7f6;
0x57cbe9626c16bb67d7f00009f1e7881b53643eabf6abf3f4bfadb6cf9678388;
0x1d5a175df6dcdaa9375d954c5df8ba5bcfb394070967a231cdf753e2277257d;
0x27453d445a464bedd2f943123064cf0d6675c8946f077957772f32e02a0fcf29;
0xf2e2a7f140c38c5d932d2d6fb694914a060efe9e6bffe14fc1dcbb840bbb466;
0x240f3c285bc1a1c717cc08ef209175ce1efbd0aaf894599c629114fb05024f77;
0x2dc62be8336218eb9152ec653c5f2d0eda10ffb07a974bae8ee5a370aa497b55;
0x1544549442e755807a39faa19a9e88cbe26fe1f5f4cd27fe68fa952806a6e72c;
0x26d85311e5bb436e105c2eeccd768ee32acbcd275b22c135bceb61f6fcc99696;
0x1aa4d470abeaa2357079129d114bab1170944f929fc178216ad847d4430f3f27;
0x2d5c06ffb3d2b7cf9a0dc797193cfda855060c21de622962dc73de8bc7e5309a;
0x1142dc3dd8bcfcffce00dc87253ce16475df11a72de8b35070e2a947e8df89bd;
0x1ef9d5eb72934c51099404ef52f846564f9d5956a61fa690c1a474ec6dd4ad2f;
0x1f875fbc8a4be018170a281b3f9c0dab5e91371ee3101e6eeece15ff9ba2a595;
0xc7ea4455b4e9ea7958d0549f098eccc22e73f89b049f48558910bb97226db31;
0x1781c95b5bb00bfc0c5280da9bbc2d16aeb1ddcaeb2c45644041366c0c57b8;
0x7d46f4970f0af1bddb0baa2b45ea78c3e043c402b34fe44600919ebb3bc638e;
0xb97d904e55808e8d3d847315766069b15e4eaf6e48533679e0d1dc00c70e6c4;
0xa424cfc9ac1630f815e1867b2351bc8a7a0577a06a1b3eebf8e1c012883313a;
0xab4976c40bbc9fe9106a7610e3e611f88e46839e484ed2160086e0e83c2e4c8;
0x2bd44e217b9b1bd7c5c687ad7653730c6a9cbc73ab2e3eca6533ce3fb568a339;
0xcce891fce830619bc5fefea2258df3f5653c3ca6050fd8efb3a653643334ed0;
0x6cc269de739b7f75a505392122069f46ead236c9fe14dad4b89ed3be765ab46;
0x2ce5dad6f8c706a1e48ebcd989cdb6e79161070d56b7f488b1ddaeb207d81805;
0x1aa4d470abeaa2357079129d114bab1170944f929fc178216ad847d4430f3f27;
0x2e77cf5ab513e1badea5c3c891925f9638bd14587f6e342c5a92452cb2216d10;
0x1f0a2a3c8f119ff5dc221cd21cf450ccfd2a13a51992e227a040294c78d05bf7;
0x8af508a7bea4393d740ddce0e6f0fb819f6e333f12273739f8216a7de28c19c;
0xb7b0b5adc8e5b80228ddc5a3bd90a11a6a58fa87ab21faf6b5ee6b4786d3bad;
0x29b2720d570c648e23e12c70c5d903c08897ec38e8f79e3dec9f892429df3f63;
0x2b5d0114e15e9a524981ea2e38e06976616413a966172a365e702aeb81a3e8fc;
0x2f04e33808a800ed501c43a1cc6aaff9ed0b2431f111836ecc36db9fcaf954d;
0x75afde514ea96d4ddf31e02c2e3c59b857e12bbef9188703417fdff2b73f0ec;
0x294c6a950fcf5693a8241c957ef737cb0e9a2ac3b7eb618a1bd1684db4353e99;
0x2b5cfd45d895ab09fb03ee623cff22321018031c835f4bd9446d13995ebc2702;
0xc9cc48c4d979b1d5267a49248134fedc8c18e6678c52f82e0ead42df94bc3d9;
0x1ab81cab0d091253489ee59b36258e7f07ed92223988de2adf4f431790b7fe73;
0x2586cbe245b6f98d39e52d3944cf6ecd7f6b02fe5125fc06677fa3adb5c4b3de;
0x13b2352a38dbffaf3d06de3fa376edf5b2ee4e53a57be01229dbac8729a4fe01;
0x1aa4d470abeaa2357079129d114bab1170944f929fc178216ad847d4430f3f27;
0x3d877056291c4194282a1028b33bbda54c8c56539d25d3813f0992d563fb344;
0x708818327e42247f3895bd0af9998a7f3ab275831a1b7ffa2c0266090f86b75;
0x2f6df4925de2c8eedf7a0dd36de0e83bf0ba0e6649447d6fd2a8dac7d4b1b819;
0x1333c9e0db6849dd2fc1e56de942f8e59e6ce70f9815f74ec75ee7a710ffcd77;
0x12abc89e5164e8c1a20e40cba62920df78cd0d31c641aa3526b5387aa499d864;
0xb976c6394d0a9ff18c3ce234a56cf8d9625c11d0fce863278457cb08e1c4983;
0x268b0a4cff7f67119358196bcfb46348ca332e1af2efa758b59e922a135d7e61;
0x254b8126f45243f14dd8211df41fe5516b35952d56c62678c148e73cdbad3718;
0x270712f18b1518fafe093660f492cdbc2fb70ffab31d8a4d8a1934be68792369;
0x2bfc3981a249aeaaec4ab9001727d32d4e6fe75598ee964fc85cf30d50df584b;
0x16060a17e1b11f851ceab20464572b3d78d582ea050014843101485f65ab723d;
0xe73217a106c402e4c6c166cd9ef1fd2a0b16ac1cb43646bc1c726f83177770;
0x4b959ca07e7182ca08f2351a03545bd7ab676f740b02331637ea1434c8545ec;
0xfc9cc95222f92715cf7476010225e14cc38f314071e50e0f3bc9ec674a8aacc].
Definition tabC_9 : list Z :=
[0x2088ce9534577bf38be7bc457f2756d558d66e0c07b9cc001a580bd42cda0e77;
0x1b86e63908c4b12af43cec6810356c94d21c9e37d73dfff9742a58e0ec356be1;
0x9ca022ba1142d170f755212e2edc9d0a4ace33e16825f540d5d50d5a021a169;
0x277e69d47a133804241f6aebe9449be6e22c849c6d8ad8c938eaf613bc1aecd4;
0x17b57ea03754e24ae0ef425aa2ad931aac9ba5457a18cec594545a235db6b269;
0x11c740983395e0f4a026e2c7c939236375c9077755eb1a37a77d5a1fd74abac6;
0x1cd85529010dd7e2fb7ea403515bab5727556a479c59b822efc5a81eb37bc5bd;
0x2cb9354002cec4bcbfa985de34f43d702ced83d197aa374b5a1f96f87b12f292;
0x1f7af98e08f6877923f27a3dad40c525ac52f56fbbd878506544f9acd61aa32d;
0x1a0b807de55ef1263cb74d73f1c8bf3403bb3f1e03cc502a9e2b8d423688ec18;
0x1fd59a493af01f538eaee9b1cbcb2cd1b799d6093f0159107344047c2158d90d;
0x1d3fa4c04d54e5263e743a2fa010370098773853777b73c7c92af64eea079612;
0x1dc892a8d006e9b99d597f449d0553ebb51b259319ab9d8b2d02ed9c6582c232;
0x2a0537379dcab76d9308d2699e0e900109318a740c75b8ee1ba71120edbfe071;
0x149d2cc892e7cbc1f4102493bb96b4a36928dcf62f7dba6d9e0d446f5ffd4fa1;
0x1e49f2771b7510aea77ee000e757ac105699c62a33a418ebda572969037b5bc8;
0x5649ffbf48a15d39385cb62912bf049e9706155ff3dd43f7ce0e4cb35c86c3d;
0x2698b359bbb3686b626831d596fc5b5039f4af516bc683a289876271ed62897b;
0xcd8c08efc5d2bc627ee727dac325af99b4f72ac70f61c890b0593eb03c8cd2;
0x36a9a9ad327aa70232cfe6c78884ec23aea703814c701a1862789367b45b3f5;
0x2b5899d038a234824746d697d38ff423459f7bd4015782f528a3705a6f2feb9f;
0x2524bd7a1969744168f11aa03fa82da034edcd1c31141420b2309344d2741aef;
0x89189570593679da35b668bd5b3542489bab1022dd790ca6a99c09ed0a79aca;
0x6608970a49c0ea65f21a544c215ebd89b4023c387e8339ec7c9cb80b6b87ae4;
0x283a6336d81e02e8dcfbd4be67fcd7f8b73cff4ce3f8a7f3451b26e81679309d;
0x14536ea1bd43af4d7927054ecdc962563f6f396e372f35cae0e5218d62bff454;
0x3036ae3f4cef8a4a0a324f409f290c172e5ec23a34f75d57233a04a055648e00;
0x22262d9a1cb0b5941b3f193c381403425b83e6fd9e1b4d930183148e414db99d;
0x1555e4726cf5d78d11b66f4969724e64be8dc3047d0953aa84be42c4a3ab4098;
0x2a3e9e52ac1fa4915e262406c27cecf24b0411fa674ea5046ac44897629e8544;
0x14d8abc9700624bfc54939ff64f75e0ad187662ddd0215e3cfff56a350371231;
0x1e0eb685b561bdcc6cb793504a4c1b5056af33ddf6f5e93c72396f6e53eeaaa5;
0x2e7e146d9111c11d9348ec2230270bf211b4325c2e878d09faedef98bcd10dbd;
0x18c036ef9e573369755af33142bb856437f6498fb1162b8f8af4523c390b09b2;
0x195ce383cf5b4e65acdb300d6e359320ea6bac8fa881456c72526b4513ee1d71;
0xc12860b292d22e5520d416427e1ff80eeeeee47799b322e0580c2d45d60e6ac;
0x2ff73b859f68c9b8eaa94078545f54dd1e9dfd74fdd762dd65f522af19ec3ffe;
0x1205dc46155d9cc22a89e838ff1a462738d3ef1972a01864c72af0f342e524ff;
0xfecb680ff19b124ce745b6f70fba1b91716e12f664fe93562d93700adf0bc45;
0x234391b786f9498db2680c6e7aabf4b0ace0f0368e21eff94528d051128cbc6a;
0x2937dad89e2bf12f95cce70dbe3ba4c2ee0184226387421bd18038894ceaedc9;
0x22c7ab9a912c2aa92e2afd4749e70968322f7e5750ce6c697dcb34446102b85a;
0x1bdd8241cc91cf091780328ea6a0ca6dae8c10c50796006d462455b90e7f600e;
0x49e3eb4d3bdb8ea3fb6ec3dc065556eace18a719864184b36da835bf3e8de11;
0x20a8611ee3a91a1513e11ae962ec82884ba24f32171939892a34ec6d4622a88b;
0x27d281f482154b5c001ca383a1087bb1481782f2bb457fb32505ff63315ec376;
0x530c5ee45b6b16abc8306ebbf102a1c0774f8618699278d5d3a99f42495a3f0;
0x256f402ec1732288a2ae27f56a2fee2199bde67ca2917984e2a6c7f3952a8e32;
0xed544bd301d33d4b9ef359de3bf01e61397f2f29911944c5d091ddbc518e146;
0x1370ffbb023d66ee62ec3895f61de73212207ab83194bf6cb1d49d37bdd4f34d;
0x2a46d5538a5a9bdaf47e44594f3092112e755cdde1a6c128568994a040e9a04e;
0x1f3396d7db31c19111069135ef2d095c1aafbe2c76d7cc387944b2f137edba64;
0x225f3203fed96b846724c146b3d3b351d6615ee5cb1df8390a02a715ee206f18;
0xb405da3510e7abe759298137d4853f651e35b7660028d9ce680ef29db4c22b;
0x162df9d9cf874a89630d906160abd114b09274c010636c440c3773b5f012374c;
0x26349d07dbfe862f47393d354491dffd8ed56bcc1424d45dc3292669be8ce0d3;
0x1a75a0ebd02bd60bf851e0cc564a07ca5145d4ecb970625acc7f225480e29903;
0x22dc35316d34324dc4fc4812b24468a33b94bd1187fde4092670d789f8372ba0;
0x1f260c2068ddd344bf8fd0d985ad999e0a2a0b345b5d4e15647c60a0019ddeb9;
0x43098906f60ba8b964c3d33854bea3bfc728ebd374b871eb716e1bee8f6fa81;
0x17fc06025f7d0132912f6cd189b75845e8a8ebe264a3561610ec2db4cb22f800;
0x1853501b6a22237cf790f64d592e46b76bd78d7a6e11a86a5e964bfdf98b35f8;
0x13f85a860c328d7fe96970fbb13dac19233067b186ddca81f7b805dc7e8d4de0;
0x2553858a2dfdee2556d24923c609eb3bd92e58f1cab1c406317019df0bddfbc7;
0x18db95df1ef5cac1f4d5e21dd81e4e7d4fbf98deef329bac3e4744b2f72cc2d;
0x218cfa400a003da69ff396f9a2fb282d544a43697b68fc6baccccd9cf9933939;
0x15b192afdaf7ccc461209127b95647cd661c37044642f0207cc9cc699ee8a3fa;
0xfa2a193cc8addadf7766d712c7af10074bc8149460ee35b5c78d15cf527034e;
0x6f3dd41dd4a94658628fa7cfc17eb024a59ceacd9ef0fc0617f275cd9dc0fc5;
0x7a9cbf46611387ced1b18c4f371d582cd7b05a50caf7e230a3b5fc9e028bae2;
0x135f98871577c5e638e56325377721fbcbd590d85e93ed310fc1c0c802dd06a0;
0xe8f8ada4fffe0a6b9faff17f6a926f28ffc38d958ddf259ddf4090083bd66e;
0x225df6aa9bc49e9b2f5c8dc81e15c91ec1064db201be633f1e5fce6bc5b9b6a0;
0x171c3bf7f45ba571930991e63dc8f4d823ea1d885357a37f7825274e9b9e0d40;
0x171207761f4d71c5d5fa62352b306da902f0259f4c0470bc82409144feb9acf3;
0x26a8805900a6087f4d916c5f8b752ab3211023d730a1c5f745d9122fd9c19973;
0x129433d6ab5a8f5443489c357b69bc0c27cac6ae3c24997e5728ffc76439d5b9;
0x1c0c02bd9a4f7a36fc2ad938f9a742c0af5d7745f1f0ac5b664aa3e4057a6f18;
0x165ff7309c19adfcc8ee6ddf752f94fa5c24bd0e3ebdbac72c1fb06aef56dfb0;
0x26b387d2dcda5acfe48872f1c9077083043981a4d22ec361830489ccb49d384c;
0x136f73b20066bf9bb629e14dc8524e6026c159059fdbf51160066ef7c416be4c;
0x2ab4b86e7cde3982d2e88235c312d1413d85e69d3f5d51bff97f8521bd7c35b0;
0x15ab3bf7cdd8944501d4f6e1fbf9bcc650c5b7a96860f75ce08f5299a560e3ca;
0x63757b1ee01190b18aaa9078ce6c59b4ff979a43897f7ac41f667ac1300c522;
0x7235d5c897327b9b2dea43a9c924d63adf0962c8024e9486b31c7f7dc93f93d;
0xc793e095f24f97300294b90f9c734241509ae31ac0e13f9f1df46e0fe537f8c;
0x16c461135e143c6fb08d9c33fe385b0c7a012bc208fa6671e4619534b3e73139;
0x3695a3fcb6f3778dd4884dad62e4e86c750e28d14fb31cd59567e3aefd0fb71;
0x17501f012f54c4f196aa31cbd91bb126c254f553e55d4ab844f4d4c689d1a1fb;
0x20ff8c2701723ebe114d932d485fb4af9af641e52cab0d5390db4dc624295cd8;
0x605d48243e21cfef1ed9130f5844a0c14c790624b93ec98930d250c1b410bbf;
0xffa032ab9b633d34909bb748a498d1d76f82057973eccae9fcfac45f50ea6e6;
0x202d96f16f6276129f835fccc83f52e4cc1a7d5f2ac32ae4363e9421f6704beb;
0x97e3fd4d35bd1394cd482c2fe4bc3c02881e452adbf58858a24106a1cbf0ad6;
0x277c2847ae8ca64446c9d04e2be45b786a4ffdc7dd1d27d6bc978db85ac85ac8;
0x3410aa7a2038d75d33082a5fd6bd77d018578ad7fba9f7712e4f41e7d397e6f;
0xff02f1d79d410c828dd44c6338c31048ced79c8aadbc45afe4559dabec02981;
0x49e781f466e2561b92d45a40fb76025afb1732b39a48dbae1c5542272b1e126;
0xa88c49a585914a1ad99805da9dec850fffb2bbda64f7b509516a6713b884286;
0x45e7bc4beec7107b2edf2649f982863c6e106589588189eb0c9de4b0e039017;
0x828aea263b9f5db239f9c49e36a2e8cdc8e348f58904138e089cfcb8470ae5b;
0x253955f1058a3387b40981cdfb33b74623817a3894b51087d3f9a4b39d716a10;
0x177c69bc3df7a463c4d26b065562461ef1caff9c92d3bb143ce2b29be13b2336;
0x14d6068c39b97b9a103cb0d40e9a8bf3ef7a6c7bd1d622d7da57b7a22cb1dfab;
0x25dd2b57b4799f6110366e0baea665aa42325019581b8901fcaf78864b51f107;
0x305ec758fa6ebbe5ce50bb2f16ec00d0430133a0dfd4cd79c12d69f8cc0e8ec3;
0x11ac0a8009ce27d3e2183e31dd0175f81284b37c9f6e714e82de746969c98865;
0x1d109b8b68f442a09a062c5a663a0935a96a91219587efcf3e95f0aa293578e5;
0xc7b0a104e403dadc80eef55d68fd56d56aeffc40bedad4f44b2ebe780d08ae1;
0x1807654841ffb72e7b046942c0080d97f43191c6d2e78b70e69ff867015cfa78;
0x1b63da1a99ed90f40b0292180dba78b6e09454b75bde64ac9e5ccaf2b2b64043;
0xd7e5c4d321bc6d180104e6a134450b8a62034e98d72c9318c61176453c96d4;
0x2e252a397bdf1b53547239e3c6e9bb5260c1905930644e22985f41eb6a226f4d;
0xbe3e9b1a8abdb889375ae6082e14e37bdd21b8e2a675ea56626e9f4b9d57c81;
0x161b52904a998f03ea62ae67b561f1d74804ce154f928c1e086731d68efb5213;
0x852f56672fc06cbe726036617efd210b8025c85b96766e95925e17f08564aff;
0x21c4e873d8d03af989f22dbe4fa0a6af2a8719d289707ae506b39518349b6cbf;
0x1ac41a44314ee18b9f9d4fdca582a052c9b69c09309ae447404b3ba58104581e;
0xee333ba934442e498cede6609a1828ffce94cf07fa7b14c1c991889ad1448d9;
0x2996c68d007ea8d16c014fdb33190fa58ee5de793f07fe4413ee3a4fca43466f;
0x23f678b22fec25ba357cc068eb259f114754a65477022abe24cd07507825fc17;
0x1f6c82714288549da4646534547189349ec908aa2fa02729e979df6a5882855b;
0x1f818e74b9c3a490b612926bfe89e7947168d343c78084a3bedf771216014354;
0x206833435ec4988772ee1f0ebb9313319cb243705c1313de603fdf61a323ef04;
0x171785b03104df15a632aaf4dc7cb7acf47934c72c96310f1342500805120d11;
0x20b7363891cd3589efe83abb91d9f2e6c59b575b8d3ada6c6cc84faf06763db0;
0x2d60609bc685d0925cdec6f78d731df0a040638a754da555b8bfe26536a325d;
0x1a91979ab3ad3401872d210b3b41347d44312e5d58df0c1217881d544ba301ab;
0x166546d364e42050f2c39d196dd4189ae824a570d39c02ae6a85d82b00419bfc;
0x1ac2089f74aa7d61b7c44c57ebbb6751be4c8a22b2f82f13b513959bc2f200c9;
0x908ca864a04bcf677dba3cd272c6a1770e7a9c6381eedbf9f0491b02800ff0e;
0x24bc8a866d9b7bed9242ed6a482252db77e9d83ace606293193994aaa126e72f;
0x17a33b4d4a0821176c406b479e38da80d26522fec0931f218c8e54e269b0ffac;
0x12d6d179f18bf6c6c13661026c0fdcfee596af082545f3299e05a8a78bff2e28;
0x15c7fb9fcf8f1a92cf0c677fe58b79065a5a502d778ac6967c022f6f31132405].
Definition tabM_9 : list (list Z) :=
[[0x190f922d97c8a7dcf0a142a3be27749d1c64bc22f1c556aaa24925d158cac56;
0x607cd8ff9b889773c9eb68b8a4366469d470cd7c6004106caae95c10c424419;
0x1da524cff60b64856dc1f5dde0ff62da7b182da26908f6ba6e590adebf91b40c;
0x22f33eaee3c481e65801b761a72832908f066fe21dab5fa5ec1d4c6e99dd6dfc;
0x75f84e9c719bb8de8e61083290daff19aaa4337454e5ba804257787470f2f54;
0x2084be9a57e9adb80303a8dcaffd4bb77adb6815168b36a1d363b38425437135;
0xb303449f1bf4b92d2cbc26ab34b4215b6dd7af010747a705b2a6e3398882922;
0xc099bc68243537203f97254f08dfb7efc09de8f96d72f3b3e0aaded45e18b4a;
0x1c5fd9060d4e0d999264429a5004c165570bd1675b09f977708b1ca48e616388];
[0x1f8d3a9d2d31ab32d9bdb6375170dbba89f6f8f74d16e4fd02f3675d5fe2baad;
0x2591580b73e7b5d5f34d9fdc0cf7fe3de7f6a18a255e4376fde3eb31dfa51d79;
0x2bb4565893b6ffc5799139cdc151158749c2c65db48672abaf24c5b3813c0e2b;
0x1c5ce77776893d48147444b9f6d66a4da29c95707de832756c739eab8e87658f;
0x175505391c619b75530fa83e513184381e603d8449d1e070017ee8ec0a4d25f9;
0x6ed1d14dedf763a3065f27e7a46d7fbf20d2b4e86a0db86692a269767d577e3;
0x140cdda33bb7a79b2baa851df5ad459e7df569b9f2c3da542d3b8d5b76b356ce;
0x35e9ecc464cb431cc92c3356e8a98547e843ed1324c1e971179fd1ad9fd51a0;
0x129f06c930edd36fc2fb7044a6332751a2e3bcdbe756d883716cead6bc7063cb];
[0x230c694139416f40422d713e13c056c45c3c631b346854523970eaea58a37df4;
0x93cff12150aecb3465c4c99f044be85dcc1eba21d429132c2260dd3d12ea441;
0x25081a00fc20ae366b1fe7ea6b09e62a51f6fd377f608368c12ba4e3bf89935f;
0x2ab8edd22fbe2a1cd3ce9a4212d0efb282ccac28af4d876fc946203070c920bd;
0x29c5ce97710c1578a0990d862cf881badf10e4f6bde629199e803cd1c426be4e;
0x1324544a54174cf7b3cd8ffc4b86320f2319d9b88c1779b89b1916018f3fb9b7;
0x1d18b25aac98b282e10b5a3a74ce5caa169a5c30bae52bba280ed517f3f82fef;
0x2f35e921dae87f1284c0c8ae737dbdc4936cbbb03a03a5918552fe565270a8d;
0x14a5ce1603228d6e6fade57c1da536659ba46d1b25566f12c28debcbedc5b4f4];
[0x2063a461ad06315ae5992a53a14bb598367624afc2833ccbb83af92ca0f6a334;
0x59116da88a081267dd888204fc6fb79046c3297ccb65f9e0fe0d50b4db44ec6;
0x1b43719cd10b60c5647c097d1fa84b8f3c12c9c475ade13b388c7ec47240be11;
0x26e49154acca24424d5f8d29f650f9824de82eb7887329cbc83a56ae01dee4a2;
0x2caf86cff60521ccc5ec6e2e2c83b4707bb90f948644bfaa8f80b0afcd4cde10;
0x2e923ea46d492247e12e0a7dccf6620f5eea6629b7532b3af246809398859633;
0x1ec6c32f513b8f30c7aab42e7d91aecbe54aeb188a84f8ca46bd7e9741b9a389;
0x23a72c27f4f5e6ea5325d5b368f98b40693b2db1e8ca3d096739753dc5678303;
0x143617efcdbbc0d27a091f28039eba8abb39392e2a462850b1f9cd8532f5075f];
[0xc574e628f84b6ba9d17b9d2bfd4747e06dd68cda2383d64ce365927098c046f;
0x2c948497373514e7d9846dea9ddf5755337ddb661043d6c628cecb8f55173bd8;
0x22dd201ecbab94a2ee393796fefcca63aa54d9a19ab9c7f20a0bedcfb9d191f2;
0xbadd77f516d4fa321d1099bc1e51909001591ad9919f08ce9718aeeb2bca4d6;
0x24f92793d67638b4abfdf48ce3b62ab5d0e1b250dc274d746f2f7d0544185b62;
0xbbbbb87eccc91d5fb07b6c55088ca514d68ddd93cf31c8ed2d2cc7f23b22b;
0x89beeb21c346cb9bc182aa2b70f853f1a2258d56893ce5a948d9c645ecbc9bb;
0xe07b1d22eed54fdf966ffdfbcebb653b5dac3b2a91f50272876efb17158be2c;
0x2885f2d44be0ecff57d92a4384edb5bebfb585bb23eae2a2ea50806bab8b7bd7];
[0x276428d88040a3e0f442424d2ffcb8d19becf3fb6ca02c1b5c61b5ddc53ceb90;
0x2c2729812be9ed432e75709133119cb0a14e1b6ea31c1279b7c3e495deaf108e;
0xb8e79838cd30707999c621621e77e69c0f433d543b79c668cf379b6623bac84;
0x23671c5d1fb556063a64b5f664340936dc5ffedd4bdbaa2e96205704da5864f5;
0x2809dfe24c7fd7cd49b97b27150f4d38a340b60f0733fd4530cd4269b4811e4;
0x26010a3f5295bb4481310cbca5384a47af0f9905e4c76bf54b870ef0ffefa1c8;
0x2790643a66038cce4a6488847d8d2da2eea84961f8134b1be36947f803527e67;
0x5fa56d431d4bd09625a86d3623464dc90bd541ea41748f2026f65025ea9d2f2;
0x4715db6d86b513d002589f1f9522f7de3b1a8bd702c167559ede97da2c0076d];
[0x24bdf6101b2f223174e869d6aecbe8ea5b04a14c38fdf1494393cc6fdb3e42a5;
0x2280d6d4718f9f06b551a988408f0515070e455ed63377e910be087fb79bd191;
0x2082d5647658eae648936cefbedfad2cd0538572aa6122ca68ccced68f432f4;
0x20d7202ccde24901d6ce2d107e79e1fd78d6c9398ba7a4996f116adef14def3;
0x26709688150ed035f959687edf7747ee8ee946b770173dbe50390ab8c08c5f9c;
0x751a4a4af246255ce412c4bb47fa34a51b8628f3cd902077775c8fa488e7519;
0x159e25e00326a76f25c1143a5be6f53fa51ccf368d9974cc6d93cce8eb81d37c;
0x2d6f3e0e98413d5d6a1101b245c9e711bb2e956e27a5870784fd5403b39867cc;
0x88887966c079d2e689a8d6d7bd913e92d326959bada59b99a653feaadf6c467];
[0x180fca184150c0e354b4b3a4a075824d4b68e8274943f4dd8b0c64eca25dc68e;
0x1b1bba125505ae9675bcec7c9af579c5cc83533c9d555be398afa09cbf95d6a7;
0x277bae2fc597a536adbe9c24bc8ee81731eddb574c6a5142c1c5a48c51f82e81;
0x1d86496995f14264e7a054cc8224900368775c3e5ac6b5f54285f4a73c2171ae;
0x1e5ae4c295ad5a17e00f973f136f1230a6fb85637631b306d3705f80effac24a;
0x28d2351619ccc6fb31ad4206e2c064bf4d9b2292b28463e53e4771f10670ddbf;
0x2486b884370d49a003fd041e800f0a898ab61b5e947997461ee3284241f3baaa;
0x213176bc1a04939fe7d6bc30691aabd6152ed24f309bff3939a0d91d54c67a66;
0x12ded41f8047da3e6c22bfed3ec5bb52d027e560048db4c0f96ca9fa85e17bc3];
[0x10726dcff87299c8532159976607633f1bc2ad24453c1bab26b726b82d756ebb;
0x17013257716d3cbae28e1c272cb6aaa2844136049ffbca05ca201523032c64d4;
0x30354c9f29c920c05e99d7cc747510e76f7fa69a71594a290eae7293c5a48441;
0x136961746d34fd196025173c4d79bf8b3d1d05291c584928d97258fd5fb4fb4e;
0x2310e2337e4d53c1635da18a2722178d55af583591bcc317eba842df247deaa9;
0x1815e4f7b40a7027878640a6cdc4b2854300cf6fd4953c2ac2c77625ef44ae04;
0x111efc136a9dfe0ebcffae8943e679cc0fbf62fd0ce03b409fecd932a8281b10;
0xa5a1148dad4562eab18162b3914b64d5753e9617a5154e93f7e43e6860687ea;
0x1f47c67a4325672f17b8bd1ddbd80e4e9e6c62419a9c204cc7e8821892431aae]].
Definition tabP_9 : list (list Z) :=
[[0x190f922d97c8a7dcf0a142a3be27749d1c64bc22f1c556aaa24925d158cac56;
0x7341fdd8b6d7c94a710e78e47ae71d8a2d2c45bf48dcd6fe346d2f9263adce;
0x1c4350bba48cff51ab2e0c56301b9d3b289a6fc4744b61fb90dd5bec31107ebf;
0xc6c426215bd132ce2efae38e5bcd7cbda5cbbff829320f99be9dbda88fa8a3d;
0x2810b0317abd6345a234fbe4661070c9bbd1712c64d04bc8430847e6a5435a22;
0x16ccf6000486cf0ee9eb858de4de15afda028275ae86398b37a27f1586257f4d;
0x1756383b6b2b1db75e494e291804c5ad7d947d6c79dfbc5e72009f11b69c3503;
0x55fe8568018f82fd47de970828d3b5f30fa7f671670bf1b615f8ab4b5df6c4b;
0x21b8cb5fcab5ac1e4a8e968e95a134731f85c9fb488d200998c1152f49d3c599];
[0x1f8d3a9d2d31ab32d9bdb6375170dbba89f6f8f74d16e4fd02f3675d5fe2baad;
0x3d8602794854484bae8cefc996d566594d166c98e8dbb73e70c0ee829da35d6;
0x1c6b76e0d60e628fd7ca0d7d60de7382c8c7ffdabefcce98d45a1042b4330121;
0x2deecde3659cb16fae536b2a1d81ddc50da450c1e96c100a58157b0b2707ae8c;
0x1ecce2c394a577ba99982bf4035574776ae9fbf51aa4b218a363eb0bd1b743b3;
0xb754798119ccd26f34de2ad1caefa4fc586ec4d6bcad8788a831331802bebe4;
0xf246352b2864232a8afd890b5a5c1114127ff9e80e539b5d922b3d53b4c2cb6;
0x1d6fb6b7c89bb84d5f7fa77fcc40ae0bdb914388f6578747f62f388344139ce6;
0x1aab4fcdeeec99f73a94f5e8503b377394eeea13c9c345d177c7b97923b1014d];
[0x230c694139416f40422d713e13c056c45c3c631b346854523970eaea58a37df4;
0x20151c663660a16fc26c7452d683b1ae0a4bfe25e01e2d2ff682d6f8c5ad91fd;
0x22d746e18a8eb6059d6913f3d2219fe1d1abfcb21936bf4462f3deabb86ca232;
0x12bf39e8f879b7dfefaa4be7d615736957975d6b386c0cc89bb81a1b381f05dc;
0xd639e4276aa71f97d6d061929e08d78b690054d7933907c91989891d7e04496;
0x22d621427b2b65407fda26214625aa8cdaab5e27bf99cb8f8aef492030fd40e6;
0x1f9ed3d81ff1494a3e555e532cec14085a7d2897ca721cfb41627fd387d4c6ee;
0x1202c35b5378961b68f410413270c6c5eb4861f5f016891a9d3101da67f24c24;
0x1fc69a3e806ab5007fb930b1c0e8837529f3c18357d74533f14c2152147b6a88];
[0x2063a461ad06315ae5992a53a14bb598367624afc2833ccbb83af92ca0f6a334;
0x14be2c9eea6708b8055784ff7a6eaef5f2423ecd3c987507edb4d57f42263c8a;
0x1c94e3008e7fb1ccf9b36a3b272b4ebf56872e9d3ad09fc7fec8b73f3edc8dbd;
0x19c33a1bef2695e72cd132a78c4893d762540fa2eb33c56a7e4b6f88a15ffdf1;
0x129cda4d6b758aae7d636a11364f08165187bfb7cffdf51c90e7f6feeaa44d7;
0x14fd9137c30861213d9081982e9c1e3627180371bf7bdde642ce8212b70a5ad1;
0x1835c38dfb0f16b1ec8a341397cfb66317dd543c48852d8ea875827e2d5f68ad;
0x70a63f4db1f63477a7245d0577d38f8ecbbd9fd8a253adf5e36c86f285598bc;
0x1c4546e0f6a7ec769233d0ec55edb3cfbe528b846ed015e41d063b9dd42bf1ff];
[0xc574e628f84b6ba9d17b9d2bfd4747e06dd68cda2383d64ce365927098c046f;
0x21e114b50d11303e7d5e39d69abc346d8c062b3bc70b5a88e0d04c104c89e576;
0x15c4bb533ce05422d3201cd04a12d976dd8d4b41ffb77dbc5f58904d9fee034f;
0x14f45f4497c4a67c90f50bef58ae132c54459facfda9a6afd38dd06113bd09cd;
0x154093b24b8ae3e4c7ecb11ce7f6d10326366c410153cec3543b8f8c696f5fe5;
0x80ef3bf4cf0ee1d45e6e64fb415c76bb901b1ae802c7ddc2f8fcf9a7c4a8f91;
0x1228c23f9d6c7b75373a17d421f64b589d7f486511f846b19d5b5a7a4ae888dd;
0x7d4d3ae7019c26ac7038b866eb5f0b9913b54315d879065236c20ed87c3f2fc;
0x1df9042167db948e9c137df365881a2137baa8afdcc75f9985d2e2a54ff2808];
[0x276428d88040a3e0f442424d2ffcb8d19becf3fb6ca02c1b5c61b5ddc53ceb90;
0x2d764f3f9ddefa066b449acde74eb4270b819cee10a4125abeb091cdca204756;
0x106913bc4e38bb6868247a3ddb23f7ac12b78d688df4cb4cce0e2a0027317fcb;
0x2968de39216f3f05107f5715ca891c8cc9a238893d7c75e8684813f9b8f489f7;
0x20f194b853c3b9aef7a751d3922d17428d595a02f6e9562f568e2cf07c928ae0;
0x30593e502ac9b6856131ba8d187dfe8d53ad20d4ce7a3b8d89ed228c91045401;
0x2dadaf44fe7fca4988d5777f9324ab2aa8606dd3c4ab4cec318e0dfa9d02d76;
0x2b30b0b25fc57a37cb46759047e4c1906a2d64b1da6bc8048d683a3aae105814;
0x2af620d499b90b1b8bdfbfed437d5c71ffe5112b22d538a33c9511cfe434cfbe];
[0x24bdf6101b2f223174e869d6aecbe8ea5b04a14c38fdf1494393cc6fdb3e42a5;
0x1a8803986af5a84f9aeab49f048c67ee6ffb4689ef31cb51eff59977d250c4c9;
0x2c95ea22f6df6c0975156b08f16516ca905a828aaa2fae35c5465bc99ebd0b07;
0x17aa91194ea3c39030e17603d9b8bb80fdfd271fc603180bf0ec0b49206a76b;
0xf6884885a376b75b81ed233294372cf65cadae30ff9a657ab93592ceb935c95;
0x16a7398598ffc414f79d6d0dcc11eb3830bc6b97917ae1d9c0486fc6a162546d;
0x259a2acc8e87e4a08a384199ee3bdc03df7a3a1b07c83f49fff07b4da49e4ee0;
0x19cfa837f30749fbd33925eabe3b222452dc4f4569c826e602f2397007c0a858;
0x22be9a5ad9f369512913ab2213536ef1ea927d91f42c69c35be9071d3208dd5a];
[0x180fca184150c0e354b4b3a4a075824d4b68e8274943f4dd8b0c64eca25dc68e;
0x1540dc30a1b9aedaf029e5ee97b63a63fa1a47a7c59304e2bd1fe7947ce6774b;
0x302fbf64fe705ee3a34e33211937a3cb487838f3a697e0f77c173999486876b4;
0x202f3f28f786f3047f7030428878b673a3152c0500874263b99f2a3f3652eefa;
0x24145768e616bdf16b3099e09e9e56f114c3ee6fa6e49513c2c4f2b3d0002b54;
0x80ecb13362f44510286df98f696ad51beb124014f31fc8cbd9d2dadfede5e55;
0x10a2dd7c6bdcffcaf5b00340731e2da029f81dea7271c8c19825060cbe5db6db;
0x17bb125cabad9ea535325629cbca4d37e5f30a3bc3c7f12d1aa1b63326974fe6;
0x1f5576505ab6cf76adb88b8a85e1bff7d1ccb35691118d4180034fef90d2a873];
[0x10726dcff87299c8532159976607633f1bc2ad24453c1bab26b726b82d756ebb;
0xf08d47f49171fd7d603461458053fb30596012a345aca5e6c8d307c5ef68130;
0x1e1e54bb56826529a37fb6b7bfd6af40dc9da70e6f6bdf7fc89787a7a2ed0785;
0x275c0ac30445ca28c7836765c9877e439f0b1308e5b8b5bc30be95808c9b7c03;
0x1d3ecd8624f2fbc7aee4dbeb91ff442a018b9a60b23d7e607ea9eb2f6ab6c239;
0x237522466e8ad65c715717c5273d65815a10185498c9e71b48fb441d90b5e3e6;
0x1f23b760586a694ffd7cba2757f935ade52b1b3593968ada9e0268cd71f6ed64;
0x36083127b4a9a1671954c4ec341dab8d8419322c722061075861b41df631a9;
0x236a813f6235546014ac3a47d20bd75b4b6357e043e1fba18a05ac59a9aded9b]].
Definition tabS_9 : list Z :=
[0x190f922d97c8a7dcf0a142a3be27749d1c64bc22f1c556aaa24925d158cac56;
0x152fa675f337216339a9274b97b08d74eba0f31110688589baac5df73d06ba99;
0xa60560c145b77121171f32dc6d2fa22fb894749d2686475001e0b4563ddf68e;
0x2402bc21cbfc23a80116e7535240403b3e7ada326d3f5f28e7071680d1b57df1;
0x26770c5cda1a14d4003cb55ac927d68a843b0a81acbdf4d1871a66201e3378e8;
0x4ef6e3423ecb4bd4137b2b7fe78100b84a1ff459cd0a1f7212668bb96ddf0fd;
0x16c6d4fe10c08c64f2bb14fc6d8d650b05c56fc689a93d0c4c0a79abfcf96887;
0x1069cff9be3245f60606f94c1f214a3ac43d2249e725dc57d45716d06d905ff2;
0xaca974e63942bfe230694165a4f72d184d4b7fb8a1674a70cb19cfd61329f13;
0x15ea665435c28d287bdfd4978bd127392ccd486c9afa99454e9561fa992040b7;
0x2545f2cb24c7a7c7af6beac75e34deeea9d532c0308187f7bd3b47b133a744fb;
0x29b34fa5653b3ac5f3eedd790c7b94be1abf24beeb24ee50a34ee12159e94b15;
0x3d5d55635085b4d05b57f78094a130400e4b60548da9cf59b90baab8e664235;
0x2b4768592e18dee0d620b4bb3ec1f0892390a9177108346f9fc611e1cf592dc6;
0x198e90e2b6f066f99bdbb201258054e8758dafdd397a4044af7fe73ebd0b05bc;
0x209c25806fd4006da67b80c5f7a3fb03990dcfe087375143a7a09cc99aef143d;
0x125cff70ce16a10ff53be8b26683420c895d366fa9d3763f14d376cbad453b79;
0x190f922d97c8a7dcf0a142a3be27749d1c64bc22f1c556aaa24925d158cac56;
0x2fcc1e873c2460c19aa8ea31876a63c06b6b16c56bf45ea23b2979351661c066;
0x265596228bc6c434d211a6340c4a331df2be3b1e433aee26875876ab83840e3b;
0x13cd5d84d4458fdf99666b4f567ee9bc2663223fea98383d29668084a67efa07;
0xe4546898234e2c9981d06fbe84630d92d6854979472695a2aed5aa1c2fc018d;
0x15ead9f1be93476ca2a93c83125918403b835eb9547d3ce31856d119ae8df0fb;
0x2209a03017696e3a73afcb978c53731ae3186f4ba315ed5dc8ed6578b3d9e428;
0x5b358d46bbf09ffb07f06af770b4c3f695e35af5f32f449a912310c69165652;
0xd4ec14ac84189f1e114ad899c7dff8da5000fb3726ba88b6ed828451e9a4027;
0x212a27391f1accc7e7e01e05868e41a62a2076efdc6ee94f26c30e5eb5c63359;
0x1cf3fedf016306b0bbe65fda50235bc16cbcb1559c3f34ea6ee752f4b70b4848;
0x52d3e0d566bd58d8097a8d1389d1caf33a2f2662de98f06518670773f74215e;
0x2852bb73795f54c6adc9c635d5e70b03dcd03cc1229046fe2173c31b10efec53;
0x23b69fe902f42c3489061de846512d346ad54cbde1d54984e26b551b29cfdd89;
0x8a501e4d110e059ea6a0621d18bd4346af275aaebef1f402449c9f675feaab6;
0x17f6697583d43520562d008293a70980e2c6564131faab56fd71c285392f5bc4;
0x1b7e8e80739ab54fb01d2637963a91622ba49401fd5b961e892f00107781788c;
0x190f922d97c8a7dcf0a142a3be27749d1c64bc22f1c556aaa24925d158cac56;
0x1cad07b82878b8c153b0278fbb2e90973327826a09fe720d37166bba7c53acea;
0x988724d5f424785949062a55133a433e27d8c89a7ec78016db5f064cf786948;
0x2d81921df5457361416733155b8135b53f6410a41170670e3fc8204a0bec2d59;
0x131cf6530e31b3541b8312eae98495b9b5435a8d32d35e5247c53f3170a58110;
0x26ca4df270856d7d89521b850e376f46c84685eb832ff0abc83be2e46d008692;
0x148832d14674b5bd61f45b882d08ce10b65eeda4a8d90caeda39210526a2930e;
0x19395b170131e4b969e01d8bcd1a6fd6311b3375c0dbd1e31b879fa6835b9dcc;
0x2617b1f4ad2fdf615bbf88b4efad44b6a7cd5ec6e2c469a94471d5a3add577bc;
0xe0507aca633caa740518c6ed6ff9ca084bb59a7d0d97decf2530fb6ae3cf24c;
0x176ed52c8a9f3f7bef3e084c2e5235496a2177f3418364c3eda28fea7f2a6624;
0x1b1ddd3ed3c82536d4e2cc47820f37b772335bf4530356e590c69938c1ad9eb5;
0x13c8300e2bc52c8d4c12f2cd9442cdbad38235a1e34541b42a274be0146455ce;
0x2f5239bdf0e8f441fc01fe081832618bf1b9628cc80ef508dcd4273420cad1f2;
0x21a41e1e2c6e4922de2cb723d64cbb9496216429a3a5a3c0c6c0019bbbdda93;
0x3825cc9ed4f752a3a61be70f3f2bae0a22416870a8f692206aecf4570b4d751;
0x16e3f668cb7ed8c2bd6cb4687d11dfbd02a8265f671cb58a7bb33a03a5238a1;
0x190f922d97c8a7dcf0a142a3be27749d1c64bc22f1c556aaa24925d158cac56;
0xd94596be2cb2587e41dd5ac38707f4a718dda9076b74a2567949a627bcca82e;
0xda56e7fef653a7528ebcb12a7a01082f7e23054bbf948da64bf2ec2452d098b;
0x22ed449e9752660719b8d34f4962772d7c7b08e4882442044c73a8aadab72c4a;
0xca9d3e4986304f7ff2894c105218dab722390273c42c427c4dae8f29d66ca5f;
0x10b01235bf874a5b2e184a8410ab01107cbf0648040ed6633d179509f5041191;
0x126206165d8d964565d3220cbc84cdec26a7643c68f7cc42ac60d1f8618a6200;
0x4878d524f362da3e3aa6dd357f0bb7d5615f26cb758747cdb30490707218854;
0x21127103c61b8936aa157eb73855ef46d5b01587aa8a199478424f3c84d9adcd;
0x15d5439ab67e845a1f55af2ced4e06ce2d577a29fe250f1e8116500d11681999;
0x16a7318212f1751abe1b5c422ff830f1892dfd76737c7b49433e7877358e2db9;
0x245579de75e5089b4f5f0de11d5b88bc5e395ff9a0747a2d33b8cb3e3394aa91;
0x2ee3d749e038889f77c0ddc80bb7cd55df093664716a75f0274b1955a8712a06;
0x277b64ed9137d7914f9445969c33db2f0db95938df3cdad46e6c8d4ac996796d;
0x28c9181f359dfa1ecfe51ec8331b999c4be610300576e07d8461d468672e9571;
0x18a1ec6f905a49044a4920d0a4a1f74a907db755d1f06d2d75551c6e9b5bb520;
0x269587fc49db8b933a31bc6678b4087a12ff762c1a19c3699e0703a39f822906;
0x190f922d97c8a7dcf0a142a3be27749d1c64bc22f1c556aaa24925d158cac56;
0x1c423fef62d7ed3b20636135bed12f56c33b6ed3866b4deef95935b4fdb3fcc7;
0x2c39e9c9ffd3f1acdc23821afad680c199de68c72500ba9affa091fc35d8b230;
0x200be427ad5d644255178ffba022a54e5ba811aa0a0cdba615991897d312933d;
0x5bc3aef5509b9df5380dc3ff1806ab689428626a44293af5a2bc33dfd98541d;
0x19d3a7be7f42755c49327c0865f7df015df793d73c5a036f3beadf16022d1bc7;
0x1fce5fb51256a4df3e994252d479c8006547bfa2649b9fcbac1e77699f31e917;
0x24d5b2801c808c74305280fec1d16f0a2185f4f7ea2709627454797e1d694aa9;
0x1b4a744a7602f165651e06044235910295d5be42f5e5cb902cf1bd0a449f44cb;
0x221aa0d3a117f313e2a2a20c6927618baff0fc77188801b96188ad8518b419ee;
0x2cff615d12e087e7d90119fc9c184c7903abe446e206a02d1ade996431e0f282;
0xcbc5ef09419a755b598b1517a196b2ba15521c55e4b940b410e647a57713310;
0x243e638c46a410bef0335b65a5e2dfaef63e3030d9c20894d43dd580fb36aeb6;
0x11ae740f93b3cbb1262d1a6232a4d8c32a9b4e2fcce71620dfcb541a6bf3083e;
0x14ee58652277e60cf9d5c2690dc83b833c66db0f8a3524d9d73b4b78846b145;
0x1bda443673db00ba4dbbe09d15420b772ee22d921a43d236368285d42bced6d7;
0x2de86a4384d67c5e44837bf469091304ab5e77d2eea4421edf64ba3321a12718;
0x190f922d97c8a7dcf0a142a3be27749d1c64bc22f1c556aaa24925d158cac56;
0x1b917b840ef31eb7e0a628bc85f7c2c200daa2c53ed4ba7f6a9e1b24b1ddea35;
0xc54f4f9747bf23552798112aec65d4e9ea425c25e4ffbbfbbc3de49009f8858;
0x2ebdec8a92cdfa3d690a4419d1928b4b4d93d5f911521cf06140340913462731;
0x1b74699cc5eb637115960b5f70998323c9c3db826844682cfb8ea43c375673ae;
0xe09a75d4dbde40d4e18b88f63acf3ab1ce50c80252a3012152ac38fbbdaa61a;
0xf7c0e52c6acfe356ef5c75f08788edd3e75cbfb209436f7a5d0c3ac9b250c5b;
0x250fab500f159fe411838e3ac03d2587f7e358cb6c5847df2b427a6c074df62a;
0xdcc8241d56d88000a8b7aa90f6af3a4fdffa80db18bf815ff7a0b02032b2aea;
0x1a34b7894985f4d6b216af15dedc398d4ba39351bd325651972de2a64fd810f4;
0x277bdbfc7a614412262af936a8be70b47e7e5d31537d85ecf155ac3ee482b920;
0xd3a2e73d19987bba8d72256028ea7052faa7e99aca09d9a08bf0035e402c03f;
0x1c00718f76c7b7bb506c09b6e1596c137117668022fcab596984aff97c858155;
0xdbd5f1c327ae5b775eecb71009a20720365c0e482fde75e1bc1371e5c11fcb3;
0x867c2b4fea85a4cab294824e2276bda8a7406fbcd5da41b6e0fdd8b69a2f1d7;
0x1d393af52503c0a9aff9fc1da41662cf9a76ad7d3240890bd456a47731a35b4d;
0xc4efef6ca45633d4ece8715dbdf4b9abe4121a608606d971845e47c70aa5db4;
0x190f922d97c8a7dcf0a142a3be27749d1c64bc22f1c556aaa24925d158cac56;
0x280e2e4d9836fd6f43a90fa68a9220a0e5679ad45fb21c8e396dd7c267e5d3a9;
0x50dcf95a7b3b535a88ef70504cc8a444e78f8b5ef48a3486112408d1aab3b87;
0x1ded90abdac843e977abebc17ed03d58eacc961cc82dff032df1e60371acbd1b;
0xc83114862faa4b053ecd3df00bc7bb610d8f777319da6695211696cacc7c2da;
0x2f38535fca1d0fcb6656a7bc9f8d6fb0951cac281e7204191d124ee1f9597056;
0x15a8a27ccdf7f31e9c9bdeb0aa12189a62420b3fc3af4c0ccd527bccdfb31261;
0x8538ca91007b4af17747450f2d048adfbba6ada49300d46163a6141d0d60a23;
0x219358a11f299fe602b8336d6c74c8ed45e0af3437ee3dbd73c7415dd954f229;
0x1a7ae67fd2b95fa482e68cfb6adf7a5f703170ef536e0c07c8f45e212331891e;
0x2d8a33dc859b421d03eb431ef70e9955863e4bfa9a7650cb11f8cfe45521929a;
0x23e68686a4e6ab0a2e24b04c5f89c2db9b6890816e7305ca2c92a912636772ba;
0xc27986848ef557c8645754b95ed9edc215e526d52dd369c0777d4f378465d03;
0x6e2cceaa215aaabf58f2e6ccb3aa062e24e506f3819645131a1f846cfc24749;
0x4ca455e242a91ca2143ae13d31d0ad024552abe39636c4215d7772512868b97;
0x20107d5efa2baafdc19cdb78750be25074d5052d77309209d83feaf764ef4493;
0x284a8c5b8405a825d8acdd215c16bc5170fb4c5460d6e775207047b109fc3e63;
0x190f922d97c8a7dcf0a142a3be27749d1c64bc22f1c556aaa24925d158cac56;
0x2617b4b39592cb7eb00834dfb430ac37e799da74e8ea6c2cbac3bff74f3282c3;
0x260555fed187679e25946324ff117f1f487d75d8811aaeb6afb29e02bf9e9b77;
0x29d66baa1db480fa0976c227b8be2b1dff6206980b543319ab8e6e46bf1af27b;
0xcd6ba2405ef9e333036c7567e0e368109489be5791633c12042106eb0dd43b4;
0xbb6ef374a10b4538ef1ce3c0cf6ef6c885dbc2f449892bfd17e82e7fe9890f5;
0x294e76b2d0fc3b732ec3ed8f73b8e1c616ee0012b69d61417a4cd5f18f893c00;
0x2a2d473497afdb60a7008c7dc7ced5a33fed7c5424bb6a1299c24f373e7f16ae;
0x60533676e96c73a3e183dd8f585c78427c0cbe99e97f8acdb098889df1439ee;
0x4d3ad331506308539d84de77d62f6cb661c870bc064fd3359cc711a06baf4e5;
0x23444c530e318b22418fbca527fbf9fff0c2c92d623f365277d65ac7ab90058b;
0x84a073506da63fae8ee908965d634da2a789160f1ff73faf58b676e5c914b52;
0x6c1018af2ab1b629440d513a4971e62b2dda42233dadeed10e4629fb1e15c48;
0xfeae12c9ea34bbf39373aa3c159e553dcf7412caf17269a6c9b7e9dc594adb;
0x21f5f23b0e3f44f8768aa1ca35edcf5e919eefc9d9dd47e44efcc99694e51b54;
0x6209e20306d5ff2ae4443bffed0948b2bab65487650f1e1f956c9e5413b168d;
0xe981747daf6de6e6be60f7ecc28e84be0e4b7e8c07ad2128fbcc12e0c7096b9;
0x190f922d97c8a7dcf0a142a3be27749d1c64bc22f1c556aaa24925d158cac56;
0x20802f8ba4a922457a1aefdccc804a9c34b885a1e9f0fd94473479c74e6ae02f;
0x19cac2ada760fa14ad038d2482dc86661772ae15de0ebe6a1a767082432bfdb;
0x2c484464a823c43053113755869610b16e5116f2bb1f3e024d65d9206c3c63f3;
0x20aefc9cd863f976e7e5f601102158b578357e3072ad22e68028640e5513b471;
0x1310a6b902d3736b0a50a32048c81feb98e02943bdb12700c714bf6b255f3f6c;
0x28a2e47b087e9828ea526825aef8a8b4d5a36020f87b4672c36a0b3bea12d308;
0x2edacc0aa69661a65100e4686e467aba4f2c430f61c77707e0ad3c2fac66c096;
0x23b811e8af4e671b9bfd2c2d83a00883108e704dfdcd7944fa40c20e72e359ad;
0x36cf4860115229cc61870796bfb55ab6da45a3dd204e1e66af397018f34187b;
0x1ed097ff6526283590ece731b725b9f734a7f516d6a8b1eabd4120c8d0fce65d;
0x2242d9a8c934bd0f2b097e37feea098bb500091a496bf689a59b795c8d7469b6;
0x2e1dbf3119ea622492c1f15dce5addcdecb3ec045028e9ad6a8bccc85a456ef5;
0x2d034fb552635fa6bd63f5e91ee8d7bfb8a2f1ba395190a177b2bf1aa76642b9;
0x12c8e6f621ed980c07cca4bef17af232d32c2fd7cb3fcbfc971947e66ecff2f;
0x548b4a31bab4692a858acd30fe523c42e8f2dce046f2f121b0c82cf5bd306b6;
0x4985d3b7fc1a4b5fbc70fd37205abe31e33c4beb6f13777967ac5fc07a3df18;
0x190f922d97c8a7dcf0a142a3be27749d1c64bc22f1c556aaa24925d158cac56;
0x176ad5e77dbf9eff47130906d9f295bf1139d3cf00fa5ab42bd3e10d357bcda1;
0x37fc3c302395fca97bfbdbdf5ff14d1f71300057e7d994fedd19f2d779e41b4;
0x67b7fa5f5b640eea5c1173aa40084c2893f0b66c4d8eedf9e48444de48cbd81;
0x1ef50a9851144552374b8b175f1a069b99271337c29a94945140eb7e1a9560d0;
0x4a8f411eae9b96fceee318a3d82e839354b0999e8354ca66bf7f11281c865ba;
0x17c90c447cd83ef7d547209c4644ac95cc1017bd65360faf58a8cfb5210bc891;
0x2b324c5a69146a0b1d502937c9f1764757d43065f7c3c7d0a7979552354b3f98;
0xcd0a626b860fcc13465134f015336740cef85aa91bb7c919d4f1285dbe4953c;
0x1f2baade720437f5af71bd826e87e155552a95da11c06402c76c8c574707de8b;
0x1ce2ccd7a415304ac0e6f1b265590359f970553a10bf8df85a55eeebf5cdabe5;
0x1498ca31f8887cce647ee52fb4b3a177a3d8256354cfbc83ef0349fe3685d1db;
0xe6e210f18faca167bf3d82bf9f9e58d6e094c03b56dcbd243fa737e0ef93bb3;
0x12cf450b5228e1b7823665a58c105ab37fb064d287b28f115ccd128cae7e440b;
0x1fde1a9a7f3a95883481d25eda60225f3dd6f67b127fd2db690aac68bb53fcf2;
0x16b2c4b1a4276fd90d0803113fda96bd017491d592118ed721b2660a5576b192;
0x301ae24bfd116b2a5a8ab9c08fe26cbb20d111ec34b7f7b62ad4a95c95531436;
0x190f922d97c8a7dcf0a142a3be27749d1c64bc22f1c556aaa24925d158cac56;
0x887f2970f378099bd8129636f847065b81b3cc57e229d2d00a15f314f1b705b;
0x19b3b01cb6aabb13901f8fb5dc1490ca360284f262672e7f0d39dbbfe0cf5e;
0x1b3a6e328bf97c4a2bb7b62451d8d21da221d9f79dde1d20961a5730191499e0;
0x170932e63d8ed05d6b66499f32e6261b8001bddc0ca176081b7fd35f9c2a019c;
0x1899457555eb5581fddb51340488569c2b4adb0e7e6e1b59a36293b3aef835e0;
0x164f7a46d01b3ed26cf79280d675584af03ef532ffca9b0aa1fa4c046ab9729;
0xea2ffdcabe9727588526bbfd56012495f1d56b06a5737726073eb9aa7052aaa;
0x7ecb58097193ca637d89cd708a6610e9bff056d5d477f0f0baff2fc922d0334;
0xf47e601e82ed174b715554cd3d5529682511ac8dfe48cf7f2ccc1093a892d5f;
0x174f79e424542b0e34f0fba0d6451539aa56c56f72fc1b006156f46a7cb7c2ec;
0x1609850116dfde24d7cb5510912ec1f4bc416f9a5e57cbba8de63a2556af662d;
0x10ab565bb9cf436914f214352b48bdb7457ecada07f09215c9522fc79701ebed;
0x25903539c56c72c86dff0d320e4b89921f177b9be69aecca9e52da81175eb5c2;
0x24be2bc0726dec8e7e12fa3a18808211b32d0725f4d6414911c250223fde21bc;
0x5522494472ece35e80ca3ef35636e8e5265563cbe43e50a14d77ed0d9f894d7;
0x2a9d37d9b9bec22eefffec1acf6a2dbdaf5054fd455c300a6763169d4c4c2505;
0x190f922d97c8a7dcf0a142a3be27749d1c64bc22f1c556aaa24925d158cac56;
0xfb784243c37202b1648a784010d674f2ccc662e3e72dc97c1e76f0f815948a1;
0x993e6aad24c4d252ac53905907ca3610ef2a5e6e48eb3da752bcca5dca973a4;
0x15fab250b63506ef0b6fbe565b15ca337504a59617751f3e91e75891e8f2fa0a;
0x22b851ba2d74cc07a36f73cec3f54f2e24f7a5ea54bb5356e5570a4e55ed1f8;
0xcc28d557fcbe39f2da5a831f97ab31d4c9748a30c1c027286f47660fca9fc27;
0x392cb28a2f6f3e8bd6f869dee34d83fd84625f658d2c6b02a6acec49940d369;
0x223232ed91851f7027a7413f23b889f73f18f20ea91b308360b074250eb5b133;
0x247502139fe5a4fcceafc47ab0835fab3778866a0387f67c0c11730b7086b423;
0x574e7796304031aa15766be5b419486db72f2cc43798e8a8ee6ade15ea64cb3;
0x1d18392864858785d134b2848d7fc32cf91da60461efc01731ad49bbb99ce7f0;
0x2b927f1d1eacf0ee5d3246fec97f13ddb9ba2e34419a7f0fe151f8d366df48a6;
0x29ca195348764c2600076d9a475508b7fae52d6a9c92196241ac3f08d090459;
0x291930cdffd0acc873be352600a12a6aa056da7621cf3324e7636f25ef4d905;
0x13e6e58779312fd8a2ed9368587b5e4c207cb8cb99621f4254a1704c41477656;
0x74c6fc957511e7287e7b6065c03d55ab19881e2cabab988bcaf997d96b90802;
0x1da0150f5a7104c25413c83f1edcd3dbcc49a91881af8b3809d40221bbe8cf09;
0x190f922d97c8a7dcf0a142a3be27749d1c64bc22f1c556aaa24925d158cac56;
0x17b4a6a22f90ec5575a31b71aa505b70cc19abc0fabedce5dfc7108bd5472ed4;
0xfb75a413209d1ea511b520b3ad4e96dd0a548ec6d5ce2de9b0edfaf667bf213;
0x7229fa12e5e9aec5a258249b3667fa5a1a7e9bf69245efdc66a11d4cf9d16eb;
0x29344527ccc73bd6ae01d4ab76d7d8205643e8c39628e5975b0e68ac647e7dd7;
0x2e06815f466128d5b0fa1325a96d6f63e513c3c3590f612d01f0ef02fdf74ef5;
0x2381219c79d22ca23e9bb37cf7f3da8125510c1a9d7e9e26d028ad61f3ba94ab;
0xf724878c378b234a5bc4fe6f51c000682ce95721afa4c802498ff5f4e3599d;
0x2961aca4c9ed99dcc5db33902857ae905af926ba044b93d1b8cbfdd82de72c6c;
0x1a661c53d875032769a8a89ff224b3703864fd77adba88076f9507884ea8dc0e;
0x20d8c84a77dbf187d873feb492185f9341bd7d20d4c82d4c588009102389aa1;
0x273944a60bd81f3c014cff9a5e1b1d99079a7db63860abdc5b850138c3ed89bf;
0x2c3483ea9e8733bc2df8605d84cc2903a10a4f675f803e33090bf1b96d7b6f5;
0x2c1570fa771ac87f6c1c7dcb0f5efe2ae8bceb26280adb11f1565bdb3234193a;
0xf8f2bcada2b15807d4e400663abb7ad2a6c653bd3e27352d2aa03cfacebaa3d;
0x13b356322af7bf7ed892859c3512f21831d23d6ed46bf4c3514762c2a468cddf;
0xe8ffc445422b035202aeb459085298e5c3d52ad57a4e0c982e4bf6bc430879a;
0x190f922d97c8a7dcf0a142a3be27749d1c64bc22f1c556aaa24925d158cac56;
0x266878c7dbb3ebf725baf09bad62441c2a05a8cac838d637371bcb71f7e637ec;
0x69ca7aea6fe25ee984031f308b491f2a550e4134769d30dd374c0c97ee16568;
0x190c3bdc4ae56b9371806f99c5247c7f6071ccf725631c6f3435075889f34956;
0x1d325902dda87290a07b115f3673203fbb2039cf470f229881c786e115ee6abb;
0x1b2936a6bb1b221aa267ce939f99c211b758c2128f8d544c4d0b5cbc660fcd54;
0xf9fff4eb7e28845be6a783736f297193297a7cc12caf5dea6f07b5eceaf6323;
0x20e98cfcb657b1f49c92a069ca501f89e96d73ce0791edd336a7f5e129e5ea11;
0x15ddf382f5b945869af8a3bd1a030c98d8350e73600aa0e8e1d4ed5e9a89b5a;
0x93aa5d4e7c2e0b87bf1135f3f0d94b40d59bb293a582031adabfc2a8ab17bed;
0x83ea048a2fab7aed31a80902174faa9f1960bc2531d18de673fa873fe688207;
0x4849567874ad0253387252406f2d8860b26b6b605e98c874a585bc157c57a39;
0x10315d0548c6fde9fd87ab4a523f74d3a5c791e455f90c34b399503fd9662149;
0x29b768d0c1c037e2c20b133eeeee017166d2797ba47a2e647595e5f0bb433c7c;
0x2072b5dd1028087414d36c4fcb845d4e4e719885af8f4abfab39fa404fc68e6f;
0x1434175409254eea7c9b9fc3dd93314403e8cdd56f9cd48348198334c700fe6d;
0x2da9b2eb148cca6790f4b12286fe560880d75e66bd4c64ef8ee58d7551ca56d0;
0x190f922d97c8a7dcf0a142a3be27749d1c64bc22f1c556aaa24925d158cac56;
0x16bfb5fdd4ef9b81e92336ef013f8430727960333b76b5eb81dad8ef220bd284;
0xf746438c3f4e612f088a4113940619b5d96eec18099f5b912b816fcacd03ac3;
0x25f8d85e6102bc16cfcb5dfe2a0a6850c4f7d045a3614908d332702320cd2445;
0x19a23070f8afa08c4a0a2e8a1067db44e95847e5ef5337057437eb68b023ddbe;
0x19e74aea657fd4206322de101be54c0a70ed001eb5a3b897aadb178cee98303b;
0x2a32e9f7f76615c5bc2cea017e1e937997d33d011ca2c543dcbf08664f247607;
0x2eb2f9782b5103cce27210e54c6d760ad28af00a23b0252a608ee0536525990f;
0x324cbb7ff16c463fd8860a5c6719122702f8f055f721f7c2ad5121d03ccb6a0;
0x4fb92743eed5177e7a4eec1917d48ba4bf2df9864f477edd9984b5a1b37d95c;
0x232e90742d5251ee73e1e55ede489421aa4d9b7f731d9209e18ae772b1dbf163;
0x2888b0287bd050425c3241bd7d5336708c1d2410434d0bb8a094320552499791;
0x5e878a6e2dcb5fb6176345fb830caf6edf06061a452e94d1d49a862b1563411;
0x603e7150eb9b06c9c0b94832d53bfacc98e26386e2de0047d289e44483331cd;
0x40392b8780bb071d2acf492bc6c49d03ab66a7d7d1689f16a47160923d6303e;
0x27005786e8d1cba94d005f8821f564a42500562da999b4c40163fd15d20a7188;
0x2f6ee6456256df4b7b4534f97dc725df7d9e359a8af4f84035db5ead72d85594;
0x190f922d97c8a7dcf0a142a3be27749d1c64bc22f1c556aaa24925d158cac56;
0x249d2e3a72d67b9ff1c12f00d2e2d15213b2c3d534ee1fa7e0726235d5f8a76e;
0x66af81c271fdb20f0f7947ba7689567fa0acec8e8760311b200713a3cbf2915;
0x2d07f33cec08d772afc8a847245583d60fba733b2874e3f14d59770a6eecc1d9;
0x2b5752992e1969c88ef2bd4cee7cb74d7af5c73b2c43c148d47c0094163b7a03;
0x17eed7f1d2c6c6d5a9ead4a939871196848682bc2aeb713409769599c6fb99d9;
0x2b0443e7dd8fa52629acb60c4d9f489a3b485f9bdaa3049cce07b90494140c99;
0x52e92369cc40d1c0cfa00124ea29c928b85c7b64c1b5a9111c07a33d28cdb7c;
0x2d590ad359f3f6d0aaf8317cc35b62d92b05b0f5c685cc8c3a369de6d1d1ca99;
0x2983673217a3388ea6ec1746e62fd0c1d2b2d774e63564ae271d77dba331817d;
0xd5ce1123b37edc685e8c234f618c830e87b1b95c108a83cd9d5065ce002130f;
0xf9b69256d0d0e083ba08fdf1bcc73a95b7b378ede36d8066cb024b8820bb003;
0x290490f51237cd7ab3824f2057a7a2eb725f946442c7987f7392e4c85e8dbd77;
0x2bd1c921b2655ffb99e5a5de025d08c692fce4e57a3c401fd655e2d05d92a653;
0x3fec0bf41ee1a2c0a7a0b7ce73053431a26d2b7db92d42a41911e6129e3fa9a;
0x2d6233e08181a3c9db09017c0160c2ef359139513990884baeee525b2597eb81;
0xfbc98b8d3b0b6f2b8eb1e780db16d98ef5d4bf4e65ca518e62dc72f693544ac;
0x190f922d97c8a7dcf0a142a3be27749d1c64bc22f1c556aaa24925d158cac56;
0x1f04cf1ca4f6db30e843ddcaabd4cc71fcda39b55533db1a8b61488aafaaba74;
0x1a6f6a78583cddaa58898327f4ca8e00ed729dd41c464fc9ab0c5e0d1b2e9bfc;
0x3e70e81573bda5c6ab953bcf41581cfe4c65e2d3c04cf1ecf43a2c8ad250d06;
0x13fb5b6c8df4a5257dd67b782727d8a7d90ca92c5d9a755847a1d3b6b71cdb90;
0x4d54595c25b41536d1f203e1a367acda8feed3369537ca2557f5da49f290e84;
0x13671d8ca7ecb93d29c9123bca96103e22f68fc5a16968fe903c0f30e8bd0b44;
0x1486a9a8302df3771d974c562e1b03b96daff1e1fc6bebe86595d32608a85bd8;
0x7cd279d7d44931e437f59bef5027f14e49400b0847f4117c762ce21ea66775;
0x2358686de458647dcf3873e187eaa940fca529dd9398d2eb002a1e6f0878ac8b;
0x196d60cd8de82119c9360e9ab96b1bc31029ea6bc5a9c891584febe494ad5d53;
0x1e18e5d708702aec708672582aebcf2e4dad6be0100a7d84f4822e156f2370b2;
0x18d0a6119479f34c41acce9a1086c6b1a340a3d4eca4bfa561e4205eeeb8438f;
0x41e39755ed3b12972463551f41d5f1739433b966b759014bdb9d214ad9a6fc0;
0x1becd98d1916cbaabea2082b8e7f1765f838f2337121baa896e437be5d4278bc;
0x2d11307d21979b68119899fc08b91e02822cfb7c49ce878ac58584913d6c8a29;
0x24b7d69ead7cf1c4c204d6d3e23368fd40db0f2df00a4a8388557b6110917538;
0x190f922d97c8a7dcf0a142a3be27749d1c64bc22f1c556aaa24925d158cac56;
0x1c414080171ef43535efed9c5babd2275b89e5b175f3b71314f6c59040c97808;
0x397889b8011160475bb4d6d3379351bf5ecf90800b9cdf57bd3aedb21053cce;
0x24ca54f1fda634f9bfc0e39b0d4d6a738f7a012898e9c2bfa4a42ed533e52845;
0x171598e7caa20c990e43306d06b2fbd5879619ac63904e4395a53ad5d60e60cb;
0x305dda5b8003c236ca1d724beb0335d07aa3b2ade1ba21c59dd763f3019b5ec7;
0x1ab2ed07578120b399df57c5f109a40e47eaa956e66a6629e1796bde7174bd21;
0x2a47862d2f0d0629863c878ad7fe7df592ba7f8f3f94e5e5a85aca3958229f76;
0x1bbc9591c66436dc5cf4bb562468584632cc91a200b1f08e1a28ae61e5c30abe;
0x265e971c9adce13dd324bc968020828cca064ecf477268ab534265d7e5e2ea21;
0x1df96d7436aa2918ea082546a9e3e149130fbae6776590846e0632f3570657e1;
0x10a8c8aaeaea0414d87c0c1553784b744ff2e8965942d3828e14c484f84d2535;
0x63e4901d2d6197831f94a5ead9b058847ad67bcd8514eda44ca69a0b0ba9c19;
0x1af00487deaaba2511ec6bba34b8f248a5106b11d69cebe26fb5f35d2745feec;
0xceb1792ea63e2bace5b317ceff4597ccf3071a67199612396650e8defea646a;
0x7fc963b8ac37064379d5a652f999038ee4a250e0e3948cba3b899840a119387;
0x17aa663de33227a947a00ebad16999a905bb2976d0c997a9a5a9fda6690754e2;
0x190f922d97c8a7dcf0a142a3be27749d1c64bc22f1c556aaa24925d158cac56;
0x27e7f01f7e5850decff3c8f5c3ee53951fbe076ca41a7e1807cbfc4b8eedda63;
0x13e9c09190f744dc7563c578dcf432de2522b7c7f995b2880957c5d2c54b27eb;
0x291cdae728ab7b72e119248c0646d1a7c305afcf50c9dc1c1eaacdc9660d21a5;
0x2df268da059255b2d959f934bc217781108e61710f0e3c460419d11f1366f45e;
0x959f13f2c04b17e795093b408f590b85f707e54795f5df80bb57b35c994dbe;
0x2d83db369e2b48848a27b55553a8bdb77e067a93f1f28db9de6c65b14818558e;
0x2cac7303cf0462f21c4c154984fef173c428c47215feb2c0355c15de4dc64ae9;
0x1f16c3b17497d87c65b61123d1954717fff18f21ccf4c86b4ae27444b535222;
0x211a857b06dfe2df621d3a89a4bc05dd0247add6ce13502fe7fa37e63888f7db;
0x1bebd0b81ea6cf89919ea765ea6d04d035d73cf7745eaa757cedfe625d10573b;
0x2cb676f0cac23cd80bc40f3269d2610fbdeb7f20f5a74d72224525c6e3ff69e9;
0x1e478ad6535f1ecc579056c6ac6ac8744f8e35209b7a081f47a5b0c33bf144d6;
0x1669c72208abd4ae25158c9c73156e966504dfbb6a4bf9b6fe37a1e1053b049c;
0x18a94771fbadbe268f58cc38e48ee81e3cb5a94b8b2cffa8cadaf75a171de693;
0x203411c7e08bbc6a10164451062b19e131ea52d02dc1588d3591c8abdfe1fde6;
0x6cff9d23d331be245ca3ea0e37355132a367f5ceedfd64c842dc9aef97651ef;
0x190f922d97c8a7dcf0a142a3be27749d1c64bc22f1c556aaa24925d158cac56;
0x167961cb9db6a7f1e253bf7c7d0711beed69fc736276820f1f7df8cfd1305bf5;
0x251b413e3039cec0af54ae9d0dc7ac5ccf5feeb9ccc482a4a4e93df5dff6eaa1;
0x22461b5ae9c4937eff6dd0c2ad5475f20abd4c5d13aa3894f20ce1ceef0511d4;
0xd3c8cb0ca400d52f3eb96f6e403aee53c9e2283a19826f9b770d5270d3f2316;
0x14fe9ead6519febc01088fab56bdd7826c35952169e8c60782ea746036fcef1;
0x9e8b9302c470b946bb4e24b13b1692266be83cbb0f833527e1971abc11676e5;
0xaa736ba6817640b3613ce5c87cac8f64ba74ec23f8f5c75f0cb1dd2ee552f00;
0x195c4f3bfe08a064f19d6fbb6690f5f723ccf6851db01e64dce49b82640d624e;
0x10bf96df637b9926a92efe91a6095501db10b10b9b8207e73eecc3147dfbe14a;
0x6f9ea58e02e97445f704f68bc535b1d9d6ecbcd4d151bf2bf9f6bace985c14c;
0xdb1da59cb0bc70afbd95e428861a2b708b9894749a2a88e62520a767c4e6d48;
0x41dc2cccf102bb7168276813ff0dd2a3ae59f4f35de8aa1404160be701d566a;
0x33b21d96a57d2c1d44c1482289bc607254a0395fbefa3bea25983d6e1d70893;
0x27b5df4b4bde32d934353e58dc214d02a835318804ddb812a81effded6706985;
0x16c436812dc3bb29c680d81bbda2fc964fc0cedea2cfbe4f9f0bca7451e2c26a;
0x1075ab0069e8017ef2b84b9034c0e4e981de009440f57ffc72ac633624caab5b;
0x190f922d97c8a7dcf0a142a3be27749d1c64bc22f1c556aaa24925d158cac56;
0x1f158c6c1065f78b5f780520f03c584465ffce26ad183a50e11efb956a8ee412;
0xbe6ce6cad51b6bc14791f01fbc62bf26f20be46ad5839ddc356afaf24dbb219;
0x226643746553477c60b99089eaaeac4ae64b308a3c56ab343e55a6174922306b;
0x2e82b3412adb8919fea66a8e2c0d8c5fb6376944728224b79ee3edbe56334e2d;
0x25af6deaf2918fe03edb3989dc037a834610d69bcc3409e13e7fd657b6c404f2;
0x10168c4b7ba5c85008a4f87c0325d238562951366b754259c06402e69422398f;
0x20441555acd94f03732b606acbb25afa0e3cc39c7f0602214eefb497b4a340de;
0x200658fc08ceb25b3e1ecece3989b682546d415f3eab6596fd7f63a9ebcaf3a5;
0x8dbbd95a7fee39cb863987f4a9dd8c40ec8c1b94f21735819fa9d6fc524547a;
0x1679802a70dd63806557cd2d8dbb8788a91dfc982c672d9c2df04efdb12c6980;
0x18b5ee46c9ef30ba46b5c242bddd68c8a1f891122ec62eb0a1ce4e0efd408297;
0x1760042648d3c88f3800bbac32caf5e5fd6b808f50af91cc5d834f3aa9bd2128;
0x2bc24aa17ef22eb5273e6812a0e597bde1cb74b65fc35ae06f09358d966b243f;
0x1871a1352a74bfb73dc35b7245903c1906a12dc3d9448667225b1d61a83e8cc5;
0x15ffecc09ae5dab7e235644f38c84af5aa6ca42f2d23b64bdf7ec536f9e7d5f4;
0x2c9c4d817a1351cc3f659d10453598cddcb7369f9f5978f44025b9d847935a55;
0x190f922d97c8a7dcf0a142a3be27749d1c64bc22f1c556aaa24925d158cac56;
0x258f6b7174e2619e3c94d65ab10273d210ddb46eca06a22f81117fe5f02bc38c;
0x7b65580ab28befad1640084a12ab11bde32586ed38470937985e2ea07eebdde;
0x2251fd1d0a5bd91d3f958b9377996bfb6f7e777f3b2a3bec54befd9a19b429a0;
0x226bb0f7370463f705b99cade44a76fcd63a762a9685f7a254d9bf67d9711d19;
0x125b1f6876e2cd4548eff5a6ea0598ebe43aa0748cfdc53c83987489c871d0c;
0xd6400436f874ac40bc4e3e392043675a8f8bd071e38ac56d630f810a6c382b2;
0x152557b0f424f9188e7c816e36f83ff9be71abffa7caea38fe42b0b7d2731395;
0x2419922a2d394b1837d8687453eed9aac005a6128ae835110a204cd57663f4e5;
0x28de832e55c53a37639618510388ac059fac106d2833311efd450dea8b112d6d;
0x19e9bcba7b55e568c983d797460754fad7f04c39a4d078a0faa9868557f34ae1;
0x283908c8bb48fee64ac955e7fcb47040fee47edd7810e5ea26e1d9bea337e1a7;
0x25c8ea766fae5e6a1a1a20af4b178812c0e3e38eb4c5c2340b1fbf4468c9bcae;
0x18cf37ce25ef86d2f7c9aeef0e79f0abb007fee6222e9952c9f734480bf974ab;
0xd41106aab9ca69696aaea2184622f814fe087b12f716e2dae58069776e1cc02;
0x25a1462f1d5a2353e1af93865e7ebaa573bcdd2271b268415b05fe113c8851d8;
0x2d96abf52f1de16d6ed6d4d9279035f5bf5b825754dc21d11feb94e3b1700cb8;
0x190f922d97c8a7dcf0a142a3be27749d1c64bc22f1c556aaa24925d158cac56;
0x18e5610502d2a1bdca2d2cd38baabc9fd641ca4e9ab4be237ad32c72dc880c85;
0x2bc2a1228621dc365cacd7d5607b93181b585843070c12a7abe98c2ddf0b8ce2;
0x3e57b7e7ba3e4e3caccb663416bf20ba7df9fd5fa25d95ad29970a6098b5d47;
0x95beee076b8de68c794636c1a75a0f1f79e694e9470af6557dd0a756ecec4b;
0x2063d0dce7c0e4dcb6eda83c1d2e9d2f8fb7d2754b2a116c80a5fce17ecbdfb8;
0x2793560a50cb73953010b7881649cf034817d3803411649c83fe7de6c7dddd22;
0x927b8161885b12371bed6743e7f3cff4e26596f26ca6e10ef9b62824c6d9408;
0x21e570ce0b93102f53c6621c813a62dfef04444d67147e86bdcf6d89982174c2;
0x4da2abb8299af33e497e76256a8829bf2e90fdd6e170ae91514dd25fef2450;
0xaed6f83384c5c1b36797223e5b98e0dc7e322b205d9946ad59be72a56401995;
0x1043df1375a10cac3d79397e2572c2de5910c9b0cf9c8a36a8597362e2cad2d7;
0x102b5227284acad6650de094677a51bce725c6da6fc1043a7668e939829a5593;
0x71b883401c25bfdce86be56ab497a10814bb19804c57834b4eefb6990b0ca4a;
0xee706d85983efe15078748f8f19a299283737b33a3c7a74f3c10d2e8d938fa;
0x1e3ea0d9146581209b7018ac5660e20c5033641c101f09823d5f305220da9b2c;
0x1135f9d772fcefd07385bb7c8b5fc0bfd38c1c41ab6de2da8c8b3bb3dc6ba093;
0x190f922d97c8a7dcf0a142a3be27749d1c64bc22f1c556aaa24925d158cac56;
0x5580932f510469f70096c820d9601ad87ef2f66990c8e6eb98d6a6dfde27a7;
0xc072aa3c1344e5535661baaf0855759b2489b40320116ec0b304f81402a9a73;
0x2c5e60d6d9cee50f3880234e54b391aab138c81550ffb9cf7ffc83e118fb1612;
0xea984db0b29d0ceeef9eb065131137d696b4dcbe9b29e12d0bdb74736fa3cb9;
0x1461bb4b296851abe76ef1ea0df56b555c76879960935307fce97eba31a58550;
0x217814f2d889b58d9728a46eebe679760022e1d564c5024f6b77667d3a31838b;
0x2e34b63991a98aeef1161f9c02adde896d1be685e9887af5ec9bfe845d2fbd25;
0xbb51a53298cbb5297405c865b6ed23804c9926319ae9c5c7c1ce2478d90c59c;
0xf0f1ad048e7b93df29617d62561ac209b488f58234f3461286e592f64a1dc90;
0x24856651f6c6c72ccdb29fdf1fe0a24388247c5dbb8973c1c87f3a933fb1a341;
0x13161ed9d7133008bfb93eedf4c667744c0df4cee0e0ad9038fd0968f726087;
0x1ff88f2a80b4078a90df72d706725ed9e450488f975fd006196208e399d8dec1;
0x2c300ce9260279a67bded94acaf125b7c98cc2208455fdcbff7fe98165c1d4f0;
0x180152334a015c3e7d433b92f0ed2365345ba1b3dd06e556eb6a39b45b924ba5;
0x1469185941b34b5a4f529c1b5a724dfac28aa98c8f830f8b1045ecc65b787f4d;
0x7be7c3b4de9f53e54e3f4f871cf62f4c7720d3a2e7baccb74924faeb3bedf89;
0x190f922d97c8a7dcf0a142a3be27749d1c64bc22f1c556aaa24925d158cac56;
0xdbd81cdf5b54b534485c26ecf29628e9e8070fec90c34b780acd5bbd4e7f0c3;
0x1735ed9f6fd2ea72803084da6d7e20c4735bf3de68156bdabb3888dd500476b5;
0x302871833d038dc61a984da78e5037234c7b2f114e495451bd388879b8ee1532;
0x5bf32698276e20768a54f9bed48935b674ac85bb3d9251e1075207c1edc0060;
0xae9a1e0aeffd431594e5745e8f4d3e5800361e8028ea0b4ba98419fb0fb578;
0x2b98b2ea75766211d9a125db8e6e7fb4a913812216365b1f6d2663deb1f0c19d;
0x15c0f1926bd600c94b15ee1c00e0ff93c7de8b4a935023bb59c664fe01f30bf8;
0x18f86036c6136aa605da0ad3d4251e64ff31cd436d72b90ee5d3157af6d79e40;
0x28542871e40749022211b244fce0bd160867865206c873f6668ec51a429f9a39;
0x2432259e7f4740024bfb2b71fc694fa8460971ff8869fa46f539faf994d23d42;
0x2cdbbb1f729d6ba0040b0fe63e0ab2e24a1ed05f4c2947f2a4dc78d49bf68617;
0x1f7d6c170f7a83d6241fbec95436b20478184b02ff7f4cef3deccc92da64b3a8;
0x18e6f168622d4679b6579a5bbe6419d8c868d67294944f8246a81415b30e6119;
0x9a3e52a4ddb98644cf4a701766c1ca5ae4a35ef1c11a017dd6aa11945fa53d4;
0x136a031823304ab94c93e3bf39b189e240a81e0a42b6060e38c7c2064b8148fb;
0xd82d0c90c41c41fb24d7160c8f1708c258222ef0539a2776a20c742dae0a624;
0x190f922d97c8a7dcf0a142a3be27749d1c64bc22f1c556aaa24925d158cac56;
0x2b0f98b255bc9fbaffc4b09dfe423873babfeb16c64a31d8f7ba70db133e8425;
0x137ffcc374ae9e222e733fdf9d0c515946baf3c1aeacab2c6218180eec5d6a48;
0xe6a056e92c767cd1fc970b338fa5c7377240432e6bd45aadd958d48f15d6033;
0x264c9a5c6eda708da60f401ff1171c9ea279af17f1df202bb27cc56773a37853;
0x1862618d4abfaf9e176dff2dfa86f1b94e291ee3e02dfea816637787edf4f37f;
0x4d0d2b042b8d971610b3b9433f373d693a306f1082186a35a8ed6a758e0c11c;
0x8854bcafc5f356516b2df46f5386a116f14de1b197290316d49869ee6dd0187;
0x4b8696c509d9557bd8cc6227caa099f002c5101ff6d5b7a4e48284e31992562;
0x125c58848e89261172f9ad256ef6cb755841d2913f2ee2ae9d68fd2eefa84d9b;
0x181ffc981c54778532d7ddd39ede7dd3e54d655cfe6681b049df6d85f76439fe;
0x198f1451b611973be77cc3ae7c744af71b1c94e3e87056b7af1e949e92cee5a;
0x4c9f885fd1b69729a871eb611c4a9ef1e009b0605a0cc3befbb806701b63853;
0xaafeadc15dddce6b214e3991babc93af04e3c6db03ae0e1408a503e1eec3433;
0x225622d35902840ed662b3dc9480d941545df10f2f1a8199260a65018d7af93;
0x209d4d14e8b9192e061a42f149c09d0c9831a1f02c35412f4563cfc03304ff9c;
0x1192a624780a6633d00dcfc49ab6cacdbe3d4a62f6c7d8abff6094a678714f2a;
0x190f922d97c8a7dcf0a142a3be27749d1c64bc22f1c556aaa24925d158cac56;
0x23278ece68d054afc53c1489204000d720cba66a63842ba7269e35e0bbc6d14;
0x9177ed9f3f33508db8be8f15b53360afeccc2f208bc7143bd226b4c885786ae;
0x175a7d6713e16fdb34e680606af50037ac78419ba5cf0dece2aba5d849184975;
0x1bd2f6eff3f24489dd492eaababe1b0c09b50e983658c1dafb2bcdb69a724195;
0x16b53ba34c5215013c262d62007837ae1cbfae155bc7cb3da840bf945becccce;
0x2c062183d49d2fd7140548607e86ab487b7a6f4da0109dc8b37955c866ba91c9;
0x22451ab479c09eecc408145baafa7f51fa598b3ff2d057365903ea317ab9064;
0x82f7e3f789ae657cef0f342c994968f47fed29262d4242964e0e793edd2af9;
0x11139d29901eaeae25fe8a6b8b27062045be218be37844305ca3b7e348b0438c;
0xcbb2e8c216cfa7779e8085a1a8b24ea1ca6446a664b48d576accae16c0e12b6;
0x48f7ffdaec0a2144b28a00ffeb5b61300386fbeee792be38552bfc8363561b7;
0xe0bba24d78116594570dd93a932c82b5b6730cda14170f58b73105e29fd59cd;
0xa4dc036fd4d9bc2561d3d0c35a0222670c59e5a0626e36811b56646b345a0bc;
0x1a1f2f87b5b4221b764e44a68abc8f56f6a97936fcfec06a3022ce00a3017373;
0x1dd702226b6b31fede8c6b8067fd51da81ad5b970b023875c1ae5bd2d56cc29c;
0x22c40118e01863b586d4bc9b2640c4f6c903410c17f5bffc7032420d494d5058;
0x190f922d97c8a7dcf0a142a3be27749d1c64bc22f1c556aaa24925d158cac56;
0x18b43cb399d143c97d4f8de9fe9c4aaffb6dd3785d9ce5dc9651b975b9054167;
0x12c599db262111be3d9842cd39f3a6f34e51abe1c1bc0711e12f69c3cc973e7e;
0x8bb47ee7a3961cbb9c94a68b2ccd3cf4ac95e8836f7538addff55f926bf496e;
0x2f5694920b9644b4396caec1b4c4150eb46a18cca0ebd71c4be28cedb456b39f;
0x307bc951cc2c9d4eff936eb6098bc1fb25254728e3906bf089bced7826fb137;
0x17bcfa98efb68a8236a23a716d27b3cc4539c8e79ca9026a9b5423a6442e2eda;
0x14787ef740948dfc067ea4f81bc1346453f77806e6bc39e3defdaf82eb952e96;
0x257a201998e59bfb34cf5494e14c65dc3f2fad4fcc76aa9dbaefd0005446972d;
0x12a8d99dd91ae7dc9bd892be2c72d980ab6459d3a6fb8efb96a54dd414906257;
0x200bf208f11f7a4a4de085188220177b52da270fcaadd23e79e9e879dce364c1;
0x1a9f530729b8ca369b1d5e6937ae365f01dde06c24722bf111ce4ca5c764cb06;
0x651d7f9fbca106c4e8b3b5a1ce48b2db6bc1657f7aed28d952e28711132c0ea;
0x2a3316648cb65a090f0faea9d38323345b7d4a91a9587a9e8d1cae632896dcc9;
0x1553ad82056a8d74b3bb80bcced6a7779eeba7eae923ca8b492b9bdae81110ed;
0x130aa152e81341ae6952e6732a315d1567f3ab12cdff38449e42c18ee55e388a;
0x2162c9c868800aabd5be303b798357d4530f56e0d8c94c99e095740337911cc9;
0x190f922d97c8a7dcf0a142a3be27749d1c64bc22f1c556aaa24925d158cac56;
0x138ee349a5126b8c59ffcc05c3e58041d520f8cb80be3db2d0b72af7a24d090;
0x2e59364c831ea593aad5fe14da76a1d7705b7af94f331ab85362c4b5943b8b68;
0x24b0f5945c543f6ca8126782d2337ef8dc930a1b77c0e133c6fa94fa2a19a462;
0x2d8f29c644853834a8f1a61a8965a9890fd8460a82ed2520a9fb332e6a22b983;
0x1e408424ad586d58ca0a0481dc08b8ee63f96c838175dc8a652ada892c293dc0;
0x1cae05e2d2ed01ae5077fea699a2119531fc30938a5ae2c55ce656b6eef33b8a;
0x1f0c1735c782a57b3049ebfdb7de3238a608fb6fa9f89bdfe199c3df1c1db15f;
0x1c9b672560571e96a5590c64c2c5b799e1e317634d8de5b731bd7a51a68d5d4f;
0xc6e7bd2073ed42eaf2db5a728b6d4f1245a87e614b322c25fc51eb0ffaa6eaa;
0x1fae1dfd513367218a20406dde57d573c62196c4e12f5347ef486102e809cef3;
0xe408e6db3d016f993a53e864198deee0f2aeb8309bd66f33fcfa38f401c780d;
0x2684ad738e6116f3db8dcccb6c61cbb27fcba040b598ded972d6422299e0c09f;
0x2ccc5b6bf5cfb7ba1e8a89e76404ba0067c3d817bf3ebfbbe4635a789c7bf067;
0x2e3dcba12acbf09be187f2b4d453be5dd4f3cce2994f18cd1226c63de056e868;
0x23e70e3f73723a94ddfcbba70771ce2f5a4e15b4a8f51b2828c05cb07ad2a19;
0x169c46ee7bf4e148cbe64b6cb8aa1abee9fb5fbb04997f18ed315345a8594c5e;
0x190f922d97c8a7dcf0a142a3be27749d1c64bc22f1c556aaa24925d158cac56;
0x7cdcc3b6498adde2756987e13560d7664f1e805180ae0fbbee1dcf1fa417d7b;
0x2d9b8536ae52537df2579df0ff0a06d4a99757ad71652f91d3d724b4eb970acb;
0xa1f0085c5a9cd49df855b92dd309c3681293e5af0417301e9e5e68d1b34128c;
0xd1376badc16946a4a5f324390a4c6fb00baf670827048805a36b06357c39c1f;
0x106d0427df7fc4dd7aa26de279073df7fa15370084bc27e16f5f12a8b01551f2;
0x1cadca4ffc5bd9eb861f7ef6e7ba8aa20d7709c633c90111b98e094af29df8c;
0xff923b3ab95cf5a3957cd89d03319b4bba3287807830e11073542019971eab2;
0x1202a33c0359b51491e38826ccf21bb0c545e660b3da916ab91b0e02e30484aa;
0x11608aa64cc3dc635c119d0691f46b0a479e142e0532f9256d3414369f5e3010;
0x127d38a920bd78f2b5feba943466e85100ead21ffb0bd048683c7e7ba457443f;
0x21f792c3d068276d10650a4ef8c8e6101d763990945f044ebfc6f51126332d07;
0x1bdbd707d55dc4709b586695c5708e9973eba79a19d6504181cf8692f7f636be;
0x123ed252de9f1a986305fb990661544d1f0bb2d12e3e5abf36130d680d61450c;
0xead6abad94e79729b5e708c60dca274356c3e5142349c43382984d4df096650;
0x21eb504af959f21f9c7a6b50a58bf5278209a2631dd62bfdf6175af8f22b3c0a;
0x27a7eed4d44ade3583fbe7ddd6fe43796ab32266aa3f4ee382c20b99debc6e1d;
0x190f922d97c8a7dcf0a142a3be27749d1c64bc22f1c556aaa24925d158cac56;
0x1462238c5857d995aa2c7ccdbe788cb06271537ea1a299f28c307a825e8cdfd2;
0x20c2ff1b99b7a949739ea108f5f462a0aeea077303cbd515bc7591ae02a0d43c;
0x2aaa992acebf67c5ac50fce7824cbf41e6e5a9f87cf42926fb964505ba60c198;
0x2797fd373735895c3192ae84ed39007478a4b3435d8a497549edda3d559833c0;
0x135eb9d0101c2a78ca1b03ca53bc556a8c9af537d77bacafbff7f9bc66be9b98;
0x2f594669789d1b805b611c27ca33a5a102ca3854938369a172c78de5a4083851;
0xb8f930192502857b534625bb6ad2ff73e94ef4db9565a7de5c513f46fbc3e83;
0xa520b7ed463311aa8ab8e7b8fedb2fe271214127264cb3a0f7a32d0fb871735;
0x17198721be91de95ad64e64495b07d2dfae45ea67b2c824debefece304d25858;
0x12b591844eeeeb06eed46691ba7e1bd4d6615d2aee6f1c040e6334596ee06d0d;
0x2e1d81aaa4a22d294a4f57ca1199bdd171c6bdc0ceb9e9e4f7371b50bf3fc969;
0xd18e43e3b9d5671e7f8080d1b451523e655cbf183ccccbd58793628aa689057;
0xaca56cd420446d0f57751deb06906cca2c88c5bac6d35a2f721702b1bb56c53;
0x18370450204ee070cab3e252535bd279023c9ade36b971986e9f4a821bb0ca0;
0x10717c1af2308a9d4ae527c637257974d71bf361d742cccfd9cbeefb04120e56;
0x229af48ad01840fada729de64d9ac6c4e2ced8d16820f464b60969310998be7a;
0x190f922d97c8a7dcf0a142a3be27749d1c64bc22f1c556aaa24925d158cac56;
0x1f6027d1806f3db36b0e2918305ea28007622b62282d0aa7d2d1c38bc3a14580;
0xd023c3469f5337eb7ad3f6a1a9a3cc877415f1aebb7e9e5a955ce93ffb786da;
0x2b7436beb1e205a4e723df370f2c669857eff6da7fc85771e7dc8256f511c547;
0x2cf4f5bd0389a8d20b9cf97d0b2e75a429f36d01e1a1e6a9eaebc6002e6d7f27;
0x2c689316dee7e23d23cb31070bf6225d9cc562fb57e3fbdcec3def3143d073db;
0x1dbe68dff3088f0cb02990e0c030039e116d0196eed2410a30e91c08cbde3dcd;
0x16a3fcc3080e28463fa4da66d305d58b74885dc099dd32b159209361fda491f6;
0x2f84ea8936e6f0e98529bcd5d666e87d8c7e68aaa1787fa673b8920669b10a6f;
0xf67f541e326dfc3555b54a5a8089013085f3cef05dcdae0666cbe4d1476c1ce;
0x22c68a5cd419b439a367b742715697ce0d2e09a481dae8751d7c7726837211aa;
0x2063328c09ac22652283d91a52d9851b919051815bb5ad070ee015040835b157;
0xe78527a4658f58dac40430d4ddc9043ed3cc910a8a0e30b03ea904a781ba8b6;
0x1935fe3bceae0bc5b8a13b073b2678048252e77d85f393f84a1bbf1911b41bfd;
0xdc76ca0df681fe5c3b9ccebaf864ae495c8f92b48bb3d9d40274154da97286;
0x119aa817917a73d46dec3e58fea0eb8ebf74041c1b069b1a83ad4856b1809ef7;
0x2aa46d04f1238c646746e8df5bd0cf9dbecafd57d5de4f743fdb593379ff138;
0x190f922d97c8a7dcf0a142a3be27749d1c64bc22f1c556aaa24925d158cac56;
0x100148238e0ea61c5b6b81fba32193d55597904d4b1220500edcac81ad52f68c;
0x8243c72e44e0114151fd9b102eaaa569fad5df40df83a1b52accee13fe49fab;
0x156b1e5836f0f59be75c7f198a5d153ca30f0b79882036489937fa8c3b6d8323;
0x2c0e264b43ed6c4b0c36fef6aaf1aaed9091f35a830550ac4364d602bc9e9e4a;
0x534b4de30df58163e970ffa0ecef0738a9fec8c0ec4e7d9d15a666a16f45c07;
0x4dfc3e86105970cac41059c73d5f2ce55b16f40cf638a85521ff270c6e11e29;
0x183720d9443c6a59364afe5312050095e335b211598478c7b005249e89ced914;
0x1dd461fcefb3549ba9a151df4013b323b1183ebdf913126b53003e86c08d99ef;
0x2656efdbacd1d58ceac9a0e79d35044753ff9b7f6dedbbc6d8a48fa48028fb5d;
0x2ef319b13362ac4e82896c082a6fd4a64b9cb25efe1e0f5068deb6fddf95d02d;
0x13e976b891949cb18b46fe1130d4fa1b16342e954779fdaf98258da7192b9c91;
0x8c80492d0cc609e181c3f9d8e2da90f68390facc7e468d29d49ad9257f55c28;
0x1aa3c7c7a08d082afa7fb91c6f1c9f989b98f9619b56dc62c7ff1e18c6b72c86;
0x1d115ed240331ec2adbd0a398df0d4dbbbf2f6392bdb03085e088d60d7f02ba9;
0x1444e0fd467ba09ef9c1c6ce9a80b4e7be755d0e9f81a90f74f0ab7d110015da;
0x3ce99d4bd9007aff4e13c2679d14a31d6467b32827e68f234314d3013266217;
0x190f922d97c8a7dcf0a142a3be27749d1c64bc22f1c556aaa24925d158cac56;
0x1129b914cee489016fc3ff8d20e2be4c9abc873041ba82bb7e7781e976961b24;
0x21dbd50af59bdf352310dc018015a605fe2dfe0e8e65ce1feb72f2972b985640;
0x25a5291beb01d9f13ed31c588755e56e5e6158b2f46341c86eddd86aecd52d7f;
0x8de172c56eebbffb029ee873bff13163cb2d06caa46108bae1dbb2c40d22216;
0x1dd2d55f238308639169dba6066e0922ad620678106ac7a1091b7f7ae0d3090;
0x189191a64c9e4d960a7f281e378669034e779be7ac0cdc6e4fee4da0659b04ff;
0x141fd736c823aff77ac2f28632342c25d14a649b026ef03f36961bf4eb85d4bb;
0x113a24d1bc9d10e47f90f308781ddcc9b9249d95bbacd113d88d5a6ea33721b2;
0x8f0b7b38b133684b73d01fc731f895bcb30ea14364715ea92920501722d81a2;
0x1bf14ce82aaffec31f46bdce8d22f3baff0f96b8bfa00499581fad99e61f6076;
0x14b7be33a41e00d0333a0917a729539fdb90ba42f12451c63de66fd411f6e379;
0x2107e9e2811d6ac968dfadd3ae015e3f71f87d0c5d5c5ce4f9f7c66bc92a3931;
0x9e1397c5f39d763040b82fc2be1a64262cd5a4d9f32491ada436ce437bcfbea;
0x1d1a01986546a0812d3a4dae34ab33abe9cedf2060a4f654c7cb05d1298a03cf;
0xda3f22ff498a9cfef80f63e2c92dbd95928e85463777018a0d3204d1e50f38;
0x25b74b90af9818fe0fd8fbf33e539dc037a45ad9f433bac8dd3717b64600b622;
0x190f922d97c8a7dcf0a142a3be27749d1c64bc22f1c556aaa24925d158cac56;
0xf3d58dc69226c994ada311ddd4f11174b51c490cf3fdd93047540be437cfc8c;
0x1d948e7f1fa4705b5ae3e5f030a59ef966fa374f1d6bb87fb74d57b76f2b61fc;
0x224176ed89ccb581b45f6afac435d9b2fdf08a0f2622a5a20c2ba4ca8738fbcf;
0xf5cfe8147eeb9451b966cc087d2a9927396a83cd407d7f22afbea6ed6313ad5;
0x1b73e95446d5beaad0bb2c324a27dd0fdc5445ea8a553289a88cd540a7a8a633;
0x1b0f4b75472ab2e5ad4482742bcedf3b45d90177dd52680bc781786ea3e96be3;
0x2e189fd270377427f98adf8a3f49917ebddffe7716ad08db78761da20e671fa;
0x7c0a2036465c336f0fc397665c86a87ca0173ee19696b8fe7e6075283e5f0fe;
0x2fb5497d60412c8bbc14b961d96bcd9d2cf82a25da250d7860453dc0c36d3760;
0x25aa324c8bdacb11e81d612e258814beb13dd01a7de07d57b721a6c83101233a;
0x29266b9fc1cca7e41d3c58443362cce77c81557f56e3b2a9a0e3165f38fb28dd;
0x1557e3cbcfa7fa080014f6ceadf2ddc22cc1c6debade1eb605d0cc2755268dd8;
0x28ad3d8ba97896df26b3281b73de59d9d3a055cf84e24bf4b7cfca4a6f18e1c;
0x27692be22a3100758923b4b09be3c0e1ca34c62eb2875d4ca2e95199ef57e13f;
0x26cb523869e976355b8b2ead6493c3b1af3b24b9f619648976a925dbfb9c2520;
0x2a943b5d83171ed1ba5b2d0151f770d05cf117e28c8a2d0bd07901124b7a78ec;
0x190f922d97c8a7dcf0a142a3be27749d1c64bc22f1c556aaa24925d158cac56;
0x24917421c163008e468b59990ce9c9659723c7a143eeddf00b22bea911a23faf;
0x20347f9b860c7318d8abb5924973a6032790ed146dd51c2b175890e67c7c14eb;
0xc7b4b3d63f3985e07d15f46bff54c7f1382c7fcead2fc4d2732369ecf62312a;
0x16c3c15bfb090d3c32b6783b8f35b56bf1ed17cafab462123eb872e18f40bc84;
0xf4bf0d79b3a4f157a77cb759e8c3a950c2bf08d3b37e6e2252feda118dfeb6c;
0x207bc2820e9268ac4529e9415d7094f6c4a3dd32c21fb6f34a6721806e60a66e;
0x46d6e4942fc73df5a5c24e50a1390fcd3971f81416ec30338d988421d471e62;
0x25d86cb7ab23b7d7829d52fb3d3c2dc42ecb745bc74e6e29c00faf2eceda60e6;
0x291e27d656977488568245f7d60e5d31f7993b3530b6e7a5d2ecc5ed8bfcab9e;
0xdde8d80231232c0283b7ad84aa356bbf7a3e7605dba21f29b53fd949cd378cd;
0x16b9bca3f4757ee5bd884c08642d294730db13f90182970a962c956d5ded06bc;
0x148e1434a77d59aafd26c76dfcd0d9dd58709b43c99173ceae6ddc899e39d810;
0x23e38e3fa1713fb566e00717c0a22fe7e056067f7f455cf67c239fed5313c484;
0xecb380bf60702c006a2e0b413bb060a7dafdcf4d8c736483da381315d128380;
0x1504e0be27d971001c9c52f6ddabd8839fbf3cda3a42dc01c201788063ece2ad;
0x204cd425d4fe74aa1fc3966950209bd6e9966aa7df1f515e5ff4eb504623704c;
0x190f922d97c8a7dcf0a142a3be27749d1c64bc22f1c556aaa24925d158cac56;
0x26b0354a46c4b6f840abef50577ae0160c403ac2ae154cc44dd1b3ef95cc9a32;
0x76acba1cd92e4c02cec66b997f2136e03c86a5099967b8d2d6c3fa51ce470a6;
0x1b9f835efd362eced66b1b4feb359a5a292e5179eca20536bc05fcf71ce8b0cf;
0x1554b5740239a036650e957cf54880a05ffda13bd4a40b9946d1454b6e5ee619;
0x2337f0f2350dcf2d2c4cb2f2e3c8cbfe8eac44b18a4e7df6ab9659c6d3bd51f8;
0x2f70347a3e263a829f4c9524c0528c57aad8197d74f498c96618b82d6e38c750;
0x2ae047c01e6b790967c9af15fe9700bf12a32cb4742c75ec4f2264355251b598;
0x12bdad753525224488f0df2411e45b18e6d99df86b64ee5c2e1eaaa26b6b1165;
0x7ed14a9dec030c79ab897464c9c31e89ac5d398e5fc2330ebd747dc62704e80;
0x2586c2f08326503a7ccc396ada19284c6381f5402a1ddee59134036c6f9f4c85;
0xe28de3e58815af816aa0e449cb6b0b68151fc3b74c8844b0433fb556e13bf35;
0x15ed9ae17b48708404c20e204de218462f5c1de7a672c0400b1a4a97d82be2fc;
0x2897a3c61ab7e1096d59db7d062d3509dbbe5288e8503eb723a783668f39363e;
0x19382e0101202bcff4c8186a39e4ced12ada7adcbc0d3d535a37fd8e4e65d6a8;
0x1dccf64cf1043efc8ff525df9a110883db70b13bb644c6567c0ed56006979547;
0x14f753284093a5bc753e6e4516dc5f1856c363cde9ecc95745dde82f8f475dfe;
0x190f922d97c8a7dcf0a142a3be27749d1c64bc22f1c556aaa24925d158cac56;
0x47ce0768d3b94501b69470f61a3279af86cceda48efc0aeb4f755ce355a8c06;
0xa838da94e6aa2b7e3c8d24fbbd1abf9fe09cda8242afff691d57aff64a307c7;
0x2ccf7207714857e1b96f90a10f6662a0a161fef6f8554acffb454b475cad2249;
0x2c964702e998844a760e735d74ec7fc17e793f656653128910e08a1c48b27399;
0x26c73fcc286358f8a8c45940e32da21acecd2723a3e6c00003b875972e7e4215;
0x2503bb71691693c6cd6c045d3f40b4cd2885a71adf5348642d80b44b4274164b;
0x21abb0f3aa09de0569e24a9adf7863bd965ce656e4ee30611d0f063c1b6b1d49;
0x1e6c18a3ca281852b9738876128c7d16d2fd27789043907cd624471d1356d10c;
0xbb323797079be60788e8c257caa1e1e9b52b8f58128eb49dfd8d7595fa8275c;
0x16ed4d5164745fdda2328ab28d0ef0350a3bb50589d72655d0e0d5a8f1dbab81;
0x1719e6626ea03d94441eddcffb00dc8e76767224986c45f5f8bf746f72e33805;
0x20dd2444d1b30a7e45a076776b4366f04e9c5d1b32a43b260d706f646a098db7;
0x2276006ca87d973c1f5841a3b63aa9e6a4f8446a8a0ee03e068fda23a8a2e0b1;
0x2d3e7d6feeaad7f3c8700e6293a0d896028d4149d57c219935463621fa77998e;
0x26f15d4ba4736c73750ddbff4a7d9865f06d5676e449e9d249d3dc9ea62053c1;
0x3636803242973ab91fef85aa46df13cba4ac9f6537aa3730c0da88b9d05c751;
0x190f922d97c8a7dcf0a142a3be27749d1c64bc22f1c556aaa24925d158cac56;
0x2ef01bca238ea43551e5857e412427af1daae81b8d9aa0c33bf392bb9e71f123;
0x3030333648057d1d46a7a3973031a86637d6cdec3559bc12fa3bec6c0aab01cc;
0x24dce91bc3df505f0593715987d3e6bab8f1847e5eea91341a9d1e83bfc39abe;
0x27a2aa95ce7bd870fda385fc945d76269a9cb6d64b85f943430c796311d03868;
0xf32e1ed6656688b400c42da52ffa8fac2d25ee877612e565f9271c1cdb216e;
0xd69d7d99a58af860357adcbab763a96d048806bb1b3352c3ddcc0795e6bfc0f;
0xfca01158c0aecddc404d7561a6d4ee7c6e7baf54eef93f1b4c72bd9468d8140;
0x24f65dd1622f5993f172c7a803a71af6d9936a45fcf2f11c65a2291693c409c0;
0x23b6c1c4a9697834526084cc56e8b53ab3ccb20e06ed7bd94e752cae13e04650;
0x6b0b0674f9e70ca31b8658df5a918b6aa90ee4da8272d7ad50109ab73af2372;
0x119ea3133debe120feb5b0ff2128b745ade6329c228d8c93ef9ecac933de75bb;
0x28fe0921f3e250bd0d74df9669ece211330111bcda65ff19fe8bd02779da7686;
0x121bc322c37b3a84cfa33407bca08421c76577f4ed5009151ee61de9538906f0;
0xc6c6d133c64df4a3f148d03064ab681f6754192023f96e5c660181bf6708e7a;
0x1f357b000c8ec106142c05d7fcb45bee3ca8602aceed83c3254d1596854d8e9c;
0x2c635fbb8a475d22cc9388f33298ca3286d55e529d8167d036cc97e28b5c1109;
0x190f922d97c8a7dcf0a142a3be27749d1c64bc22f1c556aaa24925d158cac56;
0x1416e46669e99f6376ed9f1b60b4c1cbe2c13f36ac1a0961b28c0a4ded622be;
0x83b993a01c06914fae37498067d1cc7575d4d6692e905a76c01012829848e35;
0x7d66eff962ec6ddaeb23a84cb8fc53fb2435fb0779fdc6de042af8cbf653e;
0x243493ca2e9aefca93b6f729cd48e89c5b6977dc8b9f128e80f2181a0c9321f9;
0x25315cd8d5b5f0935df3ad290e18c8fbb1aa8a200af1b3b7acb784f2b1eb65f4;
0x219e9f27376ebda36a9da6a406a6c2346e6db6c35e36390500ffbdd24c754013;
0x2784f770d363c088139614dcafe4e82fec4aff60cbb9420b2defa1e5ceaf52ff;
0x2ef0972f7624a2c71c7339890b350f716c7fc3cb884c48df73788cb38e8efe3d;
0x2638005f1bfa951f04d3e6967a19ba68e797261d015fb0b4a200084da0520420;
0x19952bfc2b15a1b7a44e59a4f007076a56aa61c9cb4fec45f42301ef9157a095;
0x21bfebd7f0dbfa952f62f95d4475c079f623f56f67ec13f29e51fea4b142befd;
0xabe0cbbdad752e9c30c665546f1b68cdd2d556f659c98c9d0c4048cbf0ba4d4;
0x20c4f2c291c5f0b15e54fad44d549bdfa06e8405141d07446ecea299bded58d4;
0xc703a5af22bea77a163ee98e379877fc276a2e60a134bfa6b3e0f3674aad830;
0x23898a43fb970529f4c12bd16e98f891aed64fcb59738bd5c2ef1d7f5b9bd4a7;
0x27de205e3b4f798811873af0dc39f91c449bae168ea2b2ca268f0fff421969d;
0x190f922d97c8a7dcf0a142a3be27749d1c64bc22f1c556aaa24925d158cac56;
0x34e0217aaa3133ffb88fd09bad59e44d8f0e74e1a64c86f3e9aa4587000464d;
0xf0d2954a3425d4ef6291aeeca8d1e1927250f8e566688bf01f77206b6a0e0da;
0x38ae6c953b05fde8ec1997151d62106c38561a6563b7c5c42c3ca3f254ebba8;
0x129dae3e6abc9b3eef8419054977e8ebb35956b5da4731f87a1558b93d5b676a;
0x43331ce5bf13e212c36bb6028ea5edc909d6807630483960ffd1e472333de8a;
0x6edd2bca6596515c7bfa7f82c123947366efc923072442cd0d6cb3cb95b6590;
0x218d39e5cb24a98ff778833ec9cc9c97154a2f0dcf576e36841e61f2a9d53c10;
0x7babdb5f969df1056dcd1a4d25ecdaab931bdcd410f51443221f43ee9ad60d7;
0x51f51c6edca7ad20f95cbd07ce9c5c51918dd6639ecb58e2db44f9da92ac45b;
0x18d0cb9110ed2c13ca697c51731265461aa40cbff3eec69770c471bfab8547b5;
0x151c0d100750fd3fc64ac7ca148c41bf2634c161746e664b6403e1d5ff99edb6;
0x1badce073db9156bc6bc0b05a5f9ad32826ff80c20dbb90991c59b84f1887631;
0x1d09611b11f20c357da69b64b7f235ea79741583cf177a43141caee3928bc88a;
0x15903ccf8bd20aaf86dc7a0c1919a20b2beefa10ee9373ba62a75da5db50cd54;
0xa3ed89f4229594227e8d35c0f775d81daef83cf50f6daf6c92584dbc86bbd7f;
0x15c5a6fdd9b6ba06ec2cdeb9f465fb29a83a9345daed49e0c27064b2a745f832;
0x190f922d97c8a7dcf0a142a3be27749d1c64bc22f1c556aaa24925d158cac56;
0x29c47b21c3c1399dcde464739cd972c2ae7dd8511ef4dc4ab062de40904cd041;
0x5d20c3e118f7e163803874435eb8c4f939fad669606a0f8823155b46636b40d;
0x2a8adf7b64ebaf6bbae4363b8de139b047e49cc258d86927cdb17f64d7a76365;
0xcfab49644bb24735309134d8f1160397b61c23766c13afa2f67350700ea184c;
0x978c1e24a56e9f48e04a00ebacf84a971bf524a94ff82c9fa6cf2a4145ea323;
0x1e7feb08ad0759f1632751fda2c80347296a181f33553bfd11c84e3b99e4dca1;
0x1636f1c4c6be9b16647fd56e418b432d81dee2c09c00d14df526a491d03df083;
0x1d0941c7678aa3814c49962f80f06a3b6ff48c4563cb563925c87b621392968f;
0x1ba792f0e7770d294979a396e2c55b21baee98d0be48705b32f831f2d09f470d;
0x1adfb90be5993e8a8e82466fd94d2142e05c507c38a0095535894369079e2858;
0x1701417adcc7a63515f58d3fe4840f96d7b87646be925abf5831c7d9f6839e9a;
0x16669c07129defa028d468884eec4825c1852e6ae60f5acc4a7a7754f9383ee;
0xc030db661bf66032b9e0abfe88cc482f134b5f39b13e8aa20b540d23a5cb4d6;
0x6c29b50030b9f9653c8cfe80928a76e6ba1fe5385109b7e606ef07634d53130;
0x158eff715b637ea2e1c4312cfcfc154d3dcae6d2e240826e791dc661d4122a0e;
0xb7414bf9dacff0d87b4613d9bb448ef0583f07948cb26d86963b0442a478865;
0x190f922d97c8a7dcf0a142a3be27749d1c64bc22f1c556aaa24925d158cac56;
0x2fc5816a8a9d54f1397ed6dcc705505ca28a50d608f2d6b0351d133ea65cf8aa;
0x24d04d2b53f9f94b51e0300c6bf97e655ab6bb25f790365c64949876fc8e400a;
0x12c2d385c706f78b68d132d1677f1c43fe555d3d9bd6622de8dce6a01aed702a;
0x2cfc07b04b7ac6bd6ff67cc6d32ace4717cbc56974a70b9e3dda54b1741ce3e;
0xdbec9e92d14512f3a95f1bd6eb87e7684fd099d747641e16956e281834fcbde;
0x11110cac8dad45362476f50536e03d139076972f5e03db946753ed0034ed3050;
0x17be085a196605f2b021add82a2fefe6c062bf2042537e054642c521dda6e462;
0x2d30434c0cef5fb5dd60f6b52c01556819bedd08f87f0c191941f95b833853d0;
0x297804121986231c72d5f3db2bb23cfc41d9091b7f085eebf0905f59854ad640;
0x263cfbe2843370e8f2352bb41b51d59a8f9dd4a39552922021dae9bd777d64f3;
0x1ada1b57547ba0b44cec18e94b273c02af369be58ba4ca5dddfc0c54c6d952cd;
0x1a022e3c7f181a5af4ca6b68ea1e8636ad7a51eb2e49779fea2abda08058ce2a;
0x1a51a742b5e2a8cb02194fe5442fe8160f887d71a8c624097cc751e6fc9e106c;
0x33a3c4fb2a336862528fe456e4b28417f0cd5b8d702fa598648593cb27ff95b;
0x275297e881159b1ff115beb9741fefff245fcebf2267fb7788bcfdb710ee11ec;
0xc4330cf0545fe0d4d56dcebff69cc7564232b0ba94e58e879f9a838fa43b50d;
0x190f922d97c8a7dcf0a142a3be27749d1c64bc22f1c556aaa24925d158cac56;
0x7b613d8cbe7c7e104e3144d883270530e6b3190606a2df92791fee2f3f0db30;
0x328bb8607f89952c7a0e199a914abfe679afd366f57160513708a57b0bc0665;
0x2797d2a42bf2c3f860818f92783ee5b77ea5c8ef3ac3433a4ba8f8934fe40e7f;
0x233e6f522a14ca24067c5c09affc7b53af6c87776525bb21d9058d01fc106af;
0x390562c095c160aa786394027404bbd6a3882cc1118cc8ed82307c6e8d80084;
0x17106e1ac0cfcf36e9d75f64a39807c812cc85b77e3c5ada491629f71d978f6e;
0x1aa28e48122d0a44733a370e5031375a8c9c648cc46dcf3344621e6cd4ca5c76;
0x18f6e768b9bcf25d37f90fae8b9a4c5cac181b9b05c6bceb922d50d8444bb79e;
0xfa9340f079ddc476b10060bfb852af827ff712c5c9fea03f62d13d0c670d988;
0x1db99f295b05ab42a946c2c3a5c73b225ba99ee53dc906eaf360675867efafeb;
0x97578aeb43a7d6b1b10240c0a6b9b771d65b7c5a3a5555226e3ce45de3d3477;
0x1974c34d88938d66ade5546a726dcba9bd76c31f1b4ee763af03f8d5698f4a87;
0xe25a828aaee6f1168bbd9ca2c177973a8f20f4d8bf3aec06a0c24512df222ce;
0x2e13ee7394e626ffebeaa09712936f8402400971986556871516f2a0eca9057e;
0x20be54787d3e6d7e91de4a052172de99a251cb83be6fad47ec5a56b053717254;
0x2019386dbf15958ed2efabc0f81184a6710e0f8239e8932e25827ccaabb750;
0x190f922d97c8a7dcf0a142a3be27749d1c64bc22f1c556aaa24925d158cac56;
0x1195db45235e0b286717bbb0e7fb7f4bd5f1346a8d6d47dde45513baa490207c;
0x257be62b59d6f54c021c27f0c3c0a7ca3222dc5ecfb298bed986f1b6cb74f79;
0x2fc61e8c69f1b6a89a698d4bd390f1ad961ef1c979c315fc069d1d3364630829;
0x4ed6dd96dd4ba79b9474bfe10517c93ceb5a6dc5b95497a71a38c42c4171dbb;
0x10c8d7d4846014d1d37d7aa27311dce9257ea1de1700a7175a03b358f12c0dd1;
0x7f833418697f43d68c6792ed1b6a4274500d96c2894313f43d9185129ed01b8;
0xaa1fb14156f9db59737b23efdaccc40d8f609b346809f66d96402e5f9a2c102;
0x1a3b635b05a022877abf26c5378da756752882d30152a75e75095a4992926de2;
0x5ff6852ef2c7807df8c68cc1fb842fe07ef08892e6706f4ccb3059f1d80714c;
0x18e93ae4b4c092b271ce21881f133bb369d09e3726967ceb0484698a6cb02374;
0x5f1d71fc99fd6e8dd1a4ff1c6fb4d16aad3445b2c5b2698a8ca995b3ec32fdd;
0x260b2c665cf863248a5c9a03fc5ec713c1d32dd3bb17f3a6dba7af1690317514;
0x199dc26831d1b81e333ea797e6aa2e76ea2e6cfdd888393682076ce77fbd4cf3;
0x1fc7841c3762549185cf197f765c50f4da97358c40cb69cf74940eeb165417e8;
0x3dd8db3c33075dc724dab7416f943e45adc39e147443ffcbf3fbed8068089fd;
0x1415d87f2ece25dd6da8a9b56a5bdcef4f235a1b676ac4fe0ece8bea54f0d620;
0x190f922d97c8a7dcf0a142a3be27749d1c64bc22f1c556aaa24925d158cac56;
0x173e973d92b03e8f7cd54b5dcbd49e5c93046288c5bd8ac95f711e384807a40a;
0x1e9e9e8f087fe7eae21b84385017d6306c73ee4dcc5b09efe1f91b9df6396353;
0x2cd39e6fda7b0a75926254d1b4bd27ad6018ea559290d2041a6a1cd485026cee;
0x2babe32c6ad1c466c0923e89242ff07997ad91281972ca9690ad77806c79f9a8;
0x1671e3aefead10c1eab057577cef2d003653275ea183f956583dab5e6717aef6;
0x638040b4e068d6330e2073b9042e25763872c4564b413d1d8df3dc5271cde9d;
0x13a1be086b1c130fc9b0377bf5f4c7ab4166b34dc1442af15bd9ada0b316489f;
0xe92a08c67a64c7e267acf28a048035d8d702bc0e49b7157132781f3f912c04;
0x24fcf21bb660a9465b6a50ea1e0ff6c88d463e5c14cc82e7f333bd8cd9e9da57;
0x19c3400c22778ad2608cc33d103d7558b909f2bffe1128945021cfa3996b90ce;
0x1804ddf73341fab213bd15ac4fb0b38b210038ab3097df363df15449ca092955;
0x2d030e104eb695f158216f2d17baf589c6b7eb3174702acffff3459faa369209;
0x2ac28b5273536d5520dbc0f2d1ca6225372569f2c1f815eb0d98ea23bde3e0a9;
0x132369e44fa5b49f309bdb51e3f76481bc7151112c28ee7c6058d4404d326aab;
0x1030d8dd6355ef0e8b3bd213083f0540158a13dc059335b0a68471c1d8f995cf;
0x10754be6667d0c88da8d27c8d885c68c2ec53e66879efc8664a313846c8db7f4;
0x190f922d97c8a7dcf0a142a3be27749d1c64bc22f1c556aaa24925d158cac56;
0x245fdf24ed7cac6d987a5f1098a3dc2094e8445ea8a34d409caa0de9ee8833ad;
0x2ddcd4b1ef28429efb5371343d7c1aa34394b214ba4d3786a72ff4a260f80341;
0x9796da1c54e94658988e1e47f2ab2a18fb54bd12c0f69761a11428d2bf8060b;
0x2b820079829572e4737fd84b55e00d69b9842681762d614c4cc9f4c83dc7c88a;
0x2a2c8f2dd7ed7049029ac58e2483bbc92ca9deb979598179962834099a206d0b;
0x2e5131ed99601233301a58544eb5b390adc2aed2f7bb8975f4e3089ba598e03d;
0x6f800a70d479c89318ce14ace0c1f7ded913cb3186aa67acc7290b35f941c80;
0x848edf27122e8c897ece8ff31c76e8e3da4ec246480e769809bebcdb4680146;
0x3032a7d711f11783b0cfa12d0a9bbaff62fb9d75cbe50aa6e684f9285d55840a;
0x156bb4b89a15827370ed5326bc516f90e80da2b33bfa976b4c9a26f4c0bcb5d4;
0x104b800aad84f2de01925253de1300447944ff027999bf3a113dfe28236e707e;
0xee24634e1374e506d3186a10f60315beb8a311ca69d595c0afa0e4dfad5ec22;
0x886f6c8618d45654de796ffb0a718eb65e5236deff84adc493e6a49308509bf;
0x303f792b77de056334bf4b95c535b224edccc1d65b28e52d569695fe0a86f7e7;
0x2ce5f9bdc64ab48b32e5ed411be107b280119255d976673c14ca2e70c76fa68a;
0x26f0252f0b0b6f638aa04dab03f6a8fe7875a84fe5c6763aa9443faabd36d6af;
0x190f922d97c8a7dcf0a142a3be27749d1c64bc22f1c556aaa24925d158cac56;
0x895eaa7421d5c92db73111875ff0e97d1f1cf13454c8d0ee65ae0c86cb9f0c6;
0x5a37e53d3c5dbbf9cd972b637bfb018efcfa1fd5cbe8b5dbf9f37608783392a;
0x2151abfa55e801a5dd55f82b711f05b3e61fd9c94dc77201a9e62c89091da8c0;
0x1df7040bdf6398bfbc5dc0bcfd52e2cb6acc1e32ea9eec40e1c14a173615a901;
0x82d9c0993ae4a12a039c11aad12743c5f5d286c648a89b4342169aa4100b9aa;
0x295f9f8fa059d54d4b582213965eabc5ed6f785e4aa71196f6238be2c511bd11;
0x11489075194474f063993741279cea5cea810bce027e64ad900225ced81b35e;
0xc308adc9b0dea53e1c37e06d0576f4ed39c2aea66bf429ac00575a9105112b0;
0x1c8ae9521d6579b43520c3cbcd712b3dfbbd2b1543d1564f7d918c6e330e08a6;
0xc69ad644957599bb3eda1d9f831ca67b021b33f6407ff2e56870e7ab3d5a569;
0x17de4f74815fb3a0f45728b381e2ddf7c1157e5d65989ebde47f8bcb88f36836;
0x1fc13b76344108f12af68f0bc80c99577f09a266368f0e274794a3cf65b48d17;
0x2fad04c4a1bf440fe56076df74e5c30a58a6e26fa9da0865bd0374b6ae37f4a2;
0x20766bcc7f359bfe765ce87998097a7501d7924730fe7325aacceaa054e2ea5b;
0x14eb221ab65d0dbc5edf6a2065188ea9057f935d028f7ed14729ebdd66ed5fd7;
0x1cade81c4d562aff84daadd630392b735b948175c064ace958e0c789c9d93bf;
0x190f922d97c8a7dcf0a142a3be27749d1c64bc22f1c556aaa24925d158cac56;
0x19b64914374910bacc33326c70be0a8518e71f26b4e1aae5d33fd5dcebbb1f44;
0xec087bc39e5058e0c5c1432b20c612537441be0107ed759d3a9468ada975dda;
0x25f6ade6e9833696c4dbc19c765ca2ced09f47f0745dfc850efd26e3a8bfc5f6;
0x842f674f65a495938dba020f22a476840e0591f179780d72c00153ddef5a9ae;
0x24b3232f05be57ef3c4c22af9cc37a73f0ae40289fb0fa880630f7e3d00997aa;
0x2f4b230d825a682520ac0b5326d130a24bb89363318961ef5f65391b8e7f6bc3;
0xf1644020d8a6c0dde5068f18ab196d348172aadcfd6391c31ff1b54f513509d;
0x73fd850ca9561f8a645c9e4af943d372a4b8620b78bbbc357a97d14f531797;
0x284f86b9cce13fbb6fd660d8e52cf27f7bf2723a494278f3cb0c3bad0574d104;
0x16bee52d1d6d362b9430ccf4d2f1afeafe3572ae4eaa03be6af6f1bcc05de855;
0x254cec1178e80740cca318d1b5db37b5dd23fa2c44abb7f1535200618b9ba0c5;
0x113069cf767ed4afc61e592e98a63edaef98278c2ce59db109c94ef6dea9cf;
0x2829e1532b4fcdb2df9104cc23b3331a1d51c7d0da9b645a4a43dbeaea77d229;
0x24a03c0f7b51b6e24a889690a3341f55deacaddafc1ff871af6fd6a76dce8bee;
0x24a7c2c124131ab37ed62a0182114a5dce4ab7e62b14ff632703b23a78f391a0;
0x19529e943e466da82e6bae8f1750de8620e060306d9df5a9d20a83a4b68fc09c;
0x190f922d97c8a7dcf0a142a3be27749d1c64bc22f1c556aaa24925d158cac56;
0x274c0f68f679da53bdcdf9c11393c34ef8fe59cdeeecf859d4ad53069a88789c;
0x1c900ca5882b107a3b8a8938140b127cd3ffbf539c9145f385cea5e7dc6978f5;
0x55a3264b130bb4316f4503af137f0d964b753ba575456a74581b68c6789df33;
0x290033424503055ab2e6b8093a758db0f02dcfc4adaf26a30f467b0e8aa1af13;
0x1b415d6ec7893774bf9a598a8496f83a5422861a044211e0d525493f75c7bca1;
0x2d5e6a92650786e6ab35f3a62c5689a0288849d1eec7ebf89b9a6df75cdafd39;
0x15b1c6c75717d38e94265523f0f6491e22d8b79a791b10b21139f008651e3037;
0x1f929349fb5222c4a6f17fde7f0aaca6430b6785cc5f65c3e1b7842c338dc1e3;
0x23034bb8b8618de8c8890fc8fee6422147545d11d45e41ed6326b767ff099cba;
0x2ab706c6d21e887b5906d4db350e41b176323ed39f88a75b80f1eb2680169f69;
0x4c1031dda5e43ef325b33a80e6cd32cb22b16ad324fbd90ccf79c1f7e9ee062;
0x1d663d31705eefca25d29b8894223a7daf06bfecf4e8e0bb845682fce0b1a41e;
0x18c97bc6dc2ee1c3d66bdad7046019b6d4aba6592823a51ae2a8052824c6e332;
0xdde410729932dcaff0490adec752faade582e2eff9d05896da43fac32e1ad3a;
0xb12de1270d788dabec1456611485a6841cdfe411a09f80c0e132828568d8eab;
0x5194088cb1b0f39c5b1527bd0a3ac4d16c845c2388cd22dee75544eceab640c;
0x190f922d97c8a7dcf0a142a3be27749d1c64bc22f1c556aaa24925d158cac56;
0x2a2904f92bdc035f347c6fb6df54ac6b482a2642dd8e798f9df0915fcc86872b;
0x8bc0f22b597fa12cd8189c5fd0f79b2b10d6c65946b287890dc5f594761d665;
0x2bb55a554f9bcc5ea8dbd4d5453e188122c66c507fdd08d0589706c1335619d4;
0x2471e91078add335f5c48457785ef1b469484ed697e2e9f80d0fc73852492508;
0x2ccf72b7324cbdd4a1b980d883532ef2887c798ef446408e885f8cbd14ac42ac;
0x1c3b75aada78c1b204a35386f68e09a8ed700bd88685d0e38cedadfbd88a583d;
0x11164ea9623704eafef86bbcfecad592597038fc1b097380effca4502577c733;
0x4b961c368270196ac2ada2e66e44a4440905eff5b58341302ceaddfa215f691;
0x39dcd1dd3ff8d7fe019dda64104e9bbfa1c60fabd54065c85e727302d8335db;
0x90f27feffe276b6c1d77f6a80d2c25680fb854af9ad1be11268064e735060b8;
0x202922769a226e1dea3c39d791bf28ec93639c7937eb7be2c10912ee896fd3e2;
0x163bb1b115962019e41bd1c7cf0d8783d4baa163dcbf6e25d368c543f9560a5;
0x255dd24ea1b49972007c3b74fd98c3ccc682fde58858a2073be4b90b39e57cf8;
0x2be5aecc70e89fd7fd3e2683bea0ce600cf42759ec5941f0746f126b11beccdc;
0x1584587c91f57bbdc41e85ea3ac8ea67ed261cd8d5014b424a1dc01bac478b91;
0x2131be5b4387d226c22bcd102973756cd7ff955452e9eae429107ab244294b14;
0x190f922d97c8a7dcf0a142a3be27749d1c64bc22f1c556aaa24925d158cac56;
0x254b0e91bf714a1b45748d756729102fdab89301fc89d029d5537f9226e042f7;
0x303c21aa2f173c290af9ea8e0a10f7858ffab7519185843d2049a22946026b11;
0x41e6ecfc8a13cdf52f9c21662906f395ae172f944c7575073c0eee9962941f9;
0x19eb35e2795098faffef9ef5baca33da9ecf94d5973c0ecd25e6899630af7a76;
0x1142d22ec011a94a940fe203deb1997b64f780bf35d06276644f98e48e2c9ff8;
0xfddc36dde84e16a5c2f631470943ce31e4be6305bca6e5c753c6186f1059f62;
0x5b14ba6526be3dcc17bf7d609a42aac1adfe0f449a3d9374e0c22e26b2c2362;
0x16152ab0a00c391d450290ae825cf5ca2769fbbf2e7eb69f8764025f68e9ff5b;
0x28cc90877e4cce38fd08c1af95cc3f885a5c5328fa0ee0bc89ca190694d8e484;
0x2df5ab9a480bba00072c401baae420c1800155b9f7d1ab9b31e976ad800929d1;
0x12640a01d9b60560290065a3fd812afc07a6e795408f988071aeedf22ab75e66;
0x1b2792d807f55ebab5f4274d43ccdb9d23c155b8b9f6df8694ecc6f67e20028b;
0x16c2ea687479d257e26a655b5c6c27bc1f455eeeac28c3b3ce654bc76cac38f3;
0x26da8fd5fc478751e06453b0ecb6cdaabf231a58e603ac4ad14717d70db2f27d;
0x14f3a3e34739d7c727b010a5022d9f0f3e035e91db3aa947e3ebe3366eed27c3;
0x366141d1115aafb084cfa866c52ef40a5fa57fdc8e06fc2f1e46b967c9c6615;
0x190f922d97c8a7dcf0a142a3be27749d1c64bc22f1c556aaa24925d158cac56;
0x15658afd9b2c13d4bc0c637cef9717e943c50f83b67c8676d67d17050494e5cc;
0x1f318dc3e277bd895a88dbd9e3c4febd43cdb9064683ffbf1be9e6f9b2a71669;
0x141cdd5f2c18d63eec6e82248935eaeac4ef044ee76cb7ef0e9259ab6f93daaa;
0xe4b254bc67d3857f499682863a0f95b76e9d5cc9fb7c2c59729db203050299f;
0x2cc2b90a7bf9f3663b0f41ede34f60d63a99860760ed6027fe17d4fa9eb1b396;
0x2e0819713df7c7a942c08b3ea50add92e39214104120803a5806aad10234abc1;
0x24164a433840a28d2615c719c716f2f7c01f7c3854a327da6c5db75097fef1ee;
0x272543f2284921391729ae58db1d9db0807629d9211778b0756ea7e4f88297b1;
0x194af27987f50ed8730d267dcfd98a9a284a3582cfb7356e3dc46bbca1eeed6a;
0x2044ba55f5e44c7069590bd2abfcb2b7b163d47e0e1bf2e2524c0948da4b1a37;
0x19d37fca1b67b7ac626349cbf2928b9457863637baa2613b494d9da18cc384f0;
0x1230ea231084e3641817b74662caf5732556c3d94a01d209fea1f6777ae6cca1;
0x2f924a42d4d9446cb488295883fdadce8debda5ac727901eabf2d8627dc6d698;
0x2da745785ae0d3eff1a3281d7537383abfdfba2031a880acd8dabb3388a4ce95;
0x72fa635414d1673fab8d057107792b3039c033d924cc0b1530497c2c810428;
0x19db329f086a50781b0c6eb2552ba454db2fcbbc125a5ec41ed2c0e840bd6774;
0x190f922d97c8a7dcf0a142a3be27749d1c64bc22f1c556aaa24925d158cac56;
0x1ea4f3fe9b4abfce9e655b05c4f64a0849003f9b349bdbf349ea2a249bdc945d;
0x23c87854133b5d392742dce58aa01cf376e3983dd939634c4fee6326db21db4c;
0xbc4774e1e80349b9a704c01709de843f3b20a75be630d1b6c6555adf3bda042;
0x143ffd0adddc79c51edcfac6ffc1aa3d99ebf2d55349df53a54842c945a82f55;
0x2b813146b9e70f53e3cb2549a91e68963928c40e02c08729e0fd3f5941b3d602;
0x13de9ef153bd22f5063cb42abc061c09eec510e4b694a4e9b9bf6de56cc2f206;
0x30015dd143c80d113c290bf94ee9d7b10cbfb93959e846751c3b3ef9f8d07490;
0x2515eeb903d6537674e4fb3cee0b3a4c5051ef3cfc1a3d1dd2a25f4ddf96e05a;
0x20ec5ec6cb5f91d860925a6341af5cb15fcf4b2694083235ebc7ea78ccf6421f;
0x77160d3b99920220fa591a49f79c56a282b6e368cd1419ef09632e869599f14;
0x2dc01f61427888cb2d5ae9d8a0499cafc03945dbf111727b1a2cbae73bb41b0d;
0x1df3b805da3b583cc8f736372e7b16d3d0407e634b6cb7ebef2b168932194147;
0x224a6cb7f4e964e616ca5b0f23c77859232674745d32072096bb9f12131f0075;
0x7f74f0de535231775307017a09328c7491bf0fb7ce86ad5fb589594154983fd;
0x2816d118f59d3cead1cedf5cc76a1a87829b2d8c1fa10adbb2fd4eebc0373b26;
0x1698c0df24945164067e5d0d9b0321a757818a0cbfae969e28c76dc470974440;
0x190f922d97c8a7dcf0a142a3be27749d1c64bc22f1c556aaa24925d158cac56;
0x2d878d0119485477be8dbf01a3aefa927a230065cefa169e34cdcd8e97efee48;
0x2af377e1ffcb6909a07fb9d03937ce4a8fead2190cabda6baebd5943445dc0e4;
0x110ffaae8772ac77a0fe26f368484344ff681843ef616c6d73e0dd95d5f1f3e8;
0x92cde477438d1a1335b795d5a5ae15d0949877c734a0eca249865ae30a4ce2d;
0x2cb1dcc78144adfca1e53dc251c2e4084970c941855ee6a772d30dfbb1a6448b;
0x1e80f366933f00562d3facb54015e72fc4cf46897bd71f3f3015bb3f8895231d;
0x20c5d9b2e153f4787a765096aa7c1f47f990e810004ee7737c211150c40b79ed;
0x12e81ecb7ef55b86893278ce37c429400af30b34c10b0acd786fbd7b25c3469d;
0x1cbbeabe0289ed5942f50531a647530f105e72d1f912eb11539d1fc5588ce1f7;
0x213c4970760a5882661e0e818f43450b8cf9e02dbd0046f27ea4d66403ed0ee7;
0x286f73e14f72495fbb280d713b0161ff695a21091150ee6c9ae96eddf36e212b;
0xd64a21cebd1f59801551216c693b181aa963bce18a7f4439f179e7105836296;
0x14bb39c836c00f33ea9903dba3d3d434ec33deaec35076eafc1a4c5a01a417c3;
0x2ca5b88e6bb11f61e5dcc2a4ef664b49a3801009f1eb74208313b7b04d59edd8;
0x2c44af041ac89242a8bd751d96ce0f86eddf8c312e6b3127c53e6017c0d22e77;
0x1466d21f848850fbea559a4c76b1a00787f997c1a4a5bd40643036ab684553d7;
0x190f922d97c8a7dcf0a142a3be27749d1c64bc22f1c556aaa24925d158cac56;
0x220cecbc247151bc202a81a4573f923bc92a2208b17e1c0bf2dfba0de4fd26da;
0xb71d939b546f609ccb189dcbeed82a34d8f2faa2c597a3b3678369a471d817a;
0x2cfba88722ad37fda1b7ec9489a96e09e88bbf6649c8b7014bdde34ef18a64e0;
0xd0debc0f0d5dcdf74f2192da068f87631213a52aaf59eada0bd59bb99ba9510;
0x1d202504d57a61c4cd6bf007e478d9588d8e6585ebc602227379aaf25bbf6ad7;
0x251253367a3e28a691d3b6fff1209f6cf0e03736928725dea0f9f0824ae70dc2;
0x260c55e9c06f653d9202d03f1c184fb70df2f937ad157719685863e4338fb4be;
0x200b2246239844344cce8854c24c9a9b14e438de6a3ea445151882f23168fd20;
0x2e3e47be40c7216d9db75470bd8193c3558ba3c61c552bc56dab2713af62506c;
0x2784c2b142bf3e8639e090358a1a3c81e25f23edcab18001514c617cd0918a5c;
0x125de24f4fbc6e879b4039af38a1d041e6c38a270b3b9502e10c09f149445d66;
0x29740adacf9d3689e443639c25e367b23d07d690c9ea8da6e12fa6443502f903;
0x2bb9d36c36a107db72deb4262776967926f923df9c96cf07708d5659cc04ac81;
0xb3d9827d898e83333c83c65818f7fc1761fcf632d1b5f03ee95085b518dfb67;
0x10a6e860715f76969d739bd3c393f1af2c6d27f3f8c21e101dc8cf7a515eef7e;
0x2d8b0a8bf894b7d607d9a49dc6f8725431f69ef0541debd9a41ccec4b7c1853e;
0x190f922d97c8a7dcf0a142a3be27749d1c64bc22f1c556aaa24925d158cac56;
0x2f127fbd7f50d13e1ed144760d37a375a507ac1f0475fd1fa1cab401ecafc7fb;
0x1577d27a4a8983d54a364994db2232806dc6a3f1ae005960adbcb4352a88b9e2;
0x52914cca13bf1c8dd7b8ae8329393ccb24dcbb32c4625ea2ba6cf935be4f231;
0x3ae3cb86c125ba7e22c68fc612f2928a961ba4967a5afc661ed2c32de93fd30;
0x297797def82244ac873c64c1e3b0586725adff324eeb9b15a9b476823e6179e1;
0x124a7a8c6e44e7135b58fc2b76062171b5054af0def6044d99637adfdb5b403;
0x1122cd468ae5a811791bbfd990f5ef430eb1e1f1c6f7469e5746db7ec0426892;
0x2409be076f6bbfe87a660f865fe5aeb4abf064c12bdada933eed7824ba271cdf;
0x300cab922f89292915e01a78def7ae323501694f122737b9ec6739f123278b3b;
0xd743547bd321fbd1b27ebfc7d52797b2f97323d25f1a374afec19a1630ab63b;
0x9563550bdacc55218984e8413a1226c22b38c12d69ac16bf6e3f952a787a504;
0x1985c8553ee8e78bd1c65b3f375fe99cb0c14d60e69fc6d205cc54bd173f5204;
0x1bd7b38a27edbf115143764d25bdac7e921e83b29964101b494f8075a7800763;
0x2766850751254f44f4e93db5621839bf0eced728a6d2b8cff05b0fcda945e;
0x135b92c76b52af013119fdf43e9ff79cb40208b2c78cccd727781ff1f456039e;
0x19da226a03cebea345c9a56cf3b4c7e6980d613471b97894a7d5fed6f3e1c743;
0x190f922d97c8a7dcf0a142a3be27749d1c64bc22f1c556aaa24925d158cac56;
0x92f4acca2e0ede5ba901916da9e1f67bf4458f8495eea238d17332da63aa71a;
0x1641d2d820f16a7e3f48def116b6cd078de47aeb782d8295c5f505d89a9e4ba;
0x85201a2d77102c3d0c63353013c47c2adea146120e8d6b3e2319d8e63ba0cca;
0xa53d758d0108ebf22dace7bbbb70afa26f400485dee9e4e7f4f7ab7d9299677;
0x262d9423cd20852bc68c46fe5eae59a81d1d814a66a638c8c00127fe2dd98761;
0x2ade8678e1c4e5a88001f70873e9c28bb8b86bc77c1712731057b410468c8f30;
0xee8ff3fc24bcd3063e995a4cbcd34f46142c9f3abff0f8e46a86795b5b46552;
0x2b825f9cd4585ef46a5da502209c12464c824adfb18032718bb37e4738cb3292;
0x1ac8101da6ddec552238fcff3932ff2eb40ba38ed0c39eb5903e3adccff791d;
0x1ab95f20ef0daa5ceb85f821413b046e9fb8a70b61e77f8f5469711f508f178f;
0x580d8b79189de04500aa5749909874f8b5968c9204d6511e05ba1a3953362c;
0x275875a979f31b1c8db47f6dba4c553c8732aa37c4c74d7fe9f979274dc27c95;
0x13d84732bb3b9bc97162533644a7515d91f08d970584510db56caba62dfa0d66;
0x4d47f94ed591c3969fee09e23f392dcd0831126d621ff5a07784bbb5178e876;
0x268be50015a5f4676f202ecef15e094130bab5822d63d777374c8a0b9f4f3832;
0xc44a75d5020d4aed139ad7294f27763391f2be6bd3343691ea6e122c4356fcb;
0x190f922d97c8a7dcf0a142a3be27749d1c64bc22f1c556aaa24925d158cac56;
0x212e7e2ecfce78922708fcaf276bbbded3c0e2d8804d66a13fa020749c48ecc0;
0x158fa860b8267b4011780eeb782c4d2b878ae2615e317b798961be28a7ca2462;
0x1def7622e54639fd40813cf1bf8162198af19e07d88a0d42d436368745e3cca6;
0x145ad4994d42ca69669e4c78ef8db06461047f4976dbc5ad4a6cf2c3ff78bf57;
0x197d0463b10a21649f25670cdd2504ba58621ab912b643293b32a515f50afdfc;
0x23398d180006069a68c7742caf4c669b87742b603d5ec75c13d2a835103a0fd4;
0x1e0258bd63687d7b17c4fa3789f9fd82108a3d38ed4458e50a071c4b622866c8;
0x423f6744b5b95af35bb9caa720088b05e7fe89176569010e96792e0fd06a28c;
0xc50436db6d99e5a8933aef29ac83fa2817395c577d0ba3e0152fd383542088a;
0x10a22724b783a4ed75e92202a6121ad76eec88c3f6b6d2b0cd5a2f829d7caa37;
0xf49f1ad9de4f057eb3acadbe2279d617384c0f594503c616c8a1f7c05fcc886;
0x2141c09b30eaac9f355f49e98905435476bfa52fa5339ea30fc48beabece0f4b;
0x15c1c2b59c45dfc274c111fbcc2b79bd7440d738d0b433518ad3c8ce8d064ed;
0x1db3bd1d64fe08c2dae2ddaddc2c339ca0402bec8b41b74d74998aabfdfb7bfc;
0x29a5a2015c3c31790000852191471c62442721881310f01e2fb0b92157a6adaf;
0xc8dc01d3f82d41bd600fd0759bfe0aa674a0b7d089b0ed0ea9127fd0847832;
0x190f922d97c8a7dcf0a142a3be27749d1c64bc22f1c556aaa24925d158cac56;
0x2a824ce1fd2a8c476123e3a989bf2d6709db1ae25b6003b35f4e9a63b414a58;
0x12ebc9623cf8edf6e519f0b679939b74b2e4b4097992d2ed382afa7dc08b484f;
0x16be2e58e7c791d1a9edeb27d648d697ac592d085c504517cac06dcccc9b80b9;
0x11f10e1bbfb29ef8257b3f13add23550576bae71f723613ffadbda16f76e67de;
0x1ad4858514fea633d11ef8b8460a55cbbff262b90a7704fc2ae9f4de51d43328;
0x215f4b249b5c5e65fabe4b485656a746d564d4451568c1949d28e35624cd5d60;
0x1fbad1d2ea18f2f77723b3dcf4acde26751b05615c0af9d607481ae4155b0b31;
0x21662871d695f76be370b37b3214a511fa6a186c5c856af4f830950ca601a9e0;
0x23ef880efe39676ca81b90ff6258371415feffe1514a33fb3b944360cebab527;
0x2821c241fcaebd3a0039501eb930cf9a84760a177be827540ba0f3c7aec6e354;
0x146be2228a62f0b2678d113c1e9bc68ec984fbc98358441882c3223c5d08ddac;
0xb88bf45643cca07b10d4c2d229d9f4f8186e5da1b4a7921bdb81082d525ff22;
0x8fc9cbeac386e14a1121a09f0ba01977c6a4b444528bf675ffa538229fd0b1e;
0x1b50431a74a6fbb3653b07cb93b41b31f4b8e8f0069132630d85d6247c754a05;
0x1e406be857f7f834e34e4366a64203a4587e3d15e3fb68fce7cd1648bf281d9b;
0x148eba772251ed3515118d4b1cd35d1dad67cb449e93053aeedf6c90725deec4;
0x190f922d97c8a7dcf0a142a3be27749d1c64bc22f1c556aaa24925d158cac56;
0x2e04360710f57315981909dd928e62c44c44034647842dfa31526f83f4e02671;
0x2aafcfc0a678286f879baff9f360018f642f5dc0fcdd24efede6f42ab41f3876;
0xc056d71fbe0367362ee12d47779dbac6784d03b9effcfdeb97b91c57f65e433;
0x115524aab9917d448fef5342d3773f10c7bc33b0fe015fc39851bb6afb542fd7;
0x117e6ade5e05bc5efbd21dd42adbec70159c427bdabafa5df3bafe8d48240958;
0x381334a0ddf5db66871f8bd943e4a54dfd1f9b7d13c52944fa0ff2562250fc8;
0x43e8c4009abbada6a3350bee3e92556368245a5aac0c1b52f2338e1ce1121c4;
0x2e88167d899544487a1cff38e196dc25b3b8ebd01a2289b382c965e11128cb7c;
0x1c308d8fbd04e1e349b4e0ce629b3fbac322460faa3a3731112d44c3a4db27ae;
0x34ef7e4e0ac0d3d85f4adb5bef214c96512accc1c0f3a11470b493d4a6e7946;
0x2b6f7ec4e66fade014011c277952b270953966e9fc9def4bcd21052f62315a76;
0x2a8510585ae4c162b269375af5bf36d48824b1cd4d323125f061dc90f06fe318;
0x19008b99b3e1da588b1094f3110f9032354d1aaf9c93ca9f1dd0010f974c3fde;
0x2560926db4543ac9b3ec4ad64b12021d232944ba8ddc47bdc494f5ba051f65e3;
0x29ccea21d8edecf6359058c36019960b8e0cd6e0878f835879477fa3ba09965;
0x22200c2de87d7552604e1ecc47c639ec983525fe8484a3d24655d5dec1a4ba33;
0x190f922d97c8a7dcf0a142a3be27749d1c64bc22f1c556aaa24925d158cac56;
0x2ad7a0d2da92e10ea6eb68264ba502da9a0a5b35bab9699cbc29fd8fe2e30ab1;
0x20590023505117aecc066d41c1adbd5ad4cbf0e9b8dfeaf9f9e8799f07534408;
0x222c46e262ca50113017fcf937c68bc5a2ce66216ece4254ac3d07fdacbff44d;
0x18e7420a44ea5b1e13f4779818b97a2081be214baeb62671e0dae86c4023ae13;
0x22ea7ca068c59b65cc056374a848ac65417a6f02d8caa04407d1394ea1ba8256;
0xd3a07b74e65318c9e1879c337057cc712c0f533ba49c1c626d1b7ab155936db;
0x61d5292ac1d8dc58ab73a0a48f6f631262c6601fb7c0b48c1a16452b546db6d;
0x5833012960b055133c9ba572828b91414cd7ba31d68ef46f5f76078c3ca1841;
0x2f2764c49d1bc1427e519f7690e301a620a62a89bd44dd766d6ca181d02eb406;
0xb8a8d7bade0db2c62bb09b73bf7444c087ff5e82ef4df25cd0f9ecaa12bfff9;
0x1bd2b4b1504d8c446a5125fa97754b345cce5966a6e0ece3586933510071283c;
0x87c0b8b7b9ed1a7f917066f04927482b71b00120114f6eb57c272cb26ab0ab0;
0x20fd707a8cc61d2a031709dab4ae58bf5032a09b570e7497c3415596d3d5fd24;
0x1a33b2e800ae297e35eeaf4e3bd055dc56e533f4441bb24bfd130b924d71cf72;
0x18415cd52a959280d64154df2c538469ce854f7561e19b7d05235c9fa478ce0c;
0x2e6a310ed3f24d835969e401ff1df8540801ab6fafa90e70e50a8230f334ae66;
0x190f922d97c8a7dcf0a142a3be27749d1c64bc22f1c556aaa24925d158cac56;
0x2fc4ba3b1f7871a2df1a801b29d1eb494e3a4d072b6638da905d5fceefd93c51;
0x1162c765b187e20f079a417abec80c369b6e1efebdd9a6bad7577c1722b597b;
0x9a3571080ab89c41d2c53279c9ab9ced52efb9cd1526d24dd58b31771a75606;
0x2fdf9f81c2ad998f2229e64e084f9149ea3f0948cd928136086120b68ae69651;
0x178e83d7f2f9ed92d3d783287f25fe8d0d28bef0cbf2315ca03da314aaeb94bf;
0x278d681f603da186319befa5d2c5567a9fb52eed6061787cefa92b27c28a64ee;
0x108fd8bc50dcc43af4d73686abf8fd70b42245c1af2edcf11090784a24aa5fb9;
0x4ff765c30d4e035bcfbc196c646541fa1d27c05d5d087e01c03ef11224b78f3;
0x607cd8ff9b889773c9eb68b8a4366469d470cd7c6004106caae95c10c424419;
0x1da524cff60b64856dc1f5dde0ff62da7b182da26908f6ba6e590adebf91b40c;
0x22f33eaee3c481e65801b761a72832908f066fe21dab5fa5ec1d4c6e99dd6dfc;
0x75f84e9c719bb8de8e61083290daff19aaa4337454e5ba804257787470f2f54;
0x2084be9a57e9adb80303a8dcaffd4bb77adb6815168b36a1d363b38425437135;
0xb303449f1bf4b92d2cbc26ab34b4215b6dd7af010747a705b2a6e3398882922;
0xc099bc68243537203f97254f08dfb7efc09de8f96d72f3b3e0aaded45e18b4a;
0x1c5fd9060d4e0d999264429a5004c165570bd1675b09f977708b1ca48e616388].
Definition tabC_10 : list Z :=
[0xe1962c232fd0a6bb54ad8962a82b9838cfef19d290a55fc49d6debd061cd2f6;
0x1e1f45cff3e74168accd0a94536fca6317128953eb47d8d2d79b847b355cf51;
0x1367eec3b20cb74953618fd9261047755ef7f8aae5ffe96fc8f7d9a02e37bd1a;
0x2ff6ad40533afa2acb78c9b91650d7ccbd274b09f78c100479f3a4d72956d706;
0x152c8c3d9e43d90ad8094831a74af8151fdcda0b18d7bd8374ffda68d1a5fc71;
0x241707db26f96df502364d26712c7f465d0ac5597a309559b075406351a20977;
0x15a4e4728a197dae6303d0cdd2b6d1e4114a9fad38a530bca6fd06ca1ffc1f56;
0xcbfd63f363978c387d656e93f11e336987a68748c8f54f385887e64b1075598;
0x1fb594474b8334f9aea6fe5e323fb0e0ac27d2895921ac64e93e524e4ffd25c4;
0x5ac55361da931c1b4c560aa8dbabc8624ba225871bce224addb5af901676aeb;
0xe7266f909395b5d42ec298ad3eb73f6c11149f491164f997ea76b64282b9af5;
0x1d928ce916ec0178a2c0d8a890af90468c8af68c4c128c68f042cad51c6d7895;
0x11521e378f229844263410fe44628fca9ffad17eae9965dee900ef14a4d2d6d2;
0x23f3ea3b55ad3710a0052d7a4b9c9a65456ef71bc4eb16c1e908034b3cd3b2d0;
0xd4f972e795bbca8623bb08503764a90e4384be644f57b4a56f1e7e1548922bf;
0x2a53e60ecb9c00dd99692d57d7a54d893934468203995267e83954859d21b595;
0x18583bb0a83ad2e710369475bd54ae1d821d75a9e1e870df11c154f41be1a632;
0xd45688dc986f78e71c463b76ed2c056881c76dc552ccf8d3a1d795d7682efb2;
0x1448256830ab79d2618c6ebc5af5624fd064e2a16194e5a0c35c76fcb094d371;
0xc0c7912bf67c273baae265c68f378a3fc06eed7778ba6ad3181428bd55a148a;
0x900cfc715edb109d3e6c02b7a578326f57efeb3da6f58e64792dca3452a55f9;
0xb84b851d9d0d621eb2872fd75b848ad6a905911a988b46a3d0d70d264c8790a;
0x69b8105bc60bee13097c0fb14d05a1b932d37db703f6ff557675bfbbda8a5b0;
0xa0ad082a6226840334524022e1d3c7168423449df9c2ffcb44cd9d4d2302325;
0x18c350500a7bb9fecc04b286ee0ebe76cf71281b4463dbbcf8e266221817d32c;
0x2da317c459c0b0d973e04bcca9c112726c7618ce9760c2228c308b7433d907a0;
0x232a07d1aef79c1113e3ffe7094ac379cd67c41981b9dbd30dc691eddeddbc6f;
0x6f8ebb8cb046c0aa7ea795744cefbc827e5727dd16d0f27675d99f8964492ca;
0x10db78837d0652586afa0666b721e1c94180173183300992c4602c8c1c415478;
0x12f5fb7778fb2b8e1b5ec306d3d8f2a497ee4e9aa5bf1924a694d04cadd5c526;
0xf6a94bf66121d5993932988636d0aa2479e0299aff2cea5b7efc311a15007d;
0x18b818a1c250d6f8b77870c1ef5942250214655460e4b5aa09c8066489041732;
0xd25185fdb4a3c65e05963b80310584f2a6069c2c0b07ab2b6df2d04bea0f52a;
0x63666f719c9dacd3ff39599926802bd9e07c61050b10ee79adf0da04c59e8e2;
0x25f9e2e4766cf4b7bf91a63f7dbe954b2ffa4cee7269933134b5309eaf9d702e;
0x1237a2bfe7efc853fc4e9c4fb84d8e7c56b125286d8bc81a5434c6d8737206d3;
0x149b17921a60f02551a03ebdd0a3a71f7048d0f9f47893075c625341ae06159;
0x21e129ee052da457e94cbdc1ac5738ab300aabb76a3cc3c23637cb6221874630;
0xffbccf818cccf47beddf8558b8242c90e41fb603f137b02f0774228d6978d94;
0x13018c64072bda036ce65310501ef57816d397a9eba56f87b56024bac5ebe9e6;
0x1b009f2e8abc03f498fdb84857c2091bbb0095778f990fe799d0f2c97e2c2670;
0x101546fdb71f32991c1180cc07eaecf47920cd0704691e555b3bc44de5c5289f;
0x1d1f66a2ec0621f229c3f8cc7b153683d993e220ec5a1f01d42a14db46a785c7;
0xc0d0d8c79f76f62eb8ea785853ee6aeaac59256172a14479d34101dc8e63ad0;
0xa3f038a5f37073c1ea7a4edfc1dcb60859c1218e1fb611ba59dd245399c9572;
0xb7e89abaf697afea2ab793f7cbc3e807dba45231d4fbe6b657a95f03f1b1705;
0x91c47a22bfbe8cc067f70019ea1a2eaa9b381fdf90ffa8971b247812b977f6c;
0x23502619e347553b5bbd886ba0ebaf4b63c07c289da07b0c7728fbd6092241d1;
0x2f5d5281749be90119354e751ea126e578ccc43a4c372d67ae66d87c0c01336b;
0x1ce6855b5db80c42971cc52c9c35275e8bfc7705684a391bce4151ad9fcd9be7;
0x4f03f23505d6e117603510ef25bf46de44b95506011b5642b120b76c4a7a277;
0x2f0f36a6ecd8f53af95b4b9514997ae0a208d89e974bd3359dd98fe2e2b3d41;
0x1cf3c4ff9ab589d0a5660b86b5fdf8f38ec3ca5e92c445bd4cfbe6c70de64929;
0xd907e14510611fc14612e406616cfcc0b3b1258278d802a5a3d7dd785284e63;
0x148575fd984cf84d0f3dbb49564b397c17ac817e6ffe348881321ce76e35c44;
0x13c32c26889cbbfaaf4d1f25e64bcb720e1cca45312f90fbdea8435d9e6729af;
0x2f28f702d684198114e721efafb6922c3a42dd08fbb1fd6831902df4b55a6a96;
0x5fd91ec054800f61ee128bbcbe332ec4c4eb25bc57781c436c931d5a44b6367;
0x2a07137e0211d40057d39d707b177cb576f3399b29b9a7019c3dfc7d7a22d27c;
0x1b9592c1a0852470e5fa045d32725f7ce17982505aa3317a7daa6cb31e3e359c;
0xcfd305387cda42a1f5a8e00a0ef5286e0504738073dcc8713a43c2439c170c1;
0x2e10c62b1b5566b5047f18279f4680073494290584c69708553c7729b6a04da9;
0x2bb1653a56221c6263b0c62ab8a0a773d225b414a984994b6d3d5afd0892e67d;
0xf270ab89bd220ddf62f18fdf8d278f678379e7b616006a8bead9fac9f473c70;
0xa1301e2c189208513673b88d6b3238759488f79b99a79dd11d0bd1c973b95a6;
0x24cb02fc34a8ce75eecf534184d7373b7e1c90fb5f7e24fbe8ec8ea1ef54e393;
0x1603165537fda2e431b75d03df01dee7b39fd851a472243dcebc2c96d0deff54;
0x287166d87790f5cf540ecffb1bf65acdaf18cc46a4f1164b5bc0778022e11a18;
0x2a81c998baf847bbb21f7b7141efe84f7ac56a834c7967ea6f45429fa2fb1a5;
0x20c95c47c2ce176a500fc18e5b798ebf4df4eabeba1d695fe217e003ac2f0e10;
0x54cfe239b46d49baf4568088a72b2bfed0773be27f6e7e9a2c02bbb1ffa515b;
0x8774564392fba9a0289bd2012b509bcc7b126d9ef3378da0769d8af37cb44c7;
0x24a7f216983732c11ad301538184100e2cb090742dd81c09783918404f1c7538;
0xfafa523ca9deb758cc5c0f54e485919a3b1c6caab6f322a36b014821c74645c;
0xc8b11f331a17d83848b10efb6f8716baa92e649d9ee1c9584b334d0378b5318;
0x2fe8b8a523a08c2e5ea7600b7876fa4b75938fd56c03c74ee2b60b9d1e8299a;
0x1d039ad8acc6c9515c4b4a78f1b8a85784c287d5fa0eccef43901435c1c41942;
0x1b89217c5104374c0b74a3a3ee0971ca583f59d0980c37566ef8ef363b1a417a;
0x228b4d065bd84d6104e3828caed06fe9aa11d7dd8ea90efefc28489330674b2d;
0x1d57f64ca6fb25d9a4b65736683dc6f8f90b4d5594fcffd6034443e98733af72;
0x11ece5bbbbb611968ad64b52d89d7ae5d1eebc4169217e07b99dfdfea0fb69d8;
0x21ca2fb7b186974b4bb67f95f943a07adf662eb02c7392d9f5e7526764e7b986;
0x1f47138d833b0c8cf6294ef77d0ebede94ea57a28ac0a3e64bcb5df91320f10a;
0xb95be5cad31b06ca97ca74289d89772aab0e8007d0558228d88f11364a1496c;
0x794a48d6d0201d4b3af86c0fcd5479391f98f75623105f3e266dde215d76157;
0x2455a03e833b1dafa17f29a71fd76f94d8c5d09fa1fb1665373d509a88f3763e;
0x799ea93d781c35dea4b487f9849ff1800f1b63cc97842e2fde69f547bb76763;
0x28fd070e349d506942cc217a50064cfb2e3ebbd3cde16c09fd68b7e4eab1b822;
0x1cf5001c9cfcee852fcb9f8d89e19e336dba95bec545410f4435b5b01f4b80d3;
0x8edfc4e49ac404861074e34237a1b124e4d8e5d6ccde29d1ee9c043756c44f4;
0x2ee5b6524289cdd37ce4ccc8dd19e94cd2ee72ff264b468044bda8227b110dfc;
0x2775a93e2b3eef8dc0bf9bd322e5f14281eb5bbbff98cf7ad93d35f4c4392624;
0x4c564ee74a1199444d3dc4261e90b1886d760a7fa68ebaeeb5b5e353684e24b;
0x25ffe7b20eaee8f694fa81039440b5c63eca1cac712f5e3b21af1b9a7be117ad;
0x14a1035368093069b2a4337027fa695e985b6e56ca818ff944780c1677a836aa;
0xfd53ab1fc6def97651d2d66d0f58976b39d07db8c4c9ac195db0dab73060274;
0x16476bc3bc364193912051b64c939c0001e95953c76f7a748957d78ccc881040;
0xc5a52339fd84b1ecac4a163b36d41941a156f53b2559061602e64d2dd031039;
0x21b63c30dc0baf2b71ee86b7d5c91da1c17cdcebe5a0a0e5f2c8446584e05c20;
0x1bccca220986d8fc3d22391a70bfba575a47b4f83230652e1772e2dcd1a06ed6;
0x162a9696d6df2a13038e0bc6da2f52239951a204bd05a9e2a09066cf6b13a6bf;
0x1d661af4be59bd53da92acdf5736a7dce50da796c393b4e43001d27f88d58d6f;
0x1fb43feff48b0a4e5ac9b17a6c93e241f17b5dfc76523b65dc366bc04c9f06b;
0x1e70af5d289fea2ef26141246e9635fd007be3c3d755abf3bbcda9c4e4a600b1;
0x148928433fc03d3a878b420efc8954f04fdd4958bc822a6123df1d4d15d02dfa;
0x61b30453d8edaeb5a0e7a3a9f951a7211a50fc360903c4b25a51e4e36dc434a;
0xacad4bf22e14bf31537f39286d25fb493fe67f163bddebc3e94de911a9556f1;
0x5a4dc602f73e13984177dc0a6f2d7af269988f872b817c837c8559c79b03819;
0x1d1f813dca1d8f54d73441c814ccb0e84beae8ef4463effb612eb6ad131cf05f;
0xe82c3574b61d4c239a3024d6822bfa186d5989ba1ae0597092560e8694ad9ab;
0x17ea9ef9ef7da806c992916b2409a277fff09d36339cbfdf4687606793fdee9d;
0x19454e5c7ffa9716bd1db5d707d4d24b909f4c718137ebb73a9661ef41a7ce44;
0xaf8dccfbedea2064586771a23ac776db9ac4df3787fdf857db4a2193e934a3b;
0x2748872a6ad3a07b30161ae37440d5dda279a12cc2ffe14747bf9082e72630e2;
0x1a529a39f6519dcdfe38e311c7b0f661550e388870772650e1ce02135bdae984;
0x8a57affe13513b3bb19680381a17f82101be9f5ac7be0cf9c7e61f710e63892;
0x200d13b0170c124a25026f780273c4f557a3e95cbd68684e4e4df5ec00610f60;
0x14c79a357f53469f91d01f4432b728551db863ab232525c2d95cf616f7a098d8;
0xc513fd43af43ec6c905092c6d5d50aac833f144b9630e99483a83c3402f4832;
0xab802177b395f6b6ad3dc7d1995f60eddb63e9c378a75247a08002d2986482f;
0x589d228f316da74fbd8f0806ba45fcc1f31dc452e37430050bd9cb8f3e0acc;
0x1b46df6f8889fd075b585d61925fe1f08d15900074bce706ea5fb211dcc63d43;
0x1d2b938132acf70f122b64ae172ec1a822ecbde5a188b478e789c5c3e91cefa1;
0x2308c203544d162d54a4b87d92102ef85cbbf1ab4c3c02d6642af038730333da;
0x2eb7379bd69996d813136c99c2e66f45ca467bcdfae03a315cfe39ea99eeda3a;
0xcbcf8be09e77a9b7004faa49c560e84077038326398196c04f948d09ac57388;
0x72ed6973242f117e5fc1c344d9bc38d5fb3e94bcc02f48843a057e19bacc917;
0x6670c3a568d7efb7f10eaebd727e7a424a5e2b40d7201fb66d0b74723081ee4;
0x1e2105cd356ebeaaa12233233a2a22e0524c822b84fbb368b409d448192ef9d7;
0x10f3092cb126d913e829eb1e09cef850812658485e5ac06c140bd1b549f53907;
0x2bcf1b9917cb73d1856ae5dad349ff08660e800a5b69a959add19af6558884c4;
0x7bfcd988feeabe2fbe03ae71408c1a394daf2943c8d32e41f6b72f2493bfae;
0x2a977dd5735a9110178e2bb0989c7129bab2c6f9276ff1a9c4b3867a115b815d;
0x229f01e653f7b280153de1f8d4e9eaa0e18e81c3ddfe9cf0f5185b63dcf8f3ae;
0x272ebef10616ab9c79e34eff00b0faea7521fcea55df526bdc9e342592da9469;
0x2c8a5085170dc8e626fd9f5f1186f99763976ea6ac08c253d025fb46e1526c7;
0x2b77b7c7f7b862b6bd45b894af1cd1cca444f426d63571ffe6d57e608f12441c;
0x1518209639e513d5623184871ccc1a02e82536b68d48395774930dbd4f130ddd;
0x2417244fc99acce8d1da6685df7e33876bda3dd632cd684242a60d54555b0ef4;
0x12dbd5616e93afff056e7402afb361f5753ed668d6ded08cc8be3febe58ae3d1].
Definition tabM_10 : list (list Z) :=
[[0xb1e797eee3f15b88ce3a1fafec88da1d6329ac3c34712db570de886cf569098;
0x1abb95b6e33243a050e563b5c4fd059de5513ec28994a6f60e57c98d3bc8f586;
0x110d213a836478aa301bc1fd4edd388507d87745b3abfba5bf282afd21f7242a;
0x18edb2d105bb53b768ae0137850dc2d2bf6d1303a1f8ee4aadf76d8f81990588;
0x1e53e92df6c53ecec4c0de5b07dc4c9a0c5545f2abcc1fabf4ccb84a0a6e2c27;
0x10fcb817e10f69f7074e64c393b807cdddf33c84a8b5cfe33f44b73fe18c0e36;
0x2b1d8c11fc652c593543b6f9800bb7d0c9371dedb96f08bbbccffdc6cc44db98;
0x19f473e40c05676d5f8d51e11336e9c65cb32828c397cc8125f1dc667b6cadf7;
0xfcf3a4d9c6c3392de1bdfe25cfb86817ecb80c51be17d47f79750201f1fcd01;
0x23b02d00fe2634889673a7d04736fe15b9f62652b1c0626a19af8d6085d70822];
[0x2fe429db8068e61b82624f25766273cd9fe6368ff097eab97aaa09be4c630e27;
0xa5b604c958bc90071ad10618b1772599e0c8dddfb641131fef39daa58a39923;
0x2cdee0c635a4fcd9549f0f91b4f4a9b628aa7319e2eaa094a693b38b5cf9a242;
0x2c962d7d54a98c3a82a638d8c82450813f42071a17c6c05f470b44958f57ef15;
0x2bc761185f59efb7b67bcf1d3e54da00daea067fe49e3f1d9334e5470438b454;
0x2e450d1fe7773c9889a0be55e44453bcc844c94b56fc0bb806eb9982ac553428;
0x25c0f87c946f375e341f72f6a8dd63a94e86f4ad182715bcfcbf2b28df6b4a0d;
0xbfe6fc08e2a2e1b8911ae065b985388fcd105a490a4ab943b25558cf3d054b6;
0xc182e438257c4ad7e7b79c3b68d60984e507ac597cb47dc31d913a7a540fd9a;
0x2ff4d0b8798a82667793533730083c25223d589cdd079362f1e8c2e01d54476a];
[0x2e750867942439083365d21fe760c7dfec9e3593c67de12a4255c6b01648b690;
0x24e82df5873953792baca345b7c19f61039adeb1190592bca18cf4f907c1a6fe;
0xd60f0585755d48577b465746de8e286e49925150f1784f29fb6b96dbd8f0ec;
0x1f495e93014314988dace5e4e867f5109e09fa00fce87929d1e0ece95a449345;
0x124331e0ecb1d9808a1d91efaa98950abe930c46fee5a30d5ad07976a5bc0263;
0x2f421fcf54d77dd38930cd69076f9baadd3d3f1947371215a66c894d637e89b9;
0x543b2bc66f3b2d93d4c1882039ddb37c70c0b437ac23ac5bb9868e6df24485e;
0x203d9ee6462a586914fe7dbfc1bfa29773b7f9b3d63aea4120c601129c16660f;
0x25a1ecbd7e7893f646f35d3e07ee997c94354737884fe6c26ae8155760db8aa;
0x1d897f60e87fce5ceed8da7f2f4a63fdee7ff9dcf179c08e05e9e5cdd8238ac7];
[0x23237985a96b177ff7c01486ab0d603d29991b8324abd6b07dbb96f5c21ba17f;
0x10e3349eefd3a112417e110fd9e832078e54b5f4537cd018aee3dfbb90541581;
0x2168dcf216d8369a626ccc61453236a389d02519f3052e87eff9ccb8aa299c46;
0x262903f36acf0dc055f610397df0794fbc30927ef185c6356bc33e5c31faef9f;
0x46887724f29321895c2ef8bc0cf545df773c04baa097c352a4165395cca786;
0x13276081db012d1d4f4b7dd2d8a2f8a5180d2ecc33854cdd35f9ceb07bf40d53;
0x2dd117218538e8acb0301eb40adfa2435f5bffa8028ff52f96a99d77fe927066;
0x1b912abf2e1649ad4834ca5b2a3831cc9c207d4d08e4bf274a79dca80e52fe24;
0x20135ff263867f708ee0275170cc9788689c088b2933a361c775cf430748ef1f;
0xba6d4ceee2182d3f2ab2e4a3ad08fc31f7f4cc0fec91ad53e92bf8ada3e278f];
[0x15ccec857b25934ffd429af92c910db31d00dc1c3fb83745a31d8131ea5baa85;
0x165adebe00c7ba019499018c96f5c5870eca5679c90c843d9527184a525fcca0;
0x3530dd962ef23dc16f79b28c1fc1ddafe9458be15174cbbbf3a806de5f63cef;
0x1b7e922b3dd503e6441ada966c8b3ba7b908cb2b98b5fbe1e4c2fb982455baa2;
0x247460ad4580a18639eada69b904c91b19f7d4387435707696c40bac3bfbdd33;
0x144d5be38d44c5bf8f3c5735334fb1a07c13702d86af39ba0b4220ec9a7568a2;
0x269b06b31e89ff132daebc200efdc8ab068136fce65f2fc55a1dcb939b7fc6f5;
0x62caa3c9fd39b69864faf701dc8a4588571cb31bfd5c9c3c59dfd97e99f701a;
0x20e160f772998a2f7d0064c7efa15884ebc6d8b71821cd5336e2df14341c95ee;
0x5ce94b8e9a60b28947710461d87c7757246266ae8fa5d3af3ea81776b5b8c07];
[0x17102ad2d98043e5509e76c331e6b22d5fb62d074760806aa675764660eb56d2;
0x1fb81218feeedf4e7e0e33dd8ecbe62d65c6b7d4233f32e073571ff862d89c3;
0x1cedc6d4e1476741c1099557e58e642c42892aa36e2d0a793f670781a21b0dbd;
0x1a88ae2fde12ba32e5f4eccacf11c25bc163bdedaaa8824474cae5869e5ec20f;
0x265412a4e3b5560aba502d20ed833deff707b7d425ba3c09f3b6392b6f1f4339;
0x12691b599d32edc48ae99c7a73abd59e5b18f4bf773fa1051cabd2c49aaabf6b;
0x20d4401cbbf92877ecf616d7d28551cb0aec552fae9518dcf9218c38c1a0bc90;
0x138c03a2ecea183cb8f265eecd7e93275b0bb98297c1545a72197dc6ddd9335f;
0x150df11291b680e3ba925a0471c7fbb30e704ab4b554ea5d8c07b70b2b96202a;
0xc346b046af03cb9048c29353e1107d6b75e590bb2d422ea83c09a5da1ba0c65];
[0xa4ecaabde9d1ea11c81dafa8d5d4869bee7ad0bf4eb78397b71b8f989cf9812;
0x1be2802fbea51003aafae82ff4499d1158377b108f8b020c82b8460a8d603afa;
0x269c8c139a4f61e16bfaae9e8bbb1c69808c9071083b0a339dff9e4904b443d6;
0x23407728269c70fe712b021915059dc8dc2124ae648e2cb549fc76362bc2b97d;
0x2ad06fc9f81684542e0458aae19c0a7c18be94f1de3fce6a3e5d2335a01e90e;
0x578a55f0fda29909b9f850c3d74be6668e4444ac691764f1644a626498218e4;
0x2ee2da24b7f8e7035fb73b08c3414833ffa38e14b1faac198a860a5767d2feed;
0x11589959fc2493292fb6c50730e74994ad7cd6d3533c3b00a57dae833cc701e5;
0x17572029e8e897202d0e65c2172c571d4b91ca856e7ad3f118ad922127b87054;
0x2fbf8cc6ec7efb30106423f2e67b0aa9403360e56e88b6c5cbaec34a80bdc7f4];
[0xec1821648fddc448a1512aecc8ac37714923981940f5542737a468d4d887c8f;
0x418081de8c2958355a1e45e28ee51ba2c66cad04835f4fbd81e696de6398769;
0xea7bc52503e2039d277912e022fd6d0ded5bc687c6ff97194976f3a28bd30c6;
0x12ab318626d511c23d28baa9fb5b5802e0ab95e3cb17aedbaa25f4d084cfda57;
0xd1e34192343d66fc1b6591cb6a3b0602b0835a403c7227dbcbd72fd8000c6f2;
0x12e3b04924b2cf6e407bd26b3cd47bca61d6ffcf7efa1aea1c2e0d8a49de64be;
0x6dd89fabf92546847b9c13b3a36bbc7e679c5bb0dd785403f3ff49bbe61c8e7;
0x17b9facdbe747d7c5163ca00e3b0b825d012ed4357604e7185750d677c6b357f;
0xaff15650b805bff6f8b3515d5e29cf914b7349af8924e796009f8a4f1b7264c;
0xd064e72449efc11d1e90b97749de3909490b912bb1f72f542f41d62ab2d847a];
[0x255a493aa4becd9d137eb76941c4120784c1233f6c5fdf5d65c0832af543e415;
0x1f3e937ab29f3a88c6fe438698a7198a5209aa6ac9f141319f3bb201e7fd6716;
0x2180b9eb156eb33cad1aa750ea0fa3ddbfa4127296e497f86e6441e052a23b45;
0x1cc69d8f34ee877838950e20a9d4c4bd3e9acaf3d693aa64cae04faa225a2e1e;
0xb565179887ee30e381631d8e5dd357c70ee2ebb410617d2321f6d8537f98970;
0x1162a56ed3bbbb4b6760a16a300ba7202130086da4d5588a70926423ff8c242f;
0x1360f719034572b59410c529b62a62aa94565654597e42779f33400f1d17d652;
0xc603d03f92860da8a68c6dcb1924d1a45099aea50f1a362edb2f2a7ddfe90ff;
0x1a918fc117d9a6445e363ee5833dc01411034b95384d98eee47ae896f92a7d67;
0x2a88e0c35617665f3cc2fc77d90afc7a8d1001c71debcf2733ca0c71a19e1ea];
[0x120f44670301b1435249294d9833d59e01682af4c8658719727678fd9ab7ef2e;
0x113e968769b0ea32cb7b5ff70484aacc96f13dc2827a8e5e611695e0797fc3c;
0x18cd1471430adad31e45b529494fc8a7e319bd2fc0619c99207dfacdb657bbf7;
0x23d0fa965e920dfc530b52670b1e32e2d5fc2821fc918c0844a003b7141825ad;
0x2ea6b32af37cd765d728ddefa30918902a21e19b291400854f56393c56d69460;
0x3340cacb04d5a85614eacc4be3352938baa3fc714c2575aa9d85f739113c50b;
0x15ff827e034c02a90767f0152840e7fc6db983e496ea0519c0ff41dea8180628;
0x5d56f0c844d169248503135e4deb9ffd6329d54cfceed4b947d78a568681147;
0x2e5618411efea30cc7de310d4872597d087c1e122e02ebb117db0c2dff04fc0c;
0x15eeb3e0541bcf010da0c47adb12f6df540b974d439c93e19ea4d02f9975d446]].
Definition tabP_10 : list (list Z) :=
[[0xb1e797eee3f15b88ce3a1fafec88da1d6329ac3c34712db570de886cf569098;
0x2376caeace68ac7d5504c33a2219f5c7c5ad25784cea62a8df008c4fcab50d07;
0x11738aa054dba194b2e82013feb222a4257eaec8a01f131fc657ee766f408d04;
0x22683ac3c69cb11bc0879ea8b2a5c88aecb222d25c68a660a2f4999cde166655;
0x713c79d90ea4f0449b01031fb6149994fc9b764fa494a3b0bbaea522d4e48d3;
0xc372107400e1f8f8e93964c84da46d78197aa045614a1dd700f1dce65779437;
0x5abac870bca413db4ef84c71b44676ff7e7c741c9b5e3f3c8efaa73e446c02c;
0x11c5eb9e0e5c1669df902352e35eff4517033d2a2a946a8e5fd1492a3a141229;
0x20caf8e87737232b8c429d7f8e9c9827cd7fca92cbc159a319567e646480c7ca;
0x185ebe5ac788074f48748c8b4f66564a581e615b3df9c78fc5ddb70b80475d3];
[0x2fe429db8068e61b82624f25766273cd9fe6368ff097eab97aaa09be4c630e27;
0x1b1d1d024385e8a3b81c435ef9079a52dcec3cf811253a83325e7432443ec02a;
0xa5f2f19c49d9ae6d6d8acab3a944b93221a074e7a84939dead82506063120ea;
0xba8903c5a36e9ed67d21b2297f06616760d8beb3ef96c69dc9c843bf52a3015;
0x2a850b071614649f6e6ea4c4382d7aa9981736848c3bdc0cebccf3bd795c65dd;
0x20090c8c6b2e41e84178c0700c9f81b1e128b15f65806648c6166ca8769ab30a;
0x1f9c5c5cd58a682a6155b2db3923cacc1944362035acb2eef2b421fe5bd91f44;
0x2a2190daf9de7f46b5c80235a0a468c68226c193ff86cc8a6ffaa7033626d093;
0x2dab478180d47e197cc91da2f1ff30bc0fb35da934ba38c8e5587e005cdc2f05;
0xc38b0564f60610324268079496ce366271d5693ed6646a6470acef4e779aac7];
[0x2e750867942439083365d21fe760c7dfec9e3593c67de12a4255c6b01648b690;
0x77d21c1db0df5aefc4a82442165dc0c6671bf7c8ae708c8f9b6d44b033f2139;
0x1b974a1b3977e8bf679394da2b702e724d2fde8aa4e60b83c631de610d1eeb30;
0x12f77c314190ff649ec4a608780c3ef7bd065902802f2bd41a93a0666fb8a90b;
0x7626c698acdc1e4ec6fd26aa192bb334d96a0f3935e5a88a8d7abfbdade4f03;
0x269aa03a5af8a48e20ba3147943c07e1d1ac7760edad58d9d03d0f45157935d1;
0x45f5c794d9706b43bd71f2a4d4f376bcbb76c7276da8fa942eb766955c53efa;
0x6ff77c4c464330deed91103d652330809d17045c75cca24e8b1b0a61d572af1;
0x29e529381ccf3f80fc5d54b7c39adfff8c2ebb5dfb86745cb974a21e9467455;
0x6b50f490125ae0bc287d018d60c4d6752ea3f61ad3e939622c1773df67a7f4a];
[0x23237985a96b177ff7c01486ab0d603d29991b8324abd6b07dbb96f5c21ba17f;
0x2b9c40e97f4e7e6eaf4d342b420fcae7bfdebc3460c120b7a4b99240ea0db532;
0xddfa16097871dbb1337b5ed7ae8d2bca1e5ba44e482df13dc7ad593ef27a5bb;
0x165e20a2a8ea0382f56df39ade0accaab08fd9db8a7657b74ee54b114393aeef;
0x174b9be8f359863993e57e21e4c6fbd4b4a4d339d943ede1d85255ee48b3ffa0;
0x304b87fcdd673ea0ae58bba75c29249f964913b2170aa9f23d4d03894208ed87;
0x278ec34449ad1c5182395a44f2826314db9fafa533e518a5bf082096c2484918;
0x301cbe6e44e903ab193531261770925dacc71b88207e18f793f59f69a4347771;
0x20334328490fd8682bd47066200b77f9509a72a11f2d91d456220c629280aa44;
0x2301d3af42d47b43c8a8052646c069e046ee7d180c62a5d36e52dd6f215bf37d];
[0x15ccec857b25934ffd429af92c910db31d00dc1c3fb83745a31d8131ea5baa85;
0x2655c9fd294d40b9dbb9566609c264c9e602c777c8701b1b2b542a5f08cf976d;
0x29898ad417130c472e0c1da3b017f7166e3a3eb80481efa32503e81a3772e5e7;
0x1681ed2917381cd1217a0c9a2f675353982a438cb3e9108fa5b2048e6b7e32de;
0xdc075092f8f83009ee73cd35e511ac13eedf5e3999f9bf5b41ef3e1a15a8fcd;
0x837fd755c29dc2c29036c497fcdfc23f95c7bffb90a62db5cc43a25e20054c2;
0x19d489fa1fa1ec6441b82b735dbf0b84788c542263d4c1ae5335e49297ed4bcd;
0xeb25d1b0322624190db666759db3c82bc9718a990288d865116787e8c527351;
0x19084cece4945482947cfe51a1f6f4e2e216f5b54742b9d71cc3840bdcbbaabd;
0x3a99be2c75989dccb246bf31a58f88dfc494ce2569c5d8b18a9a876317ecef0];
[0x17102ad2d98043e5509e76c331e6b22d5fb62d074760806aa675764660eb56d2;
0x795d5914d87c0dc8fbaedfd46afdd6451258f80779112edfcdf1a71d23af4df;
0x2c202548a326cadc3ee595a16a2c2d54ada779390f7bdd4c4fc9417d3e463d03;
0x181db647369841eb58ceb7a1b9ef841a7f3358cc6f224152dc7ad3c1d3b1c1e8;
0x26e7aa2ef4c91ee3f704849f4c181fb83b860da15f62f2250c792e0ee66c0ae6;
0x17189249537630e942f5ac39c1498bce39996c15400d052dcb6cb839aa45322;
0x23bb4a76f79b77f9f6b4940ef2538c7d60d69f1fe9922d66cfb92af9dcd0867a;
0x1ab80a8b5fbd7923f0cf79707d56f7677d1071e924cb497486766a4c4bd7f6d0;
0x1f8f4c40a0cfe0d05603433a0ed2d424c7fd040077b0a1642c25797c20d22d16;
0x29177f698bc5a897ef9aa6b915189f689efcfd88f3da8e60b84b9bccc2ae33b7];
[0xa4ecaabde9d1ea11c81dafa8d5d4869bee7ad0bf4eb78397b71b8f989cf9812;
0xc066f7a1e10d00fd3e97cd8c67212c28b43423b03ca4ac03efb4d8a376ae098;
0x1a6947c4e87ca0c30ed9f47004e53b7a45455b14da41f79045c2405d2e3cb859;
0x2481ff49ed6259def9fa646c167c8864061c04cfc022051f83ef8a3ef8db5819;
0xc13692adcb86437a860d6296d74b4253e790cae6f41683b99c1760d09921d37;
0x27a6be35c45e5f46b2eca0aedd98f67638b6645acecf50351c5a9f3c428b0e27;
0x4660af4e63d1c9ff6f059b75dd870df938980e43985c5607a38dc0ac8d273f2;
0x2eb8302f1381d9118d9c713d50e117f92837dca8a8610e9de759e76e8ee987f9;
0xe9f931dd923dc4398ac12b101aa7b5e2a22f09caa416ff8745821ff165b07c;
0x209945fe475f6767f668abc045e0c47ae6cb25cdb1efd5586da6c4e655d68e82];
[0xec1821648fddc448a1512aecc8ac37714923981940f5542737a468d4d887c8f;
0x1049076d8dd43ffc6f4ea10a82dcd60dcf4d60a2125a1b4d8c4ff954e7da3380;
0x192a1bc8e7dd6203116a0c40d58111850edd5b50f9d6e882d16f95fa6a76d80d;
0x1beae2daa2a697afd9b1388dbcd6c93731fbb4eaa0fa439f92bf777769055293;
0x1a31b8769a838df03348e01462b564e08849955efb968d1f41342f02fd627de0;
0x12f1bd9058590ca45a76e19b5891f5bfdc95d653394adb4f32090c60505de408;
0xaac3c820280c7658321df7aaf69274032fccd21be96174582a8c0c9de580068;
0x7c216183f03a4b7c77070c68b3790b31b5fa6d1df5ae42437b6a2283d5b8891;
0xda9d210a43aae4d13625782341ece1d0221bd6ee0dc4a639b7f13a6daa3c93f;
0xc0d8ee0a08021baca7a5799ed7b03734e4b9bd35430279d3f7b2ed473c48c6e];
[0x255a493aa4becd9d137eb76941c4120784c1233f6c5fdf5d65c0832af543e415;
0x19a05dc5bdf1243b57474519b375ba67bd83e122b095e4272c14f9646e733666;
0xdd31347136b2eba27f0528eae1c25a710c3707bde9dff3d76ecbe33f188bb02;
0x248cdf26597e0746d01d8b7ab0e9f88aa452d90eeb039dbaf586563945972fae;
0x25718cec512fa137f8a5851510caee0dd2c000af55af09dee767e2084796a71b;
0x23688bbb9cf13bb7bb972d0d18d0e05c51bff96ba5314bef0af2d912dc5e8d1d;
0x1ee8c54669e6f0ab1fb6a54c809d1fad213e8ffb7a7b40387ef594b7cf50f4f5;
0x282e578ad2799ca36191b37835889bca6e2e8bdf7e4412628bed5e39885d688e;
0x831616989168d514c0fa151fc3874b8cedcf88d27185e7e037cbe93391022e7;
0xbc5380f3490175b28f01eb5cea3914924df2b1f745d33a9e39ab872b19c4fb5];
[0x120f44670301b1435249294d9833d59e01682af4c8658719727678fd9ab7ef2e;
0x2a25bac660d90d85f22fe81abdc80c403a86e75d4f1434ba2eda3184dc5f2833;
0x2d19334d3eb5a9781f3b8105b0b1131ee95d4012e7faacf71864762b6fcc7011;
0x267b655f26896341492acd89edc7ae96dbcc24161d1e73ac652ea55d61efc3e3;
0x1d9c8ad973feacddad16da2be2ed7eca235b3bda01521da956f1c8a7d65ea58c;
0x15b9ffc66af5ac2aafbf2dcb199a57bbd334c9f971d903d7da7fd65e920cc9bc;
0x25814a817412e861b4318985ff3cb706db6e56dece08c2c6dc20584ed6fa6c7a;
0x4190e2e1cf613602ba331d0185b43c960ff5c57bc2f86f5c8bcd84b95c789a4;
0xe3999f52ed0ec7f486ff150acc84c266aeee72529234a010988f95a1b5885fd;
0x1fcfdb43cbd7992f0088a9a85c95e4621873666105510f25ae576bc08d7f2084]].
Definition tabS_10 : list Z :=
[0xb1e797eee3f15b88ce3a1fafec88da1d6329ac3c34712db570de886cf569098;
0x199593eecc85367004177e717d8adae09206aac28506281403748f85ebe9985f;
0x8dd94e1b09d8b9823fde4d4fc4a3794d631616a2c192a47fe257bfbdbccb7d;
0xa0cd01bd7b3c21552ee7c0ba8783ad231802aa4f847d00de820e9176e227744;
0x287eaab3e59c1cdfce30b6151543b6ef49a3be7206f3cea62db4e80fe1ca1529;
0x2a8230f7ed05f7e334f91cf214c7bf12852996083c456a506eb316c249cfb4c8;
0xa38f089600747a6b6e35342c2e321042ebf690726aa9431031351cbaedfb5aa;
0x1d5301168a7dac6891b7a9f6dbcd505fbf7522f875a61254149449869d316e05;
0x13abafc765fb2e45f793640bd7f1ea2f88d202f0d7b4200410cd96128d3ef472;
0xda7e244a420237fbd8730ebea03fff45156a52ac87b9ff605ff1ba20f7e83fe;
0x271d315532755b1d48814699af18654bb310bb94d1258dde0e589bcc2a5e28bb;
0x12fb6f92ff04b5d5de41c9508842798a8b9454a99f0cc49a92afead482e84bba;
0x24cbf9280b713f95571b177799a76e23f555db290a1187aa5ab7db69a2dda2b6;
0x18f43c99a1b72e7cbd6fd781a46c13c38202b4b0ba7ee75cd36fcb79b5ea67e;
0x1c69528b3df94c6f7e8a794ea0308fc165f1bc1c1e3ef090c7aaf4405f7cf3bc;
0x1cb0d8aa6512a7543bd8e8bae1c0f0d2db1b3457e1bcc0ffd372d4eee3c6fafa;
0x2e1fce1597591bb776ef16340aeddaffdaf039487cb42bfa6752a3ea0cfe18f7;
0xe486a7b7cdf0fdb88306d96e72161d4549b281152c6cfc98d84b031e95ca166;
0x1141e26a80698b742d900fd1e734839d51e4d50e0176303a675809ac47201782;
0xb1e797eee3f15b88ce3a1fafec88da1d6329ac3c34712db570de886cf569098;
0xe3f8ddade546278648095cc835e94063972b1d55c6414506592ab57e54c8042;
0x21933a3bc4989347b0703d7cdeddeaf6588a166e6a3f984e318de63ce674e8fa;
0x2ca6f945f5f755039c8e1bc30935de1ad33312a7cf325b065f91083cfb001a78;
0x129a9ad876815d96566600a97d41f958d7df9ef97291de611d28d7d9b2af46fc;
0x26b8f200c0d0371558755081221dc59767afc5a4ddbe6f7d403c5ccb4035289b;
0xc7c739377b0ad2ff9d3b0a8fa53e39c7016f049ea860e8113b055ec96ee3d64;
0xd17a36749f8f9d493a0a57bd87618c969cbcf83edb4b207c89aa5ccb3feb20d;
0xbcfe1266d757503881d56c7e64cfbbc3cb6a47ef4e655565864e01b9bd3f872;
0x13f89db06ca471b07ac0ad1f4448cb225868b63131700d1ddddda16e6d5fcc7;
0x24d344ea0550d7720827b6be6c09b027c8e4ad104d57d57771c258177a302b8f;
0x208ce89913e633aea3a855a854e7daec40afa1939dc1f728dde6b349e39ba30;
0x1fc4565041d810a750e306a14d21695074e31eda2baf0821774add15c0e2fc3d;
0x2fa22f80d4309be21ab298ba4bc16a5b20f2ce8f3ed7bc3453135655da269649;
0x26f3a23903d1e7d835db70f3005b3d5a67043fca7eb62aa8d78942a0c1cc8add;
0x1ce0343fae8a12e25f2391eb038b2377e7c0c21aa60100818539d6092eeeafb0;
0x244a2bb870f1e6f4ba5e20f1c225723f305841bd0ab932b7334990cb0572c33e;
0x1ec61e9126f4c8fd6f0d00b28c5f02334c077e99ecb358d2536b2d321cc00aad;
0x18b2ab087e3f0a7fa8a6bc1687900a5481ea991ffddf017ff52a7f371c22db87;
0xb1e797eee3f15b88ce3a1fafec88da1d6329ac3c34712db570de886cf569098;
0x140b91ca0e53110e898a67ba8853d04821952e760e56de985180975ad237ea52;
0x3385f50412cc6d4caaeab9aaf1099e8c3c61295754345534a1476144a9c2678;
0xcc396f0b80e2638615bb4a250f84e54dfe33ce76386edf22da2dbb233546ac1;
0x2810d8ef50de86e04cd8a07f6585a06eabc4ac5efdc4410904d7a906ecd172dc;
0x1f8b8501e9db678cc274b33246e39eb95635ac4ad2ff759a9201ac0c3f16c12b;
0x9b10e50dc0703b65199c6cff8510a9ef2172545f366ec2aaedbb2f5ad4e391d;
0x158a6e9ae44d1ebc7fb99b5b38e5139257c68f0ddea96593ff7a87dfe79cbbe2;
0x68dba3eb9f1b909707e666c1e7c745192f6ec2d8439c186faf6d3bb978b42a8;
0x100be98775675cb0864cb56fa3f82b66b216071d10cdf87358c7e46be055c723;
0x1684c4b116063b5e05cbf4eb9b3a6ba6d68ce1f30ae3978e1bbea7a71bd20cfa;
0x678cf4e455f8359f498a22b87a3dbfc50ce233cbbd99995cc259e419899e53d;
0x305d111beaf3f510a104ed93aa254f20a4c539eeca95756ae03bdbdf0c8eebc1;
0x197b0550e8e09c375f4b1976395ae6051649d6c7a8c39b78676e45d33a8630d2;
0x190712928fc6ac88f24cd9179348b4a2832748dcf708e01c50efcd32e2b83de6;
0xa77bfa4113e98b47e8d705a9f60160ba144ba344c274744f135f207b24929ef;
0x2962a7083e7830d287de0a3436cc093e0fd7c2d9631b4937ac124d58fe3fb901;
0x91a715976bd99e40777c119f68ebec701e3777cc9b9e52602588a5ff89583eb;
0x61e3488cc92892520449518af4f4133b52412a19fb8b98d3d0812dea2636e3c;
0xb1e797eee3f15b88ce3a1fafec88da1d6329ac3c34712db570de886cf569098;
0x197ce59bc87f624e9629b7383452b9858362754ba76cabd0e3d3161eb8ca76d6;
0x276e2e6272ab2858142f0ddaa038f436e9f4c53eb4d5dfd8812cf10ca5bab1ac;
0x9c49831a9e1c453d072ce83e5088666b56dfd1ad0977b2abcb2aa9ec83e2ca6;
0x2a4aadbf31a1c58a26626ef9de341f2268bca243eb859a465911da18af0173e7;
0x21b0460dfc8645851be88e96ed5f67cc2ea5ee00f4f3025ec4b5253494105a47;
0x120a8288745f9dc360cb1d580b012b52543030b53b9b97ac9324df79fc46df06;
0x9f0d911f5eb1bbef4c9ee96c2fec0b0c00945de4706b4cbf64f62a02015d7c5;
0xdd0124d8c9d7b7c202379a001263e0522ce49d1081f63816134ad16bb34277d;
0x2bd803e20cb341debccbad79b053df6e53f567874a52ddeb9422758e73cf6ec8;
0x19b2b4b0e24bee790fba0867847f947f975dddfbe3c11b4c566ed4673684c0cf;
0x1acda97c75929ac11c21cb081f177a6e550331b2670e6a66c2793e4ca4bcc3e1;
0x251c70a93b81276ea3438709b96351fd8004dbee0abc0df79329caa4d932bd62;
0x28918984ffdfc01138df3fba5221a8604c954b7ee40de7070fb0e34e7038ea3;
0x2ea1cff24f208aed6f4da7cf837817ebfb6f545528d85a32430aba357eef776f;
0x15b61ada681df7de801547bc9937b1c2e75a4f9728cfb5586f765b058735ccbf;
0x16a4ad2b453006d9fcef31919daf7ded6dedff3c5b3ba4fed692e2350899167;
0xe8cdd7c3d33927077543bda5b1777f6369d06876b8636cb95a9060c7936be90;
0x26152760e5dfe9f0a2fe901bed5e0dff3049827e43a1091e24aee4d457490a63;
0xb1e797eee3f15b88ce3a1fafec88da1d6329ac3c34712db570de886cf569098;
0x1ce56e15f41c99a2a005acc7f78b735e8330dba4db4cc96c524b4638010937ac;
0x2b33ef11fc26750d1497df0fa1b969f1c01c5556522150ff976912649af06a99;
0x47e2b54830ccb7ac893e39afe89b1d7eac35c7ec0f28b343e0249b924f15d37;
0x2e820332c7266af2a59ddcb5206d404827e9563ca2c5dde5d2d34be269c82612;
0x28fc123f79ace39838b7af8f86be8cbf89a3540015bed059fb7a55868edee623;
0x121ae712c922e7ef55ebb73809f3036db42852c52fa63bff322237bd883dd555;
0x3002f25a7ef8e035c0e82597953a107fc73a5a406770dd47ca93a34cdf8040a7;
0x23ea2cf159ca1b8a17ca61b73bc84b33ca7204c4120cec087424470dd062076e;
0x179e72146176bd15051df789ddc3d0f48437c973232846e4223daf05529248fe;
0x25edc52b2cd7bb6690692d75c3f1b999f2ae0749c5d2741d2b53284b5655d46d;
0x1cdbea76c865750ceb85ec17f20c955f2edd46df09f0ad90d04cf416b10fcaae;
0x2edd29ae05591244e1124edc195033a404aa98a863678d3769ddb5797a2a748d;
0x2d9d2a342475cc1662da5b26453efb92f1549efbac72a1226373414a49a13590;
0x4783348904bbd884be3c608fa349287d2e4d4284baaac9b6ffed192a641406e;
0x1588ed490b8448cfb883d790bb0f97a2f1962d14289c946b8ee49a4ddcf7a3eb;
0xbf107dfc33fc7e66153c7e5d6beedd252d17b8ca1bf1f6499a9dafea570fb07;
0x201d0f15aef01a1e0b401f946f7b29e6f01147b6257d7ee235c6d319c4474326;
0x1015804003503668b1dbf9bbc98eea304dcdeea4eb7dafc67b41a6446af10385;
0xb1e797eee3f15b88ce3a1fafec88da1d6329ac3c34712db570de886cf569098;
0xbee3e128dae75005ceb095d9e6e0e55285ff7edd96dc89654f5b83570593503;
0x1853cf3ebd47b13b2f218990eb3ea26379c1d213e70feea5b84882d76241ceae;
0x2c25e50d363cc08774bee7d9e6232855f6d8977ab169e38fc6fc76de9a63e6f;
0x21ccc1e8f8b5ad39b401f79c51ed881ec892d2a7eebb8ffbd848ef158afcaf68;
0x2193aa94ecd57e962604ab428aa0a8971644707c6e85663ef9b3720a685d71b0;
0x1d3b5cd3133a0533eb15cd908cbbb5dce76ecf5b711f2535e852aa472ee4c9d1;
0x11f29d358de76ef38d31d6d7247b64d41c42ebddc7ef5e4445c7897f57ad08b3;
0xfcc2984d1d2b762d6fa16a3a407f4d3eec484a9129763864265add7c900836d;
0x2f79d03e732317585ff9abb62a371800553f1eb717a71437e225b204c18f9e9b;
0x2f4f14eee6382dd0c54d10739b354abf104cf134babadf2dff9b8cf286f9733;
0xd0c5aa4bc4f774d03ef5b2f9619f618edd9afb37defcc420b0aa4f4fd145e85;
0x9b150f8dc9342c87a8b7e871345e5998c084662c897899df45d73157c4fd0f0;
0x28148860436280cd8a5fd6645fd1eb86abdb72dbcb02e8ef47065a4a681e9eb9;
0x2cf619fe3735ed9bccedfbdf3de64031cd203231a0e178417bbcdeaf69c85d15;
0x32f164c4f4e5122d438a9e0309459141505621343ab1c19abb63ce7c036ad03;
0x2a3efdef552208ce3441637e2cd610386f41f402bec452d674bd2fe16c273581;
0x1a9e7a13e4d57cd1ab3e38f0991fcaa4cac542f66fc2a46f9cf7d20029cac792;
0x20871908a0ec043e1e43ee1f520584f15b3a7f24a2d03aa1de50e27ca599d872;
0xb1e797eee3f15b88ce3a1fafec88da1d6329ac3c34712db570de886cf569098;
0x4767ef42341d3930d7e5219fabbff62f44e103b3a0905cffaea5a2dee73c19;
0xc4a1786e515cd9bcab2b7c9723c597e730c532555003cae4e36131a721f6ff9;
0x147f468c58deafdcf47e57114df0ead2c77452a45020e73955cb150e10153520;
0x1d1309f96110c70d9ef884374676b9cc3a599fde74388ef68d99e54b5802c760;
0x134281c387edde8b6f807d253bc0ace7a625fb3c1f65b88e4537febff52e1d62;
0x2fec2d972ac4b8ba14bbc95cee2ac6cb8c669abc35e77ae2f7dc962dccdad59b;
0x1782c9e451cbde261da8b4ad3a15e23ef7f4daf7b406732de05570c73040c663;
0x261bf6a9f68e313088d8b2016d3e7763a6f6eecd9b506fd2baa8d8f3593b4c4b;
0x133315cca34af406eae080edf7ce27574fb984710e4e8ec39aeb6491b97f98b7;
0x216763174ddb0395182ebe57e4feb91be8f13746e89949557e023df397cb679b;
0x9dbb42bf26459d3f9ba2ed5f491b4f01fff6222c6bddb7776450edb6c652ce5;
0xea832a969ad1d94f55cb34f35c7327f62f24fa140817b238bc676edf1f77b6c;
0xda7dc395978e8ee00ea5ba5103a39930e284533b1a51fbcd3d7daa542142dda;
0x183cf55053b7981ac506fe1c56fee73fe3a39ae042171e21541b2b7312618722;
0x16eabfa4236b9b61ba1b336ce55febf1cc84343f0449a54873cccfce0ff9389e;
0x2b62c1083fbc23f58fd694646499bcb90368a2e63794b1d39dbaa36bf782e363;
0x11ecdbc47a72138aafe44263356d01e931541ad49ac28c048428ecd233fe3c6d;
0xeb0e1c7cae7c3f491cff7216ddce50aeb98935e405316c6daff1c21046af99f;
0xb1e797eee3f15b88ce3a1fafec88da1d6329ac3c34712db570de886cf569098;
0x2323c898ca30f7e8fce9b31d21283d3545705a71d0ce9577c5012fde6caaa11f;
0x2373f9b1c4df6c500768ddb13eedecf0a82bda6029c0abf90f3f15f2e7a9f87a;
0x2b4a1e59a52b1b825f6f8dca5ef66b929032dab32a9d3a58ebb44887f84c18ca;
0x3034ae984f1538e2163148617760f62569231a619a0e2b620d206211b232ef29;
0xf1fb16f83c8ddd6959d01a9576a8d70c226a1a422ffae89ee0baeeb37e9a8be;
0x58d583dcf975f97dbf31e32ebfb0841298f765476b2e4833260ad9bb82f2f2d;
0x2b1060a96e8a6de59e2deac81b17d40ecaaa4087276b7d5a9ac2b47598c2facb;
0x70579f1869154a6efcb59f85b43b90affe755efd5d4e62686aff46646e0808f;
0x21444d26f9de3b9fd22efea95d62f5193c3eb0b2e1a6b393e85996439aa43992;
0x138671f92f9ed9a8131ff4c7da6806dbc33f6c02cfd3d946aa92288df2ff9d9a;
0x1e629d7b8f61fa02a5fb2fb163a5a57a593b158df70413fe868b338307a449d6;
0x10f0f884186e996c19ce4939bf317b3d12cd24bb87bba0d3bb763ab716ed41b;
0xe2f06ba65a2c7c8500850ba6a489879252d0db2af69dd23fa3ed106c92739c1;
0x19823b0af9feb33ea07566495f0de05e7ebfa52aa89f5a5d7c66f96ad60c828e;
0x16b0527fc6aac4b4485dded0afd8905e6b53e056efd33df7b8fc2d3d4b54cd;
0x8a584f510af49572ee86cf723346066002e5e7621e502e946f8f35003b793fc;
0x8a63466c0bbbdfe79375f181ed0266c97e6057653d0b285696a5ef3e93c27c7;
0x28ae69c874a3ab1ee6360bb1ff560fbab69591e837a4bc4d80ffb4d253e232c5;
0xb1e797eee3f15b88ce3a1fafec88da1d6329ac3c34712db570de886cf569098;
0x26751aa290792a4fb3921d9ff8b5967efdf68b1fd85981b4d96401bc621b381;
0x1cb215d90f4015cc5934293e248b2d6aca4e0afd46cca219a89eb4f676199481;
0xb8f12cbe7152d6f3e5fbbe978884a5b7be6f35fda4c00f5c5975158df2f338e;
0x17d6d8fe5ede1ba531918c33df5c6c9efefbc20304b2fbee19c01aef81299774;
0xb53ad598a4e14448fd044b8ce15b6336af6b91cfb81c0da827e7dd68e98e59d;
0x15e20ee8fc573330fa52fd42ec7b636e28cede5437be371b1990898751adeb74;
0x154fa8d9c7f09c1ffc7fdfcb58fe7b91e6d81b03adfb8f9e2fe0522f6f7c2541;
0xc17e59b4750d7443f8030f26ebd82d25623e2b8e5540cba1f310828e5e66988;
0x7dfbe56e6ae749917b93471525255853fba26222d45e0504d8f74784b1a86f3;
0xae4cd50975a86aff25632e8c9b7c0e915bc38159c90dfd9459e29ea9432e467;
0x1fd9cc61b67d700ec892a8c09af677c9e28097463010126823cb72d07583754c;
0x1bb36856ba8992334e795626486a4608c5d9a076cd93c8aa0e1a934ae4e8f3b4;
0x2f9cce5050f66f493cc95213db4336536a3a0e2a17311cecc27cfd9d88e339d8;
0x14839ed69feeab49ef110556d96b4f1793f8c95f3a38de800e9ca0df690f958f;
0x7b5c5afb6a826ccf1b740cfc8aa6f0279ab50c3de8a98f6692bff8cedbe5f0e;
0x142f7788b72c5fd5a9065ebef59f6e8d32eed74588cfc22ad0962aeb24a7bd0e;
0x1d07d62eeb6dabe9df4fa00ad642bfa7d36687d6ca9c8f023a40b5d04bc78ae8;
0x13e55cabc0bfbb9ed41bf205be0674e8668a8908c411ae821d2539d8cc587fca;
0xb1e797eee3f15b88ce3a1fafec88da1d6329ac3c34712db570de886cf569098;
0x262b44719763ef2a486e59231d9624bcf1ecb95f576bde1e7088dd5a7e4a5f89;
0x2dfde9e5ea549d50c4497d25b4a4cecd096226253b3c7c3874057fa62b8743e2;
0x21a567f428d745b4cfdda7100163871a5383e5d8ebbda66f7a305a4c6be0abdd;
0x1dda63eedb6364b5da1fd1acc28b6a57b9a4033ee7749a8c2ac152a1e94d4b4f;
0x685e2a27b7ec3fdbcbe3e017953374976ff85371aea9109c2d76f0ae1ceecd7;
0xbadd4c6541613422a3c2b71626af0df7f380d6f3f6da676b7e6dda463f63ffc;
0xe270311e05a64fe34fab3018b68616f08a2bf4c06a47ca457defa4c199fb96c;
0x20782abf7216f6c5e781a8f0350099551c5e9a1a3d4b3ed2d985e5a7f566b24d;
0x2b1a699f26b1fc4beb031df4f37b8d5cbabf780572fdc64a56de00748a65c07;
0x791e4fd31ebc85df2e06aae29edd808f129493f8583732492fbd7056e93dee5;
0x2cda35be891732bed62392cddd00557b6f4b195e000c1bd4fcfb605f8e369d64;
0x6b17710849d27210afb3ecca7e7c7ad3bfa36075ddf1b46d7bf0a557c7afba4;
0x2a1ad86529da724870dbf3bd6fc20cccc1998102cf0d7007a6b2263999e4fcd2;
0x2ca7a691f176d709c8799b5094d28a68db601ffb5d133cdfcbfae9e565f1ed84;
0x92ee47cd58d3038bf80c70d798516c0dc371ee7fc7715da95ccdd5a1e820347;
0x2f0a3f3ab9033e8640e9c1b7112b31242b7eb493837b84bbdc9cf56ce5858752;
0x2bafa447b4f5b878e812ea7b2467c72890c119992bd1f6e3ca60f926e812d2c6;
0x6f980dec5d6b3665f1cf9fea725ecdad874c5c9cb63e7987fb41e7430a3e352;
0xb1e797eee3f15b88ce3a1fafec88da1d6329ac3c34712db570de886cf569098;
0x2d69490ba2ee43e841922e9a426a5bbc264f17ed379f8bc91ae3d275e724c21a;
0x55c6b789c7c9586e4c88fbf4eb60783cdf8e9e58d356bba1ef92f8ec3514aac;
0x160f356a6a05a6919dc7d2e03878c6eb552a14995edcab05f623273c0cd29a1c;
0x2a178e1d8e4e4609710499245dc91e66f3795b5c0227a2ba8cc8a9f8830aa212;
0x2dff2498b5124e3bc2587f3b1cfef4dbc1168c2172dc43f1d801cb75c7e18ff7;
0x3062dff835ea1ef8f6960d05f57368fb48357ece82fd7ef12cb5254a55e3d102;
0x7f83dab6ad44900a3be2e049bac44fc5eafddc0e261ed5d1795fd513f12722;
0x1a037c2eb85f1dd82bc9988c67646efed697444ea2739b6800d214e8fc52c8d5;
0x17cc92ab3464a089e4f7747fcbee5043b59bf9d7cb744346cc2d889051463061;
0x36ec634c1127401f9a2206720e26e7198702b85deb2314a37c1f06217cfad7;
0x13e7e74a49ed94c2a714a46b12c19e3ed6793364b22763ae2c28b53318669510;
0x304fecd133011329f98954047995691c6991eaeba7141494506fc3876cf8268b;
0x4e860ca205e4d78f0d93d3b743e2d82d77737faaf2704e5540e163aefe75b51;
0x128cd6494ecba913473703b110fbd66d627440384a6187aca8088de1d51aaa60;
0x2c7111b9259f4fca63e218ad354e9107e80a436a3e82d62f180c0ff1c7055743;
0xb3901ec96ea864778a698866a852170eac53ec5c05c024373cb38585977fcca;
0x9aa27e7fd140dff6a20f7696c85702c3f60ae58e60233012be3996d839f8d6e;
0x1e3d51555af4c3321630aa1d1134ff631ce25a12b77d3c2f3068a4a981f79491;
0xb1e797eee3f15b88ce3a1fafec88da1d6329ac3c34712db570de886cf569098;
0x19b9a37490c9b0507423635e95f10a0f27a2dd48b840393432eb41c3fb9aa265;
0x7783facafa95b276e52a4e6957b6145806c64f5c0305fac11c14095e6770e7b;
0x1dd174936ad30ba73ea372209ca23d51868b21e533cbd15ffd438c51c9515c89;
0x1fa6bdba3839fafe0ef67bb8f50f2bfcca95ff34ccdd072bcf4451e1b3a8f098;
0x2a3116f7f050869bd4b0181245fb41613f482cf81d09b95898f9f813caf7c97f;
0x2c16907e9d82fe0a3799dd07efc106bf60d114def959261470623220d9d9224c;
0x3c373a0664f0389702f966c124355796a3819e6fcbf29583b4a33891961bff7;
0x2e67195c545bf86e5737e4d28dbf075c11cd21965127da4aeac13b49fbadc2de;
0xe0d816cd83dfd0535a9706aa8d7225342cd76b82d2c3df0425857d92aec38f6;
0x1d623c057cceaf69f4438d54e954e59f7f04065ab72132da788b28fe08ae403;
0xd7f30107ef57c75975e5a489dd2e39053d12cf5ff9f74bad3e647d6b4278659;
0x32f7466d62e6c9dd8c02064ac112042b9082c7ea2e8caa266d04a68f9d9b15b;
0x2a4bc62d27e720a9e53c02e6519ecdc684ed42222c063c698a9fa024c1bd0669;
0x2f11dad1623f57beb48f1f781bdd9cf57752dab6fa75b6442db3834cebf6d5ae;
0x7448b576267dd9d742ff7a7fc8324ddf3f340df575917d1583256b8a26c001e;
0x10c06e0e81bba5139387282c3883c5967d1ebad7ed164f970dd697de036db5c4;
0x30c7e1595a11101143f8997b7b9f63d265bb69efb4afffe36eb47ac4e170960;
0x2081add9a69f880110449f883df1816b141c11bc52fee4c355821501e3fcf05d;
0xb1e797eee3f15b88ce3a1fafec88da1d6329ac3c34712db570de886cf569098;
0x288949d7c29bca2b52de67a970192cd195390c7ed0788f81d85db64c98c78aab;
0x2589eefe89ee66a650a27700d7ad9ee3ced14f507536405c21a90857b6a3c8e8;
0x28ff008aa0b3a7732cd4059620a76a9d1cf8286a5ef84ee4df54b435656f14da;
0x2155df46713041cde67a10d82c7c13921f0e394bc66eb78f9047782cd17ea643;
0x2c16fb8505a4a94a7b5c775792cabfa62e014b33a5479a81c2fc8a52e8044d36;
0x2b1e314362badfaf84b4d272a4b6509698305104e27fd317fbbd0178137cc708;
0x2c27c6d894ba49e73659ae668667796a1547338cdcf3c35914b3d3e004f935c1;
0x24c4d70a62d779e831a38a510142c88b2071251f2737dbda104dc3cd5585041d;
0x172cd6c4cfcaa0085db59ffa6051971fefa9934458a50b5e3b98bef6053f7fa9;
0x1068776f66d6f04edcdfc6e6cb9473ee2f57d670941e4a191f6f69e7bca61a;
0xb5fbd532099ded25d17a8ba4db930a0c9655056fa6a01c56e825843d763790a;
0x20d62b8df28b9d5677bd4f3ac8095772befee8b2b761f9a4a7d9b9aa719209ac;
0xab9f332e0d0c4ddb998fcd6da668a8f744260e3ea8947b6f6189ca82c5db01;
0x2953639aa84c6c0feedbc71e3af4e4a15bc408f5cf3ba2bcb98ba5bc01c9875a;
0x1afc3b62187190e90184c6f1f1878020f0efcfa38235f5980ec372c2d9b4a56d;
0x2c67d12ebccd059b365736302f01da9088f2a40ae49d88e58c7ecab80621db4;
0x23a3292e40578b5fe32b0c7ca158b298fc7d6397ca3d46a50157a528a6ada69a;
0x2d5a92ce3878d73e89d645f35ea2b179fadea64310ff752a48a94aab957cda66;
0xb1e797eee3f15b88ce3a1fafec88da1d6329ac3c34712db570de886cf569098;
0xfb3cf3d82f7442edce7ae58c2fcbde983a9991bfa8c583cc9e8675176f5f500;
0x1441b92ceeaf3e93bb74d84875b7b32f66218d23cc25b747d522344c853e69ce;
0xc66500308b0fbfef99d8dda3ee219ee7faeeb6ac7c993572c13a93b172c09a4;
0x104281140d7c64b5bd415c250830aec689e5868c58a2396c8f4af87c06c0a617;
0x297d4462db9786475248b39bcdc40ba0ec662e5e772f6d07c3178964c86bb6b0;
0x882cd69f5f1b0c14f1a5f1473f44952e042d81134a25c45a01e4d997761b6be;
0xa663c1280a5f4d285524e6163aef8f83a42ac4a8fd6d3c44bf01c5f76393e75;
0x64ff7dc46adfef44b40646c79afa99d0c14ca6bdbf7da5aa322f346f169bf41;
0x901c9594190b84ee79b7282a6a5bf82cda6d28d1c513fcc679b42c5da8570fe;
0x21257b75cdd1fac9c5a38abc15274df2aa318adfad33a5263ea3cdb1a1990577;
0x255cf0a823fa7cbf9cde67161df7378969730138f3bab39b5be3575dd62e8b51;
0x1d4b1fbaba2e064f59db8d8a6e72ab84d49a8d82f6a2f9fd532caac3530bbdb7;
0x3e5ecf7a394eb453de6cfd3fe8da36f826abe096b15add7bc22ada6d2ec83ad;
0x1f068ef1dd48f8934037a95c94b3740ab3d399a0e36cdf8c91adb39ed90c5151;
0x13b5b483529badcd3ea50b491b6a042ffe9c38f2761e8367eac4e11a85210971;
0x28955844381caa81ec9032541abdf3f00b77b9a80b9f6e363cf4369e0b1b6642;
0x2a3fe34d0e5e72044a5af113255b129d78fdd2fccc280f3d6b81c985d16cd288;
0x8757825685a90d9476b5bcf376eec9556c41811a9c017fcd7d6ac44fbbb8a0f;
0xb1e797eee3f15b88ce3a1fafec88da1d6329ac3c34712db570de886cf569098;
0x5454d37baa3a2f999a53fb59504aabfee05108628378a3a9feb587663d274a4;
0x129a7b8af836412572e06774394c69bdae4033b15dcc2a4efc10d5b4d850fb05;
0xcbbe121aa60c9979b941f94e86121f984e67334708eb05850777184734a08bc;
0x1925ac7783c308bb5aa53769d434c44de6faeda6015848693c50fdfc7f465d86;
0x1e24206b35f67393f1d61933aede02c01ecbd9cd12929e48300e37e1def7b1f5;
0x4276737b519ede14db1b652fc56169408d4cc1abf043d8a9ce90a16447a06fd;
0x27b946d91e4453a4854c29cd248e0cda329d67a2ea66450d51b57f8b159df5fd;
0x2cdec054ad08c8c5e31588959e605ab5b0518517fd809d437edc27f33da7580b;
0x26e434190d53125fc7718bfae9f34f2124d41bb51bb2c23c37deea8407da3523;
0x519d0e4b6c1228368f420926c69ff37ee7dcf8e3dc45c4e95c821477d075eda;
0x2aae1f5ea6015e4acf22f950f6620cf74e7d7bb7a33ec09b372cfe562e5f2e12;
0x2ffb9c618799bbf03e071bca26d130a936a380f74f6e475f567adfd9adc269ab;
0x22a6091317f474f780d2c4e11d78e6eb875686f797f82a8ba7b3212879dd63ea;
0x79b093f80d89162556a653dbe714975928ba10cfd5f1d0bd47c0fea68f03493;
0x2741b4234834eca3dfd3ad4a3064246c4496defd8197e450b8416e4852028c44;
0x15adc0ef2ac09ba1689bc3bf21e4fa50141c0089d00a80225f39a8ee63ef0032;
0x168017fe19343b5d7d8476c0936a0870ac87beb8ef2ef9b02cb773dad72d2401;
0x2dc5d64afabdf089bffe3152fa2b290726cbbb4d52e3e08ab52b1876070a8b03;
0xb1e797eee3f15b88ce3a1fafec88da1d6329ac3c34712db570de886cf569098;
0x2631312e2a6d973442d5dd7efea28e5073c5cc17c878cc594e2c39dea7a51950;
0x1ae2f96df9a1a71be2965eb1f504ffe75742ff7f81a45df9086822ea4ff83f9a;
0x17a4bb48a247c563499f4b71a2ed4763c579ba38009184f3607d9b4b5b2594c5;
0xc9a0ebe3610863f0da6992f19a565911e14e72687f798d90b98f2c2b24bda63;
0x2f2731211090929d349ecff21490ef33747d4a402c8c1995b827292ad299201a;
0x9b7a78ed8d062af7d0ef55e464376fa6a4ef0de0e0cfddb6095156359825480;
0x28abb1d3e1bfd68df633d19408b66ec34a580540eb92794fbaa033f8eb0e01b3;
0x1e2014bbd5d2db2f97744448f2d57d1e27b6dfde486085a5d8c128058fa0e656;
0x25f9ef11d4ff48535b9301a31a5413236fbb50568745d44af96d5d307490eb62;
0x241b430c52d322bb0971e127e4e68fd3fad0a845f235b3e80bb514a00b75ebd2;
0x21b6603896d2fd23cfa9b8db8fd0e550decf29eec015b5cfd665313d91014bdf;
0x2066a222ed385ff7d9620fdd0343bc67d3fe9027c450917deb4c126ab9c5843b;
0x148ab2277866b9d0c72eab8df30a3abb6fab1610e164a9f2400ea397e0de92a7;
0x22b514cdab8e05d5b1289978bff23e2aa763565fe504c7e3bbc86069e0352239;
0x15adb32fd53195fce581f92dad1925b14c6273d02a73ce8a21e988944645e829;
0x26514ed0266951c35ca0ef8ce1de46874ec132fffec62807e01831664eb427cd;
0x24a1401fffe3c86451355add7ffe24db5672d8656cf51377c38351f1fef09a6f;
0x53da14e5e7a25894a0b0efdb05617d4f0922398022d656b13d24ac31c66838;
0xb1e797eee3f15b88ce3a1fafec88da1d6329ac3c34712db570de886cf569098;
0x23d4d5f42b19c73015c0c481446416d929469dfa05ec46df0163b835b30d08d0;
0xc34142c7d90f966770924de9bd02290f2a25d7e627ec80bb3d7ba339d0e8829;
0x15693ac825018e52a0d4c3aef740c97437e4dc3331d552a1c8e4b8a3c9e176f4;
0xc1d7701d2b195781d2ec69c9c91b532a326163ec4fa2f0dc4afcc58540acd57;
0x29f55706b8105e02770e12158f34ebf47fa7ef35f2ca62de699524be584a17ea;
0x15948078ad1c9f08c03facc3daebcba846a02cd92994d709ae047be01ae1c676;
0x1fff985fd1db0e045d0ac983e602592bdaadc7ee35c696f55da0bcad75e20a1a;
0x16b370312e2012c15fa0c6b9619f0ce24ff0586c10b4bd02589d2b7b2dae4eff;
0x2358120a60a01628aebf65fc72181ff9a0ecbee9ae148ebb4ab4bdc9b216e76;
0x2f1a1712d5a7eeef8647c7a32c2c9491c10ec872fb7a8280bd5f360a3411cfc7;
0x23b8d022a8e866d4095cac47c7ba7111429f6c08950a19de476ba2fd836b6cf1;
0x139ad96c1432a53b6fee35ecd66f2b9da8ce4bea3ebdfbd2c4a75961efe0d892;
0xd1a3762903cf32fffb016810eb11daccbff2d7dbd6b2a447ad32f810d88893;
0x1e2fcaecfaaa32924f964b021dd552cac420f822a0a71e37c28654221d472b7f;
0x12102994668f97d887812f0151144111aeb19e748eb198c3a75a9965176f8f07;
0x2cb68b7e634347542711e393d188b6fc2eb0f6aab7a7cc9177543b3ec6d7d;
0x215a89522290e4cbc142deb1584f336ad401aa76d058da586baedadb4c0b7b9d;
0x508c70de806cb78a62250db957fe5ed69e4c335b86635be74a068f200768a;
0xb1e797eee3f15b88ce3a1fafec88da1d6329ac3c34712db570de886cf569098;
0x3f5d10d3e2dfdcaaaf5d2251baa6e7deef7fe6016e0e33f67413b576e78439e;
0x5160b38288f77fe866c353e3fc4bdfaf39b54fb22c0361c6bdaa645131dcd32;
0x1a1f53585e77207de93ff07741144e90b6f8858f6c68d52b62c96efe319aae23;
0x2c48ab25015e0bdd2cebd18df7edf7766a28d757827818c284f15302df3d0285;
0x3001d8c6b2c0a9c4e7f80cb2688f909dbb1bce96b7abb884f405158aca90ad9c;
0x14ba759b81b8115d220b3bb5e077e597f805e30d961d02b132ed6d6dde416d8d;
0x2e3b3d96803a71c846f5654d3bc43f69edd66885224a46f6c5b67967cd9b0476;
0x1515804d3972a797545bfd5143cd3d3c2b85b18b734fbfa60e28a7d8024cb8ca;
0x2122b140a17e84a1ce854a0f924abbb7941eeb8af8831dedee228e4ed462e38;
0x1efeffb998ae5510b386fe1687a04b18411e23f5300e26b0dae71a1da6a16ef5;
0xaebe0890cab1a8d389ad98ac4e56b74e1176dde08cd90b0b69037167d221c07;
0x1392810e135502a38d126a0dbc2cf8d1977357dbefa4d84484d36a4a6e4c7799;
0xafe48f0248af7d2f35057667e79a08c2c2bffd8225b6219d94e785c41a796e9;
0x198eb323d5b100e891e9327f661d15848df9f2e3bc2e34692b0c644ff091b62c;
0x29c62456a430517fcaecf1a752a55dbf245a88ccd664e1c824da61000919c45e;
0x2817a686e5a15a89212dfdcf69fd15fa73b8bf0a5c5cd893372a7deb18d1a7f7;
0x12d401440bb03153830e9adb349d891ae4fd80cbbe414250d9f3c2d71448d93e;
0xfa1b160c62129071551cfdc0d384b81866bda034159475cd5107b92044b8157;
0xb1e797eee3f15b88ce3a1fafec88da1d6329ac3c34712db570de886cf569098;
0x3046d1d934cca5a2f7039907e78cd8dcdbb50c5e8cab13a78dafcef27ba5597;
0x2d724a2ce967f1115a32a74ee7cf63760165fc405621008476db3bb65b346b47;
0x6684ffbc3e9a720f7ac9be9c867f2532240fc9ed20c21430e2685abbae63ca0;
0x1e4caa2fe0f585e91bf011c1755396d39dcbc30e94aa4ae3ceefd381fefc0d43;
0x24a9509908f6b0a4aedc444647d1de173078d900d23e2770b410624472bcfe70;
0xa444eb331e3a9d4f98039f6d9a7a45482ad85d6e9d0917486bae82a5047f729;
0xcaac550d739a7699d5dabeabd3bdb5e37449e87f07b95ccb82fa742471b8ef4;
0x4e0c67a911f80f93720ce27d4ce2815f7c4f2e5d234c259fecbf562f863121e;
0x1ff8f4767dae471c0c2a4c2ef44275aaf07e1e155989a5ccf1e10537f860f72d;
0x2f6863db06c9adeedb84708e3b7c091cf44b4251023fe8f6bef72d61519e7651;
0x2e788ebb5af871b9ed5e9fab07da7b58126109807e5915e6f54d7cf7dc79199f;
0x2cdafe599e42909bc0475abddf4f10a4f14df5a2c0f429bef913ced315d116f6;
0x1b0a72225d8796640b16fec15a58e11d4be5a9a473d1337fbb495ad93b432f6c;
0x1cb387a29a3345bbf6cc407a81958e61fe98f7708f40bb8b96741f730c7e7081;
0x15ef88ba22652780eb14b3ab276c1dea798361f7631344cac3e771a16910179f;
0x26893d124895c43a1a271e72a5f99c4fa9fce6ffa7bf6c31e4926a4efb888e67;
0x9dc58192b21af8f6033bd84e9f5d696c602e0bb4c924f790b27df7db675049a;
0x1d659f67ea472288e942baa853889e47435056a2da4398acb9ca288c2404c7f8;
0xb1e797eee3f15b88ce3a1fafec88da1d6329ac3c34712db570de886cf569098;
0x17812ce47ed47b09cf9fed086e7764010e70afef63a806d9890a0c3113fdd15d;
0x5bc448e17449644d41ef38b762a183d1f9c0bd6f6008b4c902ca3fda45d9e4b;
0xb8f14bac67ece8b1f9a960f436bfc6a75ae541945689bf78b89e2d768d1b1c;
0x6e843ac5711fe5e7551ae25506875ba9eefc93563d15e03f15bb5d6e307b294;
0x37c5948a6f6dcdd4378f4e6220a96e4fc27c8fdb102c6f2fe0988b199ad2860;
0x9bb55e5908b10cca78ddac3e7a880cf469fc418c8b0ec0e2f96220fcddd983f;
0x549938eec4ef16ad9d89081f27be2a2c4af49ae918988ae5574965b506f0126;
0x13b4215b89af0652d5598eb29b34ca980cb1a1eb44eaff0e83ed8b6ef5c5cb73;
0x2d8f43577fb26728a6f2305e2f868a4298ac5f4bebf8419f072cf709b9bf6979;
0x58782a9e8860cb1b60314d2b18e437f36c169b5362e07575aca80c3bbcf8242;
0xf6ed9ca8c19eab0c5100e7dff2a1e4d09b3c2ec9e19a9aabddfa4de4903cbde;
0x11c3ba734cc607cfaabc73f220cc21f2422ab5e31d04818137793092015a1150;
0x1ecbe5795e0f92f55c9784d7687271c7f1d99474a4c9f66fa41618d17342666a;
0x2ed6fa55a83b01452c9e30b9888dea9544c10db14356cace8dcddcdb0a2fd223;
0x79287ad9db6ce54e8902962f53403735a76fb7eaf2fb92e8fc7e6cec890885b;
0x2e26aa5ce56c08151e6c8457e0ca280a1cd8117e7b4fe6895058b964859d73a4;
0xa889a87584a87178ad4b8ee2230ebc06301c08cf8407e631e71d6467079ac3a;
0x9c2891001f2a119d1126659c30f6123f65be071bf93729d2a76d9bdd41798ce;
0xb1e797eee3f15b88ce3a1fafec88da1d6329ac3c34712db570de886cf569098;
0x51fce24183d75c4dd506c99b7be05f0d326a972645730c2a76babdd8c7992f8;
0x1094ccf4dbff390c02df760b78ae8360348f9ceb187059aff7dcc1a3b5d9e8cb;
0x2d4966667b830669b5fcd632c6f3cee90687341f51653aec9f0214ab5db4a847;
0x1b6e79f0b003e313be5fc611155d4322d1c56f22957bd201a45b53854291012c;
0xc9d7ef70784cc153f1a325031dbb8dbac58625dc7610fd453c17cf8dee3b489;
0x2eaba31d2ad4b02948ea76ed4d931d5a42683adb9edeb564d065363190e766ea;
0x3af6bf9c7eaedeabe073487509937cd73b00a8fa5aeeccd8d4a9b9ccca1666;
0x24d4c2116faf69b99c84e389413f710cef10de5cd87c041669ca51c21f3b6318;
0x1f5cabd4bd22948e2c5cd975f92fd0850731301e6291fce364d7f5d951157b0b;
0x32aaadbc1decf6ecf33b074eb63f5fd75bcf94af261ed3b75e049d63dbc66ee;
0x194830799464f8ee702d72e41ac3aca3c4ab419b02428605b00829948a201752;
0x1a88bf75b55c097681b6c07feaecaea5a7e7a84c2d9b549381c51c9b0cb64532;
0x2c7969063d1fc97a8d063049637ca6ba63a6cdd9200b95c1ff1c941c390b89e1;
0x79a0abd9ba495c5859ff6e10ce393b50c9f04bd92a9261ec1ef7f99f77e46cd;
0xaf8f7e9f3eac9e6e82bc956dd7c53bdf91272cc7ae955d734c8f9c6a4e7385f;
0x1f45d6872234334442f08c99bce292c089d3f34f4763419d02ca14f24c4b1b8;
0x3a4a9d99286b1752d6cb735b9cd0fa27d4f1b8f0a1521d18d1517f6148b677a;
0x19484e61180700e93699ea2a7d64814841cf11535480dbde83f6936f5ab68fb1;
0xb1e797eee3f15b88ce3a1fafec88da1d6329ac3c34712db570de886cf569098;
0x68117f11b7f8d736af79ab2ae3328e576a95d12b637b944cdff9b5758499915;
0x118a504d77cc49d22cf454a7cb3d9ae8049efe9447a78201468e90ce576da872;
0x1e21ecd473c3deacf25a495ebb4301092012529381b52e0d1286fac898e3c370;
0x2e38b65fab0ea1b8152773205f8d39e6b81976426d0d64cf48cbaee81818ee56;
0x19414eb55e2b2717e2affe4f6a520a87977e938319b9b49d02db373469bf6ccb;
0x1f04b3026adc9f2f0995631d4ee83ad3910fababe4e78dc8b211e9c72084ce4;
0xc1cee5ac82b0ba4ac8578c934c415a0f2a50bc7521d2058853b0a59415f6f72;
0x1a0b86be3ba0c37e5fcba4f8f33d0af3333cc3bfb74aa262d3d484cbd60fbfb9;
0x277f4d465b4a3f950592907b651c5ada6dbad43f7ad0dfdbaa4b5c0edbec7e4;
0x2cbc8485f96542fe22965a7bb768cfcf79f4cea845cd70eaac0f6c383f542fd5;
0x13b306fd43acac725673d286fbabe249cba9a5194a6b2062953b75149f02cd19;
0x19bb715b15ee11c3f973eea2656300c00d6d96576c3724b070f38a764cd58add;
0x2579c1bbae48a8bf9c43de695574e7d4576c2c73358b18dd15a1673528fa4d21;
0x29bb732726698d3e98745354beed55ada619a0d0e5b8d05cc29f0ce1bedf01bf;
0x101b8a972da8e777f74c68fc481c37f0b999ef0df3c90b6505ab2a6527c95d77;
0x28d282b4a80e8079287ad62249731647b36221be836c246e9176c6e243623602;
0x30f5a91d4bd3a7a00ccfb936619a49c9cae07fdd02d5f7281ead5ec765a5c68;
0x23aeb8d675cc85209a4f47d7ce9374c6dd1bdc34caedd947a05836f8f3880cb;
0xb1e797eee3f15b88ce3a1fafec88da1d6329ac3c34712db570de886cf569098;
0x13efe2b7fcf22b13dde356329022c10caf94d0a67e448020cdf70a2a1bac2de4;
0x20116d8a08ef558a247c6f5f943a982d94b63e8a1580c81a049ae62db7550d8f;
0x2d082ae4142d9cf00383067665261118fc20b41dd5e3844d95d283ee935fd9ce;
0x103520a0cf36cd976f2243249d25d74bd11b4afad705051b28f5677e7726d5f7;
0x1e820f7db38b24a06bbc3dfc78c47d040c9dff7d8ba0160b522c6313c107852e;
0x275832ae1f1cd86102dd968a76e57d3df95b5c1cbb1ef28dd38fa2bef749dec;
0xece66ec104a392cd7d1e5a11f16cac7899588ee5f523b93f779b80f56ee42a2;
0x174586e5d012f172439b4d437e58dfd9c58e7d29ed659a7471f0b80151dece5c;
0xcc17b4f871cb91bd63924098c54be2744a3131d8a9ad21b1a55069f005ba35d;
0x24e6611ad441830b7fc88414d4902bfa9043e60933a6d1ba6e12d6795c3c1b37;
0x9392f480df40275b9d639dd95f8a1e0a62fb3b162b41efdb5625c90155fd3a5;
0x19fd18a6a69d2e9327fb48fccd6e0549395b2c9362af152d9d7e9901c68154ed;
0x174bd47eb0d06dcc5f5121b04bc3c61e02a262ef3c77f11c548b8f2580e664ff;
0x1be5877032c20df6d798e8bf265fe511739db9d9b1042b2a9843a261cb5a53c2;
0x263fdff0aed026e3b8654e2711dce2aabdc81bf44695f0a6694ec29174392aa2;
0x1f71c71eb6f683d7b8516f7de5b5f0ebbf0a581077fde56843c0dfaff80acad0;
0x115b998963794a6c504dd65e1b7d99ff4ccfe24b04462b5788cce32861eeed61;
0x17f43dba64c1eb81be96ed641cf7801b3a45c614ccb85daa14a8153d4e57e6da;
0xb1e797eee3f15b88ce3a1fafec88da1d6329ac3c34712db570de886cf569098;
0x1e1c19e05021208ac3fdfe2d3f116c8e72ddd60fb5530005656683f528bae627;
0x2596fa2a97ea6905c598c64a25768fa5bde504ea3004705ada129f936ed946ea;
0x429be063b1c6a85e848627ce4bdb658eb148f89887b08e4699f37e1c4d63888;
0x2571cd3671bb7bd7b52cc19e2291572e4dd8f8d077e295a22907d15cec049643;
0x23e2edfaf71fb3796d9f00bd618d48df5454e6edb91a509d173c431668c494c;
0x1a9b4db70aa7cd04e33a10c5f4188b7b7546ddb4b4215611965194caec7d961c;
0x115d0f27b177d1bac2960bb00feb3be427e4e0184f8f6324d0a06fb47ae2366;
0x24158958a69587f1c15512552045620f1fe1569c9f3e3668ed06dffbf0a73686;
0x1c6761dde78638d734eb9eb1a1b33a98cef7efa4255fc3662bae703182c01fb8;
0x2750d8eade4dae97328c60a645fd3c8431d96ae7482a818b0ae3b4cc46b9bdc8;
0x1fd32b82dcbeb8c048e9269c2e53002f6b7fad13aa737f386a6cdfc1e2c5a9e6;
0x594fc59fe25d24b2545c6650795cee8ba30d2ae04dd07b5d676b089ddbefa9c;
0xc84ab77e8af0ba2da61c55b53cf3534e766735740836aac2427587fbea5c8bd;
0x53cb97662f38bb4b44b958d4ec02f8c25fcc795969bfb079e664b87cef93dff;
0x1603ca0816ddaba4cef9853184cd3a94d6c881b73d2d6d893db88a48c3de3447;
0x18ea8dd9a27ca4410a40bc8becd0b6d42338881ac4c31a3ba7caa40cd1b56131;
0x1a527748bdf0057723c86acbe4909490d3e2415647a82f1461a42f3296bf4c07;
0x14175f91c0ddb823543a0167ffab7bd8c50273090aead801da30b25f4550584a;
0xb1e797eee3f15b88ce3a1fafec88da1d6329ac3c34712db570de886cf569098;
0x25f932ba4af84ae43ba5291e604cf8ca5fd208fd16b78c38eabc57286298d557;
0x25475d7d649f8bff2630d97844bdc0fe8df6efb89baec75e5ab9bdba2777d431;
0x89f1655b69d28450d05c9dfc610305d46a77dcd50eaf28042ebc878caf30d5c;
0x123980c7cf8538b96942135959a4af1708aba866cba105e1f5a382e9bb6aade4;
0x78cc219ae73e2ecb4025d0e0d90cf09f82f948a63243ddc062872b1070b6b30;
0xcda20a3684d79a2e18078fea3261650a2cca213f705b56eeba2949ca203b816;
0x21b9c66d1190ff2ddb30db322ca2508d231f7aaf8f7f5f5b95bc1711a672ea6b;
0x22016741afc2d1ee9549ce4b74318bef293bb2b2d6495d424cdf700060dc813;
0xd722902b755cd16c7977247cb28068a616adeaa13c00b1e2ff628c892bdc6d4;
0x217793a53d0ac28751e3fda8caff3f8003b084c474e2458cda30330e338e22c3;
0x2d31e0c6e311f327b0e780f291a81e25aebd9660648b0ff51fe8851d29671cfd;
0x216d14211de9aed77200602ed78caa665a310ee03fafb5b993ddbb5ae2230f83;
0x2681c24a56759b77d5e0a7afd37d286ae3422745564fdc15d25e0dd158c9f4e4;
0x1e3b6edad3fcbd9d991c34f5e4d838fb76c255542d27f82d58989912b5bc7dd2;
0x2eefb7b5eb265aa610c4356f2282dd92a03744a1b8484dedb115321df7518c2f;
0x5a848b35a8e270224242f52686cf785d9f11ec3bad27529c02f6448a432ec41;
0x9ff782048c9d9aa8690ed707e82164ad320e1daf646a3b30421f03dcf772423;
0x2b294de4467526f4914af8f9895903124f2a91249c23e8d012a04e3b6fefd504;
0xb1e797eee3f15b88ce3a1fafec88da1d6329ac3c34712db570de886cf569098;
0x27d44f13d66a77a645f895ff821ddcf8cced8c8af984dbb8cf82b84653a5db10;
0xe50c72da36c1a968102edf30c6b810795d41ce41c49783028cd0830acc37c98;
0x2341aeac831f989ac84a00d127c0809fbc0040495ad77e1d1f589cebe120904;
0x2071faf6e96fb5cd4400b6c58eb4ff5e527bf7d9492180bc2f4534cd0ae0679f;
0x14da2ed4e175cc095a8d68ac6e7f9e2d702e82b1791204921bc4806b157be02f;
0xc6232c7e84ea35400bdc0f7b8d0cd211fb5186df1fe8e927bc51ce0247d13cd;
0x1f65c4563e9f61ed7f7f2eb3fedcde581ad3b660c5079c16e7ddb053facc5396;
0x144675f4c54bc33e1bd7aabe8685c740738cf1c7891c5c659b07c6281fc67a8d;
0x14ece2c3c47e0435cbb019db4708ef6c904b4af975d729a0fcd75e65abf744ab;
0x118f931e904fffde6ba4e22eb0429be857819f9fd64f1273253b3f152fa18b0e;
0xbade4f966d523e4656c44854982d4546abfe2f5dec203a45cc463da1093ce09;
0x1783c94f37d6d9057a1c2e78e0d0f78efeb161a14dc2107a21661829f135d226;
0xdeaffffd0feb209c00793e5f800761b5419d8725f4c88286eab224160ec43f1;
0x8746a72fb64c2cdc1ef14613cb535911394a29c802d4a6a94cfef844610c609;
0x4882711fd9c5508fdd0a1ec5a2a0810b93a6cfce441a192047a827f58ddb2d3;
0xf2b738d3eb3b803bca325347b7af954cc10492832479183808b3aea72435c2;
0x2b5d5eba00e09e21bd9202d72e53306361608eddc951ac1f08a53dc3bc6e955c;
0x16d96e78a6078437404b5bf21aacd5a43d23ddd5bc2172412ad36390b3ce4512;
0xb1e797eee3f15b88ce3a1fafec88da1d6329ac3c34712db570de886cf569098;
0x2f6fd52b25a9485df2878599be34808517d5eed6c1d83ce497e1a9ea8d1c3844;
0x2f0dc0c61f11a53d419b3fb805fc2d476837c53c1c990c66fd1539ec9d2e4e44;
0x1b004ab51f77388c427453263ea600792a6be597e6f736509c2dbe87d4a298b1;
0xa690789ef915053a2ed12aa90a8621340337bcae525139c9e1ab973e1bf8881;
0xc925171c7431dace3626b7e5036dfa622bc08747fe849d6a6ae5c831143d104;
0x27e2a355bcdae99405fcd39ac25b9ffe773ae5b0ed9a87a9e470715fe2bc271;
0xd44cd56f0210228281e116260bc8aabf64fa0701601e98781fbc6b14faea9ed;
0x1ee8d9f2950080571a9605c7b454c3480e64876ad27891241b8f62d71d6ebfdc;
0x13edf09ae8addbf851e00d79fe8b990277b431d72ce0d9b48b55e3095b483bfb;
0x1d2c7f3a44dcbed040fe5f5dabd49064622c34af68c5b4afecf631fd998de93;
0x17e04fb5f49c12a6a91bec113708d943cdc774e64c6ec431bdbda3a6c1c0f57a;
0x21d9dbd68c54cdb2ea8beaf7de31afad1cd404c478c62e8f59653895909a18ba;
0x276950c5f6c44bacaee68fd94f14a44a07a0033515b10a76203ab2b12bd60440;
0x2ca5b12a8ff6ee0156650ef67333a07ff08b156454897b370734c4b98977c6d0;
0x2379fe3fe77b505f5fad59cc93f5fed7624e99f5359c30d56efcd0915460668;
0x10e790cb3f6be51c0b4fd7f6e29519bf9bec842ac6e0f6f5584d5cc1431b5c56;
0x20a94567158dc5f7b21cb0358dfd6fcf75abdd806b150bb4ef55756701d568ec;
0x191a6a82b77415d9a305c90b8189e93ad9d915a411a544d0fd090a157113d557;
0xb1e797eee3f15b88ce3a1fafec88da1d6329ac3c34712db570de886cf569098;
0x2ce2a89b4c51f97166c6adb43491a88c24a3276110055a0deac88f7e71f976b1;
0xe85242efe6b78087e6f76495c7bef828bab7776b3b6f5b4ae77b9a3d854933;
0x92654dcf9e69fc2da394139bafb0592b4cae24d00e34981bddcd4b089dd948a;
0x152d35166a3e900ca89d58fbdbe99caf3bdb1f984deae8e02cf703dd55e78a6d;
0x250159b61c5e545befaed62a349cd00e1fcd3ea588f29ead5deb675a0101d936;
0x1e66442753c8d95188bb9f59bad17a6ab9018f052ce8e1de58790b59bc4cd7c7;
0x1a91965586db156cc0d4fe08208ea762030e390bc498435d3a04d41b95e854cc;
0x205d22ff80ffd23060ee1aeb5050c709a63a4eaba0847ff587171db7d9ef27f8;
0xe92e1e54bc59e642a77b5333ddbb2e15594a1956a3ed0e2605dbfe4cd29dd9d;
0xecb39d5fb42dc2dc2f2b74c13e24307a1f3be67f35ab79b0ac974eaf4a0c41;
0x77aebae118635d5a0e0160df4961f3c5b796887d878ddcd2688fe1d618150ec;
0x2d0db6e2eb4386d10a3719148038523ebc7baf66dc538818b0b5d843002e07bb;
0x1dc7e3849dcf39a59aa7a87ef122afb09009aeeea37dbdef6e850e57ea37f604;
0x97559815d3b62c28056095e39c8b1a8e366bb8aa42af85f673e45273d0ae1ee;
0x7e08fce9a5121c2188a96e591b92b958da520778ac0bca67b59da2b3b06f0fa;
0xe3d58fdb4543949957ea33bd03e3abbfb109a1691de6696419d4b1207f542c;
0xc991fe43818ea306d3b776847d14f4019bca2070d200e07735c62da31a3138e;
0xaec16bb8df541908f11df6a64c676183c76bfcaf7748c503d6099acbb3f2a9c;
0xb1e797eee3f15b88ce3a1fafec88da1d6329ac3c34712db570de886cf569098;
0x85b7265354e883298caeca1761cd19e2c5c2119b36c37d6f5d666ba8ecbf19f;
0x10d7d5e67042939ab9d5eed4d520c3fe081f9ef97b3ea8f7ffec5d5e1889e031;
0x1cfac1f08b7bc16a7482dede1d624a8637eff2c6f5b38e5fbeda6f6bc5cea6d8;
0x6b10274305c15e9adb7f7fe7cdbb4071c1e4968e46e461c6642a861d0ee68fe;
0x2cf401be1c32c95cde4ebfc65cbbea9c09f9632239b314f53acc63bf37d86a56;
0x2fd0c9ebacd03258bfb689a7a700d43b1fec422b22299d73e478801d9533a36a;
0x4ec21b44c21c6c358789f92b5d126597e1b60f05050975b924cd7042087e630;
0x2d42130581a19be2488f98c4473e80511c275be79f5077db40b74b43881eb4db;
0xdf73be8b64e045f882edee4f17e9da2c5f25b2859e904595844adcf3df8f7f3;
0x1b05101b32ca2be2837624bd01f437abcd43cf6c4b561052e0e6df3d5f0ee39;
0x8a4f42ecec6f626427ce116b20f3405898759d0531091a87936427a99d5c919;
0x67eb4a3514d45d7e6468f85a7a606eb86395bef7b23018f25e133f7416cfe65;
0x3037c22112964f6f3d8e4a607f1f35ee562d505e4a22fdf24b41e6c03e506785;
0x23c4745c095e5970dac166326b875df52d94db0c9456b5afb55077d92996a8b6;
0x12ca85b142f5d2d2d87b44b4f190810b0a2ef1cbb96ffb43fe4094ac0bb450f4;
0x262501f3e02e6a5c95bfcf11749917b22125ff7d02ecdfdadfa374a45173c662;
0x2c3ec00db9c8e44aaf94ea99dae52f7688c663f0b42d186fc1d030813a4ca1b4;
0x120aa50356c54653eb5399b101bac1eeb8d728626800003f8858a183cc1320f5;
0xb1e797eee3f15b88ce3a1fafec88da1d6329ac3c34712db570de886cf569098;
0xb6c1dd3d2dadac79672ca69e272e4dede9b2bcbace5d12db15fd6c855bcc7f3;
0x1dc5cfb71f9c9ff08886866b9270504c330bffed807e5f608839afd49bef8961;
0x2ba9c16f49734f3bbf98296629f2a1a4e6d1b10063193206528ea39b11869cce;
0x21c37ce612e1b0d5fcb0271e20f27c062dd81f2c8efabe92c73f54d87aeca299;
0x29ca29c57a516f80006150ba546d332ace95854d3dbbb9ceb57a80f221f45b75;
0x9644e84f727604d62f2d77c2d5c1897f8b90f362740a8c6eef25ed898e18ed2;
0x18488a89e78505a807ffca282555f117bc71bfbbb9443d7d06e3060d9798728a;
0x17f99a49abde27c74d8fe51bbc0a223591121cb9c0efdb32a6ef4bbbc976049;
0x1106936fe4d91cad9dc00af8b85f8dfdca9298ac4207788a47c97ebd5adac9aa;
0xb19213f24f13dd43d620c6d4fe77574e3ba66807d606f96055af06344a953cd;
0x284fb79d4b5bdeb823b0a7e93566380739c2ddde6f2c1cb102f491389af88601;
0x2bee8122aaeb513f5cd47546f15090cc6730e39d28df08a9ef4f0726dc69a1d4;
0x109712b4385f9d1941bc8ed4cbee06fece38379f962681ff1f49f2c7577aaf01;
0x1cee8dbc9e7c22eaa815aab454705b2c2b61ccf56bcc5181d8eb9acd08a4b708;
0x123f9868d7ebd3d7c576a79f4bb3f0f6f8466aa50c642b2b8fb2938b2533acb6;
0xc0fbb5f96f795f870d7a4affa961ab0a80a95f9814f2231debbe27352088c5a;
0x3b268cc3e3aad22d4f8e5edbd7c5179e219201ba62987e3b4a5aa484a30c651;
0x2e3ff582310fb1449330c0dfed129154d2f8aec3871d2d593b73926a70d8e5f1;
0xb1e797eee3f15b88ce3a1fafec88da1d6329ac3c34712db570de886cf569098;
0x18b0d069fd19a7ac7776eb39fd607c75bd860a3b2fa17f90f1c016881eba042f;
0x12f75e7771d5d27c66ce2bf10cc3e3d6d542f3d39f1847e2fa726386ac83c28e;
0x107b04155a7d9c1881def05be1797dbc8018beb8fadfc9935e569e2f2a2aa474;
0x17318bbc96a3594382626c795cc986dd77a81a983bf0bcdc9aa59e6d71a59;
0x132974c4fafdf621f1fadc45daef9bfe5a92a1b59d33056448a125ae2654d20b;
0x258538ea87a962769068037de62fdd272eab79bfd68489fbbd478a7cb72e068d;
0x2cb1201c76a7fa15f79b9ba6ea261d17e0b62c2643709e0f984c937c42115e2c;
0x2e65cfe91bdd49c663d8749f335176abaf6377f582d48484f6748e24cc816647;
0x2cd3d763fe99f1b6627e6352b95ab5489d191d0e5d41df07810fd7c52b9db26c;
0x27bc4a5ea2a66172650286cbea4ff02ee1869e854ed4fcc270c8679a38cc8ef7;
0x88ff579628efad419d54070c10f57b7e69348ae96ad0fd68b5daaf303ee96da;
0x1cb43928e58efb24ee214ce17d29752fdce31605fe517609a60f8d2edb3ac6ca;
0x1dcbf79109a7193b75fd86b82c1590b31abb899d0fc5da91e43fe9cefbe45a4a;
0x2758dee8dc30394bbf30a412c6dffdb1c7b3c1588f4a93e9620db80265e128c3;
0x18d1cf4a6c8482ec7330af0eafb66fdd2e4289ddfb61c36f76fe87c3648aafe3;
0x2485597cfdf560f34e11989c881799ceb14143e0d5c4de20ee4a407904cf1e05;
0x6151f2ab033782abc7bfd3aaec47dd9c428681acf32d745e37d0be4642aa764;
0x6d2e5ef950f679c0195dfda3966ed8f2db4ccdea5739731627c012a453a9d99;
0xb1e797eee3f15b88ce3a1fafec88da1d6329ac3c34712db570de886cf569098;
0x2d3138fdcbae36004b71f47afa0ec092b328d2205d4952b47e9c90f286787d9;
0x1c8e178d93f93f9cc56b13c437128dab31456360dbe2415edc316dd0a4cef579;
0x25bea2246bf9516b6fd6299407d737b445cc6e2f158cd5944c194852cc32956;
0xffdd4b3b72bb34089f3b91170fae0a6560efbd23ad5c76bea5e8ce46b7c9f3b;
0x7c622418ddbf99ba65d8ffe6296f3907c1589d4ea2087034bcda1f7c52218f5;
0x170dbdbc927d2213df51e928d1288f1bb989cbc074537cf64485b5ff05ab8f0a;
0x6111fd3b375eb2fe504987aee580cfd1acfc7c39cb7a9171adedaabfa2656a2;
0x25b706a850ee172c03d98a8a1a04dec56d264d07d7995a7bd3b50996f552f9ea;
0x13a5b2bbccfed9c5c5f846496df832e8b3166104a183299b87cf2e0dfff8964;
0x256b7b5635f25f506009162f09e2aeac9a24a22d194db0987e9e0196bf805ee2;
0xa0d91ff25cbc2ef3a667475f91299ee679bffce4ece8eadf3ae0e86713e6c4c;
0x1f799a5f2a9fe2846d8fcbe9fef4004f2aab2cfbd8380486985787f9e82f739c;
0x8f8a5d38982c8c9eba1afb2d463d9b87cb412064271a6d721823ba76b13786b;
0x13f2f9a571f61c75b4485d9f3f74d84222f1d3258f5446e9afb9d82bbccd5c5b;
0x1ada050207bf232b77af0445cd3ad24ac2856a32df135462c196b718a4e2818f;
0x2270c97bfedbe3b54bcabf5df1b60fee20cfa8b1dda8ba4c832b580d71930c59;
0x17e429879da51390e1253592134df6fc0e6149656142baace891a5ac0b3dcad3;
0x2ca1a03e86b8e8d2cdc32f998a9a2ae3d604104dad81ce44d7b70b7d2c147b1;
0xb1e797eee3f15b88ce3a1fafec88da1d6329ac3c34712db570de886cf569098;
0x179e9cc5ce81c3b957469968a01d8f4155d1fab43566892efeb4aac8e730bd1f;
0x245436e222f18f0a95c5edfdbe70beb3cee0bbe4357c0ad27ec637b8276be10b;
0x12082995e500dde2a8f5e3db03cfb08fef2e717c59536b6a48a757fe897af0b7;
0x1ed351a76be7e560be38729f4c221d52e1b2e6b1c9a9906925d9d7fc659af29;
0x22cea0520bc1691068292d1320ab844c4ff641bd0f3f8b3bce4e50b5302d4291;
0x10d8cefa20bdf64f680f9f65e2f7f1181485743849125ee5009bb535fbd6737b;
0x7cd86f2f3733907b2893e812f536766b45c7590516b8e0da820af563de5053d;
0x18f7e2b8ed7ea1c7ccf0675a588747409ffdc5e0d9a1bd80b54bf47833ba43de;
0x11ad65aaa14357d137232ee3e2460a65310bfeba447590580d165a80bb87bac5;
0x149ddeff968dd3e4873a88f82aab2252e424934d62cecebf3c05e04101232c6d;
0x216e4879dbeb136adcd2e2f9c79d1a899123ec8921531fd19e8f3db769e9b9a7;
0xb32ffdc93ba89e798035496aa0f0e5f35173420d9605df5c29176b9c8fea9cb;
0x10059787e4b7b91491cad89e95af648197aab657bef0347224aafea1bd70f0f8;
0x11feafbb6d30aba9905fc46b2cfa8bd5a1cd6685c3411924f652003f98ce61f0;
0x18737f1b8ed644fcd203182f9f71ec606dfe5722848319eb06addba0862192c2;
0xdb96451b25bc2211c315c94b7396080febd132e48883ba5be7c6352454b2531;
0x14a12c8868c6998c77975fb80588dc50121cb3fe9070179f48ff086ddb44cbec;
0x64f7699ab015d1466ce5ba0fd8a92531c592eb91011e024e3a90dda0d38d3c4;
0xb1e797eee3f15b88ce3a1fafec88da1d6329ac3c34712db570de886cf569098;
0x27370d48e084e132bff2e3af0f91f787a9648ebd4fe7cdbc1cedec26c11cff0b;
0x16f9385f9edfa3dcc7c06b94ed2c0d8609451634db5a4e6e1997cc144e1415fd;
0x148bb2cb914552eb1ce755beda59e784541d31b0b9743c10e7d6d798afcff7d5;
0x2e9181388b5eb930247bb3bf036adace30496887c3fe5e51a08501a57834d778;
0x45e39ea727e4ff254ba2593f698f79e8e4b4f538d1b263912ba9f0d572a8eed;
0x1174f11359628820efaa3cca1f5f19974f475fd989692911a7dd59754df86a59;
0x2ed2ce65b2ae9ab3e5c33366e50e7f9a2622b21df40b38e6f0606ebbd6399143;
0x14a902e483b773bd59d298c316ba79c4abb6bf6e625312672fc529ad2e1334af;
0x1e68f7bd5130ceb11d06b8075b2da5fd09c5e2401fd816ccf5e6b14f3ce77b4e;
0x29827cb7a70ff0095050678d19f2eec6994c2db9aac20c2328029b37cc1d94e;
0x18b67ae206c91b0907dd5cb14430d2d00b7ca10382cfc464c9451accb64b3da1;
0x1bab9c538b70fbb24712c9c9fcb250b2725138131fc8887dd31c0ee10d7853;
0x1bb888723fe04304ff56a7c1aaa2a13edbb8c6d9b84c95c34cfaa32c44cb18e7;
0x15b938c5888d46730f0efb92f3829ee53afc9b4b9b3e2a58729c31f21c078085;
0xe56668d5e18b59ed8afb9f3b66f03bb0d8d0be49b2ff0ee4cf05802a6840a2e;
0x286d890c9e0b00dc5a3185b312d61f861935f4cf230267dd147843d085cb9814;
0x169b367b1b5b432d3e5f13374bb46fee87ebddae52745969b4d80b371a52984;
0x2616061981a127f1f90517d00c67ccf537e6a1e60f76e2c18ceca5b4fdd39ac9;
0xb1e797eee3f15b88ce3a1fafec88da1d6329ac3c34712db570de886cf569098;
0x2505d3c4eb01aad3e3759156410967fcb1309f9028133f32b61fe8dca05e7039;
0x6582da47cd85c00d4e318a61669afe8e1969d2c486e76ebe01968bc21302418;
0x41b8979d269f6ec28ac184c5b2f02af58c26351c6cd943cec6adf2369cdb1e5;
0x1443d53abe81ab259cbbe0494e98dddbd8284c1145321c2fe24b0fe672cf9115;
0x78377bdb2570000965c2505997614b99e6affb63d0f8ac1d8909ffc8c2b7826;
0x21343622cb874753f0d2c35633e7877c6f2f35247f080a1b0ef7012721579271;
0x2726e864c23bab466a4e2e9c1e6c90bccce6114a31f4283b8a87be3eefbdac02;
0x8c3cb7979e51a25092b8e3667b5ab696327cedf1db257537071a718d7a4a347;
0xeadc7f0735863ae63f6d3a2d980cca143ddbc94203075b1a9341fb52b54e7b6;
0x302733698edfe476ce1360d9dd8885e2fac48f10fd9b6aa494ccc84663016071;
0x390d135ec3fb0cc6bebb4ffd755406169d4b71ab559edfc3d03da2739f99c35;
0x29814b855ae75985f8c5a6475383bd701e5279d430aca51d87671614a2eec37f;
0x1c8271bcd402c844d59746fbb8c809265247177b175fc929101de73f741709d5;
0x2ea7af5aff4c8335a4556b1e621c3fb76e507132971a4452635d76310c241990;
0x3758c3722cb764b0eef270fb45c6c76b9d03816b0feae879a3436fdc9ba2abc;
0x2122e9a87a29841216a1c1e5dcc02363eb1185edc68f6eefdb38fc43454b588f;
0x2e5132a0aed649314c6665d51926a7a15bdd6a1a5c6f5134faf96d52caadd140;
0xaaca5b7aa27811dea3376af9fef0cd8275e8f98e235db83ab1361b4c49a834;
0xb1e797eee3f15b88ce3a1fafec88da1d6329ac3c34712db570de886cf569098;
0x203898b92bb3f8344f220e9f0790ab77acd669b383111e300fdd94d560eb661a;
0x1d55edcfada4cde82093e306a8a85e703e70d62f77f83aa4158c7ae06558e2c3;
0x1c57ec21152ef1becaac482ba2cd28adce9bce68434b291a73dafad3a2a4ab1a;
0x2c77f75ff6857d39dc5e0ede6ee9b6574764e4ceb3d2235aafaf9d8c296bd1fa;
0x264024c571ae242f530a593ade47778e04de4fafc1998d04196b3f8dc466b672;
0x123a17496bdc1d2ece7ee0ab1632b43c278328056b8609eebfc76de77780e8b3;
0x15d806ca8c7a7c727e02ed3aeb1210453d4d39cc3f2d188f421b58b7fb9b5fe7;
0x2938fef22503472ffde7a36b04c4b36b639064aeb9d77fdebff756e82ed8e6f;
0x1d5bd19b2c05765e3c4b83781b4d0037fec97bda292e3167002587051efd0445;
0x5a5ea7612d82dbbecd031202c5503ab73cf5ac0eceefea81ca45697ad5dfbae;
0x1dff1bb202e9a71287d999a4436ab81298e44daded91984d6422477266da4fa4;
0x1a65f01a835cc6df08fe1168ef8dc72e04f3c84bc4129d8b1c57c7055fd528dc;
0xc6bfebef542cd78b44786f865317d384a64ffabde52f6a5bc29f405d3e45c49;
0xa06a55ed8f52246944ba9e1b351b0f04e95e8e3c80337f7bf4c4cb3682ccbe1;
0x237af0b506f0185fc81451144bdf3ccdf7b66cbe1ad77e2ce4212f62d6271006;
0x1d6b421f3143a560e5066eca69e6939c13cb2fb22bcdbfb96e8d55af76d0a7fb;
0x1ea4cdc48eeb87bdc70e034a0ee1ce699e94b5b1126776f3bfa43c2facbcaf12;
0xcfe1b82dde8c5eb500403f5ddedf6165106b28c70cd941f1b65e49725335b68;
0xb1e797eee3f15b88ce3a1fafec88da1d6329ac3c34712db570de886cf569098;
0x10cd524d82fe05ba307dd3aab96a838f6b1fb98e10e284ccc8f8b2b9585a647a;
0x29069f8a102d5fd5db23e1e81b42867620f6af7e64b36f7444176a9febaf9a1a;
0x3021dd41004ec315704a8d77ab12c93d89a3baba330666cf8b96cc8042eef1b6;
0x173dbe8f25c7fa7ebb28578e0fd3103fda835507d8b53d905189757d6638eb50;
0x1ec7dcb5fd4210ff0361f44b48f4818dfce283dcbaba35c96d77ec9888f43718;
0xe52deb0da59b5f92497e0ba6a2a358342a8d731ce2f8c19c8df9d58ecd818d7;
0x77276a2ab3c0fad69733ad1fd53ca148350ba77681b6bc98a0cc52bed3ee671;
0xe62986c860d75a4502cee8d7d8932b7c77a9330c4b0884cd7152383cf21301d;
0x1977e4ab4ef72d06317496905d6cde467a424f82f7491ade88b7027645c05600;
0xe5fc86e5a4aa5897a6653760a4e72555f0ff79de77d4de9f5aa20db5afbc65c;
0x133c080c57426c50ae24fbe4145ecad201b964fa12abdf7ed16ba45bb76c0d56;
0x9809f0d9404684e91754565e4ed714b4853b2dfe29e44aed4df3df632f9664c;
0xb9ea2ad9eb74df89ef8f3132245aee0f0d0b3c91975aca7660071a8066b9fcc;
0x2bb6bbb4b8f9011e6167cefd64bb4874f6527a7eacdaa10ef403474e332824eb;
0xe7505f5d74a168934234e8a83b2fd267bccfd4e6c79dd64fb024268dba03ea1;
0xa96e9aab6d37e9d1a4d3e0ec375ed16cf201f7bf07d2db66c43d48f7dd06d2e;
0x19109a9f6cbaa378475c1ae70ad79d2f83100b33653b9a16bd84cce3e651616f;
0x2455d14dfc4e34f8b2f0c411722c66ec626c1727fc695abd1c849780bd746a0d;
0xb1e797eee3f15b88ce3a1fafec88da1d6329ac3c34712db570de886cf569098;
0x2720fa35b76500f2acefffd7ebf331c17d96a400b4084b78253e3284f942f855;
0xaf8af05904f43895b5e9236f1782ff4338cdf90b962a3ac0d086812ae628cbe;
0x25f57c83e4d1831829078d17e98537d56e3c3ca16318f2792b71a07055b11f8d;
0x122275903e7cd0419e6c815909fd6b655ef0f3516f9c9767ef7c7eb3d8f22465;
0x20da2a3fb1adcba29246bb19e16ec3a9f51abbd59aadf30737ff92b8efc61ee0;
0x1942ef506c145d9b15ee431212e1be7bc2861b49e7e68c6ac9dcee40344749a2;
0x29c8628087cf8197c8538332d6f0253bfa46480244ba31e30d23704022f55a13;
0x23ec0870cc4460faa687538179bbb9f395a1715195e86a6bb5240d5477ef3193;
0x220e9648212c6250017065d86188b9612f73f9039803bd329ba7040a9e53f14e;
0x1e424309dfb1a00240f4dda0e4ddbce8f4ff4a57017fe888e78790e7bce6e92c;
0x22dc20b39997ba1b40288caabd9dfd3e9f9dc4fd7bcd9fd11079bd602a2fe535;
0x22275186225901c11a65a53e0a89f199541fc1212b4e96aa7bd3c5bf875ab52f;
0x17ad868f1ce516279d8d50fd809a1c40e78010418c7aa4ee6a09f9b523a2a61a;
0x27dff28396bef2873c44964b33b30e44b27a8fc1d08a09175f1cc9641584359a;
0x9022e1272e97e9aa32634bc3bfc10224a2eed161b9b60f101595f8df207cff8;
0x10e1f1602cfc30dc4ab3920be41ec7daf5bbe3d96dab568aeafbc350c5ee934a;
0x1b1aa6b279c2a5fc8dd9a622891bf4878aaed7122fddeec0a20bcf2f9da868b8;
0x283b86d8cbfdbc913ffd3849a5e70f92b69f5f7917a0401db92f6f1ea11ef2d7;
0xb1e797eee3f15b88ce3a1fafec88da1d6329ac3c34712db570de886cf569098;
0xd21897ac3d9b9e3be9e5d182d1ca0441cb3b92776df8798362a4bb4035aa424;
0x20b3d4db18dd6de3efb359c8e60c86f1d21c20e7a9f1dbe67c4505ee7a3bdd67;
0x27db9f494aa78c119ef8358a8b122f4aed87152f92391ac9d187f9cecb07237d;
0x203a42bc685316f63fe61c9146a7426525fff758fc625540d9ad7a5602c6cda8;
0x2786086cb07a5e84a7bb5516818a0139fbbb33881cd289a36d55dda334f0dd5;
0x17197184f893d19475737bd7202447e5ef385d2b5f0a5e75533cbbea61e7d791;
0x505d0e83c6b5bd0ba7da5059689f8f448b27321c23ab4da273db77c954d55e0;
0x167393ca748cc53ebc1ae07b28ec6a3a2f0d4113b4bd302cec7c0b398a48715;
0xd479338ab58fc837c9197c0c1c5a3ec515cc52a1a9b2d42b7a3134f2fa13859;
0x21c2423dd4c9fd1d183de5619442f91ffda880143e43f16bbfd42806fa6c7417;
0x2cf480612db52dc3cbcd0fb630a07a92e2ea594304763509450bf2d199a2cc55;
0x71f821a426e22b9a20cfc997f266c5a7a9bb521f6a7353e25dc163a35c07522;
0x1461f8fe38f4a760b4f4d09b51e6a126d4c5e9ea529eb18c7c94cfadd1ed45fa;
0x1357d0271c479b5dbfee4a3cb14ddcedd8cf50365a31166c5462acae0b72b38c;
0x2b328c0d80b8e81a1de5804422b454f019947f4cc167476ae5ac14862181abda;
0x2e3b540ace24978dedde505b42c9bfab888ae08d442362449012e0806891b93b;
0x1ce4c3196ea44d6a2aacef87560cc1df5d652527f00924c598abceb3fa9fae01;
0x2851d688c92c184c79c18d06e3d80ef439074686397a5ebf0800004ed10b715d;
0xb1e797eee3f15b88ce3a1fafec88da1d6329ac3c34712db570de886cf569098;
0x196637f7373413fc37b3ac318b969590ff0be31ced0513dca26a263d5dd965d9;
0x174d93a947b4b73d687a5ebb5a4fdac7afce1d9c34af4feb7ffc41be2aa210ad;
0x1a844947654e868c7ee686ab18a2224639739de7ade503530f19e2743f3640fa;
0x2ca2906ae9b528c0ff4e3e3257c8d319f8c1368eb73a80ab26cdf1ce15cd497d;
0xa94ad92e43366cba7b3db85cb00b7b950f1d221f05642cba4d9519a6afc9a1b;
0x22bbc0a3d2c1cf2c8556116779eab7110ea892f32dfb0ba1db5ed38c6fde17a9;
0x1e04ab6b0dd11b6c3f59c29bb6fd62733161d74a9952794eae23df935454357d;
0x229f3e8f6afdba218d948aeb539787170f4e836aee874123698c47fcf37c175a;
0x995cb64172f8220d642030a21f1d525c39724738d58054d8cb6ac84a16aec03;
0x12b8663b8e3a6bcd9e2d7d334c88c0fd315117db2052793a7c2434776efb8358;
0xe306e47bc917fa7e38db51ab6102290228c40250770884029469817b112469e;
0x290d8cbe5211d46c41f561e89988de784422a5f75088d0cbf2679d753af7ca2d;
0x1e0aefaf9cd8ef424965e8ac51a7562e11506da29886ec17006b289370ec77d2;
0x4df18fcce60a87f50455c9d563db8f7630a0dd63c55df4a3f549ce98663649d;
0x95973dc58f6505b00c033973bcc95f1d068c316710b63260c75e300e8f20f98;
0x1d18acab418de031d02587a3df05d9dc50321e206878959871c7c2681d9e9ffe;
0x213d73843dbd3c4e90fe3ff4afb54f113a94a1e94ae7c93e062ab7cfd7ca42a7;
0x13807261e197788f606915b736d04f3127e3a532870f6a2885a09e47c7a9bb03;
0xb1e797eee3f15b88ce3a1fafec88da1d6329ac3c34712db570de886cf569098;
0x250b609ce88f0983f177aa4b1293825acf49cbe1ccc1d0d2218eb7b54d8720e6;
0x2a3d7388587ce77ad142e1762efdf17d8904edd69a6a90161b19a806ca2e5361;
0x1905f00fc3b1cf3fadde47cb7e1b25bfd0fc503fa90b34c13b3b1d660fa8478e;
0x28d30399b0b09d77d5113875af727910162825bdf73eea4dc375729c8b1b4415;
0xf6056c7c8bb29f47a2337228d5bf342fbedffd5237d233b3f1505e09b063b94;
0x25e6ecb2921119f783a410b7d24c83a5d9c917461edc62d0cf95d21be424a561;
0x28da486586fa7a6ee7a2505d51be49e38100470b4ede3b1ee7a5c364ca500cf3;
0x1e7a7c44e72cd5a635bbd41a543c9f46945b7851ee8b482871b3176557846ad5;
0xf8529665d21549208b12388dbbd55184f23fd713258c518249d4ee7f3acda6;
0x1632d84a0d31502ce509b0149da1a5293df1f8c11b2e2f10d214a2f52e4ca22;
0xe576e8ba8cebe7bb81ab72d7bf1a08c9830ad49016e9bdb83765bc6a05dd3cf;
0x116f9f8556eac9dddd689100fc4e27dc9a42c4534322f4e18379bee32b53adf3;
0x2617cb3f694b9d35852d5341c15fa51a47076430dc407b88dc708a57a4dad9f7;
0x2e1dabfcdc2242aaad7c5601c45aa376f8bf128954b04c477946e91893bcc19d;
0x20561db57fda4a5d18be48461c4209d39b3fd760fcbcee93874249d4a56dd4a0;
0x25ff336f1b5fa16576da765273bde6d1966d96264cc4e70766d170cffa123475;
0x2ebcfead11a0a9f882539b2129420c8c952361a46298713c3ed4d5d6af8ec602;
0x17f4133aeaa19e905765128b43d633f345bd34b512f2eef16a1dccebc1cc56db;
0xb1e797eee3f15b88ce3a1fafec88da1d6329ac3c34712db570de886cf569098;
0x1b3a49687cfb69278fcec9c9024c2cca61a3ef43728c21bdd11f378bc219aaf3;
0x21c2f9fbd8e7212a57051f8e39c6e68f3849797e36692723f44e0861264a5676;
0x115d3df00fd3bd6e540dd0390165eedc883ee6efc07b409f3675deb598eade42;
0xe5729bb5e9bad3ee592068ecaa3e9fe83de56e38603925bdb9862a460ef4615;
0x285440545506adcfdb2776c74d3aaa25f7a7b0de3b7c55f0e5b87fb7b6e0db46;
0x233f80e930f4324a6a0b146d07acd6fc8f3d9bb48cfe1f072d75f58da84e1eba;
0x21f9ccd305b8bc81a6b2116e883c69ad27c8455063e66e31d6da818ad1e74de7;
0x28fe2473f0cfc0914c93b9a49af57b809d9b205f2631dae15c8c9efc67c5ab3d;
0x2ec03f45ffe70531d6caa30b55289cff6ce7f852160797a2b9c90768c5c4692a;
0x1b6d0de6db03f0bad2f0d4879bddc431708a821df4cac5ee89cc9c9ef70dd9f6;
0xa11e8876f08f694ed493dd39340e775eb7a6a41aeeb94b274f24be97e39a3b6;
0x17ede99ae68e039acf3cb8d353b0db916c2f2e721f19965a474f47f1341cdc16;
0x18fff4f3ec52c43729d8294575f23f8bc41d85b9bea877df8fd12726dccc4909;
0x21df71f2c6a62f3945fddce6d52d2aa7d326b29262ef4b298027c26473b9eb10;
0x11b89da0475d9f041a5380c999272eb4f787090d1d55b9860ede80ba3983400e;
0x8dc1602808b04a2f3c3a15545d364304f4f7cdb9dbddbdd6f632991d0a5bc34;
0x7faf1ea463a24aa2845460d38458855ebbfcc9e1d4e775a350a0e88275d6fe8;
0xee38f40f3c1ef1102552cfd03824d68bea40bfde95785d7a4c3adfaeeb4ea1;
0xb1e797eee3f15b88ce3a1fafec88da1d6329ac3c34712db570de886cf569098;
0x17fbc184678cfb88bd30c7b1c3d7b28864204d74133ef42de469187f5ffdeda4;
0x1cf9d597555605a940cde10452784e867f46a2ae74fe0465f4938c46a546c3ea;
0x1c092bb49f2b4366b33e2dc2f6ee171468f95570188e4b2995b925b5539e8d63;
0x12f62053127e2084dae1db28a6d94ff62ef6a1a4732ab052b20395d0cd4ad478;
0x1eeb4476ad29cbea12ad7cb44732113e58c0ff598ab4648df979c474eb3835;
0x2c38250647fad3eedcae687b1ab54f6daa582bd29631c73fea1d2f5c403ddb7d;
0x2eec86ab0272f57df25d8453fb38e9fcf0dbcad228ed15b9e7ff30dc91feb902;
0x254f0f4597efcac8bf9ee78bbbfcddc5781f71565217ef7af0beec6e5d5f06fa;
0x12a47fcdb1b19d720a4398b659b2c74c27adbd2c24ffae0101c4d129bece130a;
0x1bc890c0199da7edf2f39365c4118f3c1d1ae24d666af9ffb83ab48b3e00a204;
0x125272075c48ad5c41dc73c2d27de0026796d6b47932bbeef89bccdf92fb7598;
0xaeb8e71cc24b05d8b4a1aafb1a16f8400cddb91e6d42fc8588ce50a191b8c4;
0x60ece14c283b3465418c6b9a9f56cf9c96218b68576081014122ba05654b3;
0x14728be414cd1dc79e436e4d72fd9392e44ec7d6093af846a49deb20f2823269;
0x21d5f66e745ef28c0f7178722cdc14bebe02412911433fb460be724281ec8361;
0x6bc631335961a7b600aec2c433a850ef58c811cecbb74bd1244e0304ec9b6ef;
0x125b7c277f162a0a077cd6f1981e5f22dbda2a0b0bec465a384387527ce3ed3;
0x2a2a1ff5ede20300c015be7630d8f1060ea8aefcc7ec0f9606e8aa8cae99bf4b;
0xb1e797eee3f15b88ce3a1fafec88da1d6329ac3c34712db570de886cf569098;
0x247c5ff976e2ad2713b0ed0c228a561962155f3455fe766e747b3cc613629cbf;
0x28cb0837980e09daa3e697291898baf1629eeac4e46342bc071da656c7bf5fe;
0xfa57cf86065e02c71402e6dbdc251b1b76c1205eb14d883d95b957b376c6bf3;
0x1333d78ac8096483ce1959d954323802c853a4a0369fee7ce1261828501ced20;
0x14d5ea7f1472388751201a664b15f402974aa24f6cda9a91a84d56b1b6eaa776;
0x77a697d92ad2c070d058b32564a9efc7e1a037a1d03962db5f2719de5cc6c7f;
0x27c6793303f3e75361c67fe56b8ede9c3b13ebc8d10e6ff787e69aad56595064;
0xd69340f71fbe2b9772464b2f1fdb25c5d93cd365e24b6926705a77a890e08d5;
0x1e2d709a891be7d5411fcb2eabc3cafcfcfdabab79964189758d1afaf70a6970;
0x2cdb124943fc7c3287733a0a3c078eb98adc3938120ca02b14a58a46a44f4fa7;
0x27af11497cb4a8d207471064e855bb48d8786f0b14366f833c710766612908bd;
0x392c9300d049ca31025170880a47ad61b80b1dc03f3e6db3264ed1219db5b04;
0x2aa58c8c95a91bd321d83ce2682a4b7d2f6e869a0a4cec637a272b0b30d58434;
0x16f7b5e9d83339c0a151b1142423fcd8d2c1758d677a0ff7d1dfaedd525762bb;
0x240b50d50ff6a5930a55ed800af55fc621e8b5f0333e022a49e1382ef80231a4;
0x16e43d57fc3ecee17611fafe5e8e7b053808f780dcb1112d1841f4ce52c15f3a;
0x18b989d920dbb70d51598fb2a6ba22b1825c2f3f05f7fd4897516fd749e8cee4;
0xe4db6c770ce5d662b21e5b463d99371bec01b6220af53375b8d24bf76685d9a;
0xb1e797eee3f15b88ce3a1fafec88da1d6329ac3c34712db570de886cf569098;
0x145563ae8e6e1472ade73ff73dc88ec306cf540be2894be758c99953826664f6;
0x1892c99793221d1f11e9c5637757db12c001ecef9965c00c697cf49ba9b881d1;
0x1f965f8daa018ee30596706f17773d33e6835e66b8aad44e71955303fce6eda0;
0x2935511ac83c99085b247a68119593d44307b95394392d8bc1e4366b54021442;
0x907907697dec1e1a3bd179fa8ca9a87265997bcc1bed376bbb2647430afceb7;
0x3396c267b0ba914a9c4ba45fe06a86a8b3960aa1dc12ed7943cc8a45fcd50e4;
0x679ebb051d64df99a0b2c93744857adaa8802bbcc6c17cf0cb29776fa229e85;
0x2f93483d03549c31b606b33224139de1998c0be6f9e4b900d9fe9728588c98d4;
0x1458fbe748fee53d852d83b0e7e032dea42fc174733ee672f833d8c91b811a65;
0x1a90f8cdc1c63f289f22cd6e4eb3bdd3b7ac9f04cca49d7d7d8cfb0f725805ad;
0x132a4fa82d6276051f33621249f4c6692cdde99766e52b21a0896e2faa1ce5ab;
0x1d79444933015ed9a7b37b53da5f35dfdd9da1dcefe3a454ec98da690ef1880b;
0x268a91dc77ae88ff05486fed8eddebea679c01bde73d634f5cfb29babdbefd07;
0x1e011a8f14bd69d6439cded45b157075e5d44ce51f4f9fe6279fa269e999e1da;
0x9d4ccb992e2ed6a7d1e09649849084e4c7af1c79db784e239c39daabbc69a66;
0x4bd333ef75b6e20a0a9566c7f072498868dbe38e028bead637408c6aa43f232;
0x7a22ff875664c4db8334871b434ba01e949c60a4264e8724abbec4d9822994;
0x2ce7c0aaa7d361da7d2d170270aa48f0a962db88bc02f6779be5a5079e40c85b;
0xb1e797eee3f15b88ce3a1fafec88da1d6329ac3c34712db570de886cf569098;
0x5c14e041616b9d457521c279f662e02245266a12b5164bfe05a7503440ef15b;
0x302134832f0832bcb9fc6fbd7f03c49e7d5d081d455eb0e3267a6e48677a417;
0x1ff1fc0a5041e83cf8c145b226ba9e4f38e42e58d15479caf6102d5f0a46c1b9;
0x743a2f884e7cc1bf16bd83352a5b3324366cd09838da3b7af8c09aa8b907ffe;
0x1602376f4173d959749ec5daed8394b50facff3fb8765a89b59b6fef0a7d1b41;
0x7d2cb9c94b0a81818fce3f94e82bdfbd1074e8c5159e7fb0ffe12291e9d833a;
0xbb2f1a3fa920981b76feca1519db3aa3c26b703facde82423479b244bfd05bc;
0xef15ab6018db6f518505668756a151c50ce609657ac3a1390df76759e9eeffc;
0xe6e886b5371587ec93eadca0b54cb77c72d4a709bfd9431c5e4eafdb1f3f3bd;
0x43868f796a09019cee928cddd4779ef6de4ad17578c1eb5ed9ea01761f46a30;
0x244a691b12e0202fd70fb283580700f2e25747c504c2a0ebd58993becaf84eba;
0x7db83a16d8673bbf160b3b0d5d96e7b14040490acb6787052778aeab1bbd9a4;
0xa38eb2851046d266aa8aa6d124f312e00bd995992adb16e47a60a086d5b7819;
0x9afd14102f5641fac42f5aad7e1e04fd5779dca6d20f21819ef3eedc779a27f;
0x17f1055f567a079eebc36cb46488e34062e598ff88e9e4280f0472021891d500;
0xe742b77b8daced0467679873f984332608e5cf5f573295ab6ff101c86bec259;
0x1e0137861ce424e6fe1f8161847e1c804525945db0267bf56e8af64c14cc2d2;
0x26af9938a85c56e60ad89ac9ea7ac83e04f574d33d340f143ca5f058e2ae18ff;
0xb1e797eee3f15b88ce3a1fafec88da1d6329ac3c34712db570de886cf569098;
0xca3bbffa94a2440660ee1481664e28729a7a581eb47fb1e7f2b8d19b33a7633;
0x56ddf288c8533174801eb64e46e332ba077df88559d617bbfdeffeac12c935e;
0x18f68bd602682d1267ce57ab65f27dce1859bbbf29ea5ca4c1a7c47ee6921f3c;
0x30595b7e6e83bacac2e1b9744f97c045f81ba17ab940a093f0786aebf107f4c7;
0x636950f2ee62115195d570a6c43d18e92a3edafb2eb0389482211b486f979bd;
0x874eb8555f4444b951b3e3134f96d75ad8866a0da0775fcaea7d80cc0be0c95;
0x165b30894e68376015f8589abacd55512eb63d272ce68ce7d478beab7672b55a;
0x19e4b9ddc57a559648da219a93cb0ddb0df84b89cb0192814743bda58e7e025e;
0x25eccd6b96f10e2a0da8fe7001a7458e10c3e669cc6e9df84e4b108c20a7802f;
0x12cee7ff70207b2601a5198a71c1430fe3754958721cb810b8de2fa6c464488f;
0x1f99c9efbb41738ea513af1bb140f11e84ce414f08168e165620a36032e844de;
0x12529d825e81e3cc950c208d2e40375f320daf93ae7e401dd21f31f69ec39dd1;
0x60570f962275a45bde460c929edce1c9e56d5bfdea7f5165a9ad1f338e43278;
0x13d11f33f4e872a1d7fca8fbe95fa47baf3e57002783f5503c6522c2835d8c20;
0x2359f3c444f7908a0e3a80861a42251115f650fa4e66febf815cab17676fde4c;
0x137c3d8494fafe8b81567121140a8933a957e06a86af79f21aa0786ee032071c;
0x3527cd631d2e66d0f82218ec1a2ae78d58abbc17519750f028e010153b5476a;
0xd67de5a809c3c17ec81f87ea47056557cd9a21c12e615f68b5a3b8b2be5ce9;
0xb1e797eee3f15b88ce3a1fafec88da1d6329ac3c34712db570de886cf569098;
0xe0a49d17b5fd53e41c716eeb7c3170aa596a3d994cf780bb4fb099a3e628ced;
0x1b7180247c35af01d58bf18ce746e193c5f9d6cb530deb707cc81f01663c2409;
0x2093c5ad6ec79e87b4c99af53c32b7c13559735acc74ec744a45da050d6d56b;
0x26c4d026b6da4a405fe6d74238747fd571561b7265ee49910c447438e9c0e1c4;
0x1fd3b662959f05a5ca35ae543da8095f78a4544159475be1e9d84592c526f777;
0x1d8a119da46c01ecd28598b1843020f2affcffbd0d2ab74513903b0271176911;
0xdef9ecbfc4c245d08fa20010a22886c01234245042181ccad19ec06eecc5aa9;
0x2f389eb9dd0db3310260a089bb9d0846ed025ac437c1eea56dc5c7159e8474fb;
0x192d09f6e1f97e95858b09dda316902de5e0b946d3050a296e86fb90c0824460;
0x2abe84bdc7a81e92248e62816419516f31b9df3c36088df8b0dadfa242af8f96;
0xec8036ad332bbb0d8eb631bcc55ff0dd1c71823b8ebd6b8e0699417b22d64d9;
0x212d905745129480f6496bff628cdb728a729394f7e5dfaa13004a4dd6d7ce01;
0x28b10eae188741517e25e6abdfb63f5c0b8234a453ba5f73d55731b126b8c442;
0x2b55e73628a3146399c9c4328e7b7c2b06c3f9c6b2d1c2f06de3b2b54c2c50cf;
0xa288f1c2c2e7b4fd66632360642bd18970ca489714681efa3a79597368000cb;
0x2a98c6af21ac38e6d8f70a8cbb5988d6aa929c6cd8a7bd41de02d6a461e00398;
0x28131733b6f0f9dcab73a997d3de4c14bbfbe517135d1a8d0559f0974ebb89e3;
0x1a0422b448652f8ff28c4099a5857e35474e8864c82b0705aa291052fadb42de;
0xb1e797eee3f15b88ce3a1fafec88da1d6329ac3c34712db570de886cf569098;
0x759e02ddcf9c02faeb9b1441d3e04e2e26b1c3c21c1a69dd452798b1ecebff5;
0x1e6e510013a7d26108d160b3bfcf269ff0f51a0759e1e1b2731f7c3fd9f65679;
0x87b228c959aec21d112b82be8167799104fcf2f6a1311a8f8c6ffbc9b91c0d6;
0x1db2a8fdf80413cfcb6c77e97c570ad471dabc38e8cb2fe680016f0dd6d2c5e1;
0x2c866e9e002f7ba0ff4a92bfc05fd5a9cbd2c4497ad9957ac9434acf2a3d3aad;
0x29032ecf930c2a41ff93c287e9bacfe4ed6435f5bb377527f945ddd90f02269;
0x21a948d59bbbb4b75d7e62e29f28fdc1ad21e673c3d895d264f3cbc0b9c0e0f1;
0x1dcace62396a9c5fefb317bf0771ba35e345a4e113a9be8b9ad3bb4f6a62a287;
0x29f8ae5c1ee78bcc95db21cba9113f31c1046c41d866a70383ce008a9e6aa748;
0x27c5c8707b69d2ab24fdc16a043d24f3a2aacce0994aafbcb79754e26d7a3c0a;
0x2d34b96bbc3259695bdc35d7ddb28d896f64b94f0923627193d50d82930a61fc;
0x150254ed341e43d3a5edf9fd4825f8094317dfe0f198f908355c9ffc0485b4a3;
0x2c4ca99c167d67e6ad639409ecf7669b0a99ace688c6c9c33a34d71dd3ef3c97;
0x3930cd56e534c58be531f7e9e2b9cb3efd62d541bb6580a1246dc9a4067a7e0;
0x24f69e897348f292f1ff886d4992b6b108f1312a3b194296f07314af94c27016;
0x2334c3ba5fd553bf774f53d77c3f556d404f487ad7597abf505626e5fc34a054;
0x2d72d7bd580f41990e776a68e9a1252d1c5d003fbc9bed64162a1dda8952ca5a;
0x2a311a00f6cd8196a6f12a725b9791b49f46a20955a0cc05435e136c3ffaf3e2;
0xb1e797eee3f15b88ce3a1fafec88da1d6329ac3c34712db570de886cf569098;
0x15eeb7dc60695985cc24a901b81f2c2ac6aee050695ab1de79e300d546b1f043;
0x1065fd42737ec473c96a3741ef8119bfd955ab6066955d4cdebaf9761ae33e3d;
0x17c3d9212a09026f12794eee3b04840280b12ab06bf5c688f02cc772608fad92;
0x1b3d7424ea8664710a024d5f57c9d3b372e2c1f5428683da382464e39154bfb0;
0x1122aedb98479614cfe5927434d6cb11a1ddea539e33c7771ca44535c510427;
0x55e9bded4cbbba7dad989d9b1295c5230d5a799a6211895bc412ee24086d628;
0x30263db0209be791391ad08f2108574a6a882f05b6c8055b0ba9e0ca8715217c;
0x643bec3e72fe54060c78a6188b7098bbbcedd5ae549f5d0f95594d03501c1d2;
0x24739ac04c239ad6549658ca1b7e0f62067bbd53c3f0ae9c3a0160dc8982cd4;
0x831cfa01b84554e6f26b9d604c0f91447c6c5ac03ed1d318b7944c5773827b3;
0xc0570121f291d8fb7b7a62cae11ea568a394915a9cd70f634830a5e36f93025;
0x2994d07daf7152b5024957f7188fab4452714606c505530854cec14a582bb6e2;
0x2e5ad16ef38f802fc789dc46eced2ccca71fd25cead1d5d1f14c482061cc703a;
0x9f1fd3fd77d399d36089d589dbce43f1f563d8d4d927122bf29819a0224053e;
0x1cdd5d1efa77002334e3af50973ad87009b6d26818bf78396b7d8924c7aac675;
0x2bfaf90c55d63a08a0ac948874f9b1fb60c0faa0a530926acf868296f8478e0a;
0x12d3e6c5009562c1647269d1b507123a2f0b7729804b66643f081bb782ba7cfe;
0x36e9be313a952e3b77fa42cf13942e292982a7568964ff200356a1c6f82e473;
0xb1e797eee3f15b88ce3a1fafec88da1d6329ac3c34712db570de886cf569098;
0xc34e42c97488447c321d23db64b398c6c25d4d9fd1fcfd3b5626674a42d1cba;
0x27d82eee53199316ed144a5591fdae1f6e2be76b469f606e7ff6759a8920dde9;
0x895f2c2986316092a0366d6dd018ffd6439c477996b4d2eb5c3aed2cb0c1025;
0x22ea26e3404fa1f74ca0be2b73237d0a44014f6036f9a96a1ad1b6a1393622a5;
0x245f9c36081e0229dff1c693e33858b05299349c921d4163c12b8a60cddffd9f;
0x120718feaf2106067a3dd824dc15c3639312811c1d8e57825aa782de88a2c3e9;
0x1cda330df4f05747f9fdf518d146f9160556d32d06f8c21f9f22432ae2abbf0d;
0x17c8bde1641bf784599b38a3ed9568cb3e2a8366bcedd556711e85bdfa71fcc3;
0x3b039fece617d27bb74f64fb7c0e24adadab1215fa077988fcb513b7990caba;
0x2585f69b3b7caeb08b4fd4403b72457ff3953e708f20a2a0d40872d5571dc707;
0x1cf1dd7016fc72885e841cbf7e92c931d99a2cddce535f72b065485b39fde3c2;
0x11f30f1bb28bfba19b81bf60611b0f26c1a2a7f6623aab774f999ed62be03449;
0x179f6c3ca3fcbd7aad8e1ef759216d589ab51482a6f7395c93d5105ad79c5e00;
0x5193282c4bce9d58154eb75ea6fa29683e2d2376d1e2b9d2265103b323c014a;
0x13f144857af17bff0c12f0fd177a6da9b1b3b10842f4805689f124d52d1063c7;
0x290400f022f09b1359bcb9812dcb353472449f4be850a28d949f914290aa598e;
0x26a590e2d283ea4e4bdcc39fe4cdfcf9b8e974b4603ee78ba0cef07e042da923;
0xb0bc561fb4ba346db8f28d41eb0bcc6bb1c40217610f165c5ccf4f2940ca1a;
0xb1e797eee3f15b88ce3a1fafec88da1d6329ac3c34712db570de886cf569098;
0xfc4b28f50f749c8b55bb53cfd3c76ed13a11e16eb3816520d732174b68f9694;
0x1c2ea86841afa29997e495b0e1cea881562319d9edc2aaefde7b30da0118baf5;
0x181f1de1e627bc0229055b2c08f12ad3b70d540b24fec6128e359cb8f32a8a;
0x2a4b0a0fe77c7afd26b08ac0eec6a30854cac5eb8c070db07a0a3c5b80626747;
0x13f62bb9fa1cf209e303e7626fd734710668d02b4efb3ec507c1f5a4b59ea94a;
0x2b5f4bcb8b0c0c1aaf90e370e93b611bd34015d4f4083b6feff51c60fc7f90da;
0xf61bfbacfe1eab14181c0b9ccda1da0272742a0c64ac873321c85af7c0f4253;
0xf29b98701d484f65bde657f17209bb04d1cdc52d1d45b8357d64153ee0639e1;
0x4f50fac0a62268e7cc24a64ce7f784bb1d7982be69a9dd168b0f191da33a5bf;
0x31b6743a6fee9be625862c05ffc4d4c656e30e17a4d1e9a68cd906ba9c5c784;
0x1b2d7a1f0ad3dce2e4b7fdb43de39d6044b9713b47c82097fb72721de84b629;
0xf2090d83056f23a0a8519ef633ad3f7454196a1da06db6aa93bb72bab913dac;
0x1f36ea15e1ef84a869d23f3fc7c3fc0bf425301e98022694e534a564ef69610;
0x1e7fdf4b6edfd3e8e19e73fc8f938b96bb271f0a8b5beaee67efb0f5fe1d8945;
0x58727d0875e0a1a590634c527e8b69a4c6e443265d013000cfdd5f00b9faac0;
0x65c67297180d56cefd31cbde7691cecd344e5517d93d36a2ca00b84f2ac6406;
0x26efd963a80f4104192b1e66102143aa18c6956b4edb14eac83399cbb957d426;
0x2d36f46690e480d2cbfe0f647ac99c753cb01490ad79327a1192e7c5bab301d0;
0xb1e797eee3f15b88ce3a1fafec88da1d6329ac3c34712db570de886cf569098;
0x1ae20386490ddf16dc579da580c4736d5e20066e4ca980efec6c412d6c5fbf20;
0x13855655eb53d070d6a3b9283176ec875cdd04a2310a8bc7da3778bba3a8bf65;
0x216a5047fc9a6423e0dce5c2fc7ed22e17a889ecd7dc313ec97da530b0012dcf;
0xce0a7fe4c77e0d037ce338a7272ed67864f566705e5422b954effa901c1190b;
0x295c4b9a9a97eb19dd9bc5cbc4704fd57c100276b7af57e07be392c18a953bc2;
0x2989d23a947312faab571c5ddaf9c4d09c22d1876e7d007847511d6e42c2f407;
0x185d73d77a0e88f9a67e2c1a59d6473706e24c79b845ce5f9950f0fe26d6c794;
0x182b0ed46716f64fece882661791a29bb29986afb83cc9e194efe397288aad4e;
0x22ff21a0030a575a4c62a82b286a37188b4cddf6d4285c60b60d030db206b1c8;
0x1313437aa7949a4ab64fe85327645748fd2a58e0e3d3b85626e88f7339d7b261;
0x6efe22994b02451beba2f6d0dcbfbe9b920817d74cb212adb7f738178ad2f40;
0x301063036e4697bba8d213d35d188697239bbd1b369e7bd294ff4dffd10885f;
0x1c90fb3a46ac9ade74d20bbfe8403ef060fda9603773064369d4c344bef5e817;
0x2c52c601cc0042b449329c045fea856de70f98ea8d1b5ce3a30ccf0fa3dd8a52;
0x19034b0b0a87c257ac4944e0500e97bfede7ed2dcb148c9546e3b581aba9db21;
0x27b086852644a1c773f0ee6c7cb6e58d7bffa32638b79b2990bd7f1dd683eed7;
0x16cec1cfec5d548a707a44ddc3afee7db168b5e986eaaa885748a368d1fc7607;
0x23e0d5c20594133dc55043bcc80a422dc9d59ff92f3e1a9e934d7c7486bbd410;
0xb1e797eee3f15b88ce3a1fafec88da1d6329ac3c34712db570de886cf569098;
0xfc871014612f0f2153585878907f011cca957eb00e86bc50f319ccba20a005e;
0x179dfedea941ec28ce16ad4a6ff320656632b0750e6616889e853719bfc6e88;
0x2200eedc6d000a31ba05af605292a6ac3db87e5e852b7edcda9ba306192823e0;
0xe0627308b4486b9922aaff007d2dc88a4cb80da9d90be1bd13d63f3ed7e1fc7;
0x941ece97766c9dd37c07cae87220151b9672f02bff4006700310b95efbf4f4d;
0x2d8806727504e7c422452287f378c0a9b859897254372eeb4e4cabd2c038067;
0x1f44136953c36a85d85da27e57a6dfaf955dc7e1d456790e53526625f470624e;
0x2ad2db1a37881b1f73e5ae98d404672ece9487a08ccced17974e1c925b0f0234;
0x1ff27989f4d74b500ad47ef372b8f08396499e4461ca7ccc5914675365cbdc8;
0x1d9e4bb1ebbf654ac8d81380ab49c45c698f4552fc2b385d61f1729f9a434fee;
0x269d2125ceaf4911300dab597dae2d4d97714a48abaf059f0060c26a6b462411;
0x85fe9b1797ff4833c76f23b0dad53a01728edbfd28b9dd5097a727725bae3f6;
0x2a1e5b7a8bbde19a0e4e3e189a5375543ce6879b8ac6c94b3541aa7b1ee5d73e;
0x38f9b328c38f8ceba41d67319a3186ece9be1bc9d16142abc3099e2a910e1a8;
0x3ebea7ba2a89695b6be00973736a209479d0e834a37f5ef2863063552d840a7;
0x29a1eb861aafda5c9a36ac4c094cc8763b491902b18b9dd29bb1b8dc216bd96e;
0xfe28a88001c17b2b1ceaeef8891bfc5abdb937c7fc6d51b2dfb56e5347c6294;
0x26ae83ff720fb65932e831bdb0705d7ae60c0289f7bcfd89a020a5f3b30eafdf;
0xb1e797eee3f15b88ce3a1fafec88da1d6329ac3c34712db570de886cf569098;
0x1492bdc61b5ceb6fc3b3d91065f585e0d1b037bee203ca82743459c1ec00c65a;
0x275f2dd31c5b79b5f188ae669923494e6ffed430e8c75bf202132e50b25c1a3c;
0xb327a4ebdc41f56502186a656ca06819d1d29a32a6e70588f548c4fdb2f689e;
0x2c5e3d0108521c8af0d038a617f2a0725d5003a5b9dd824a95a59ec6bde20b1a;
0x1b611cb1e5f7f2a0c4fbcad4e9dc65da5c6a34190fb27a8148359d465165f9f2;
0x22365c55c48c5736cb4b7dae8fff495e9c661e9e130af620cff5f40fa1210e96;
0x73fb93220556a2bfae1e07d2d076caa44c085e2ba6644bf4256094af48ebf3a;
0x213fb8bc8c11ecd95bb3311eb046398f377c3ea4208d14b80eaec8c4aff2bff6;
0x1a617c5b998762909c55ac93513a6d19ed1c1e28ff8b78fb3f551158a9d0d99c;
0x2e1284a59a10203966d53cdd502405dea6889490f9bcfc5a33ff9d8b6fee17c6;
0x27c73897b8aea1c08380d8ca28d0405351b957b064abd17afcc647b73ab348cc;
0x2bc53359578a242289a79806c04853ab89fca02a6232f152d05b3d1dfbeb6908;
0xa8ec1ba29e112cfc42aff081ccd3e7e01410696cb5510377072bbcb2f9600c;
0x2e0634f26f73f112cc5f285e4a232f694b79c05ac5bb9c9dab89dadfd0112ce4;
0xac9a6885431d005e4aedee93dbcdb638cea5b17c363289adbba9ae9e3fe744c;
0x216854bce3077af7b8294565ec200c0c455b9d5fb35cc98ca36a323620b5eae1;
0x1603ef2a582a0adbbac5655b3c3202b60ed3c22e59fb442c2a7962b9031a33ae;
0x2cfd0eb51e60c1c0869f5dd163666ee8630bb2f3b527af9860f8e23b2fe1a869;
0xb1e797eee3f15b88ce3a1fafec88da1d6329ac3c34712db570de886cf569098;
0x183f34db24beb7107f0f5bf9fd4c2532033855c37b5463ccbd658b68d870e6b5;
0x1a5079190245f746de5345f0775f5ea91712edcb4f165f391e9c8f0b1268280b;
0x249da4641b8f13206d3cb7b3943d4ff5d0813654aa5d8ef4eca39cc6cddcda09;
0x2e99f0d1ad289d3d780147284155f335f34224f7f8d3db6b008d952a84a12f2d;
0x1a95c807b653b762910fb0b9d8d0b4a32b000f490fbe925e0e207842a2dac0c5;
0x127a15cfbd88e0c122b2905572c496df5eac209879a235afe08e8d2e631cf46d;
0x1c22d61ac34f05eab74aaff0cfc01689132754d26de62038964b5a8acb1fb340;
0x2ee46c0fbefbfd75eff882d395294889d915a1a1e858e18a5b14c4200754f9aa;
0xab5eff34c9c0bd9fc90db5b058bdf68fab4f25eb7602e9369060fcb6df9139;
0xa91d479dcbe07bdbda4249188361f7aa7e00c8edd81eb74dc176f19bf05e8f7;
0x276a57e2c21843be0b10b8877849309b33d19089838744ffc2454199e6833f63;
0x2a56e477fb4a285b4edb52b2f19fd159914ec3b384dbad98850a19dd9f44c2cc;
0x2fc33d4b761a6ffe69a5f4f2ef4f41f727d7131a2ce15f74f67ba17236e89263;
0xb9ed85bc3e43eb0c395ab7dfdcff5da94fa809bcf5d20da866a2e0712dddcde;
0x2921971bfb16df44acaf0447858eae04720bff84acedf57d1059016932c0a9e3;
0x1ef4f47e8d9e92d554c8bf9312e0c80f5850fb5f124421a4a032243627170429;
0xb099dd3d5498781141cebbaef8b3c9a071d88ccca2efdb8d97071e878718f44;
0x304a086e6735ef7a00c6d5fbc6a55daba181f3ca901f5de3c9a29f6161ba5f36;
0xb1e797eee3f15b88ce3a1fafec88da1d6329ac3c34712db570de886cf569098;
0x286686a6d53d085d60793a0815cc1b77c61ea45fc4451e7b99e9c8e6bc80dda8;
0x1609e1fceea6ca88af1bc5075582363ff305d5f39683e70710f2f85501f4ef87;
0x124f27013e00d9b8e11f6550ccbd6a2b9426da5f482ae5746601d82fbabad65a;
0x2c47c743ff1069ae71b811ee87050e9e176a0461d8f6e0472af4a7d8328071bf;
0x11a058b976dc5fb8424c68192aecab8f56b683f5eaf1559420349281d849d746;
0x2222ec9d6eb62f5f431eb27a65f792b19817580562d8482027c7e84dbee5d7a;
0xf866b167acb845b0905fc05dcf985849cc7b32a76c532fe2774353ea37f1fff;
0x7197c02fc0c5f1e13bcd825e1f0df47111d16be06e4f90e1ce2452ed2758089;
0x99aaa6bef62d6b1f3098bd34ec2916caada19756bfa2dd222cad7fc9b296c66;
0x1a210aae2dc13bd0bf76b45124f771c486cd2c4ded5f125600ec961e3eff5d16;
0x4ae93e4ec96ef4a97132edc6219ee43d41d3d3820331152a83374b363cefc61;
0x2140d4f69e842e9257960fa14aa526f36d6b3204952c5763551600a17e9c5c06;
0x16f77df72961ff15724b2cac0f79106cc9bdb2b3d25534263883e2e379722303;
0x2a679813106d2d1a88e194dd55641143a5aebcc2204fb4e8f2cbb40f637e506;
0x12582d2bfe22fab8079bbfcd7bffcfdfa6a33221fefe31e74edadd5e0e58a361;
0x390e71fefb45b223ab77d04c90727eb97540b7d3d9ca70798bf3b3f97d91f21;
0x26b440f48d1c54c8300aaa49b9ab8afe622d6f7579857ff986966832584f82d5;
0x1dea175296f5bb238d04bdb371b31bdfe62974b0a219f55be2c3e644e82b5bfd;
0xb1e797eee3f15b88ce3a1fafec88da1d6329ac3c34712db570de886cf569098;
0xe0e6eeab1dade829f7d80aa510ed423c86bdac7b39dc5fef6df9b6932cc812a;
0x2cebbd5b0d62b44d3f06728f5db838c617d933c08491c23b707220a2d6060af3;
0x2dc31eb7528e36ab16fe4e845b1858b44b7f4ebcff8c5e2916b5dbc93aada42a;
0x1eb3bec02ab6b2a2977c89984273b17a0156202f622edd7adf787246ccc75f2c;
0x220f79359bc26509ccbbfc429980c2e65b195b3c8b0695c8765057a2d025a67e;
0x1590491b1dbde002f869c666a1f9feb983770740ede60e726926dfff31f24806;
0x2feea161ac374df1bd1e90c3d84f0bccc39efcfa6b34e12dae7ddcd0b3d7257b;
0x1a29866fc7a388cbc6c3c93ff3eb7f37e1c5e83659b05b0522bac1dcb33534d8;
0xb8199ba3edbfd7da088f17687da77fdbcce7f4730915cd9f18aa86cd03574f6;
0x2791b7c58a031d038d076f7d6ac43730933a76ef48f203fe92400d60b98d6a2d;
0x2f454625556eacc7f31439c8f2b0ef06ff37ed616f19533f9266f28ca846019f;
0x249369afe3c0b2111d448303abcbc18110aed1a1a4456e4b3bda7e8e2dbefc7e;
0x12edc078ee15bebc5ad4509f3d44d7c25607fbd61e9d464d84ba3223582de54a;
0x22580da134a629da679be562a7a84163a1565af42558a04c64579d98bba260fc;
0x1dda309f47e45f9a6cc38c7ec04588c51a650c8f0f101044ad6c0b14a5b0e6e9;
0x2ad483577232eb393cb943dcde6c616285468d4b5af36779d86bd789c499482c;
0x28ebef81b1b34667338b9828e4858f956349d34cc99584e1622e6e676c221847;
0x1352a39d4ec27f0e72f991c448a1511e1e7ecc4f4e76b705ff2551f2cd17233f;
0xb1e797eee3f15b88ce3a1fafec88da1d6329ac3c34712db570de886cf569098;
0x2697ec9fcc93302d5f66b3e1c1ad9b203521f05ba99903596fcdb8fb70e4cef;
0x957519127bd1afa0826384ece846813066831571e2aaacca4494fbb2a628c48;
0x1d8a3eb38e9a520787f7b37c59fd309e3ecf19a45e4e4855b53dc670de8d395;
0x13ca248a44825ad1fd500351378a1c873fcbf6fa6aa3da48c274d1227afc90eb;
0xde6ab6ae985160148e09d5d5b35acc7b0f61cdd119ca66ba72a11c89ffb99ae;
0x6177434dff8487f01d4e7fe5dc1f5963020409384269ba24b5751da9470fd57;
0x195ff62cbbd66aa75406290ea773f0e6ffecc1fb8be9b6313bd30a4e0626b6e5;
0x17ca97378ab5b95fd548bdcf531da28e4336edffda8d3c5adbed45b7f224a04;
0x5b258f2284fff0798c69fe24b70f96038cef3a3e7bee367a51a7e62907669dc;
0x20a38dbc01d5a38c6908056f5c4862c351754fae0750094c93cf54bdcfe75b25;
0x27649f4bceebf6d71f6581d40e0407b020dc73ec56bf16748c61854c6afc6c84;
0x12eba7df6b9e4a5a1b7b92bfd51d12e756831af7133a79a622338cc53e19fd5f;
0x8487f84ccd636bfd508b5584d1cdbf24cc1605c779e5300d4328bfcd4dd6db1;
0xe780d26ee909fc75487670a4cc043740af57e89d045b69ee6babd8089746bb3;
0xa58128a2fdbf500e89c8b81a8b883bb5004b4b29507158b7947178b58421d30;
0xb680246f8aeb38b7e4eef807ecb493c3aabad1d705435fa2bb37cedd04e9695;
0x2909a2616f3a24ab48ad9f50e4f18c75bee2c2f434bcba5ce605c1dab5721877;
0x143f55ba8ee25793ded43c6f14c92025153c79c964b44b35c886af59bcfac0a3;
0xb1e797eee3f15b88ce3a1fafec88da1d6329ac3c34712db570de886cf569098;
0x216f405b93971c6d85d700b4d991a983737006cc1099f0cc1c6c98a366d5e28a;
0xefb44ff1e32edd4f8db74ae8764f6493bb0f76744f41f2f1f35205975b49020;
0x125e52e4d58e859809ae43a4865b821c65e630a0de0a2f4cfd5188ce3cfa93f1;
0x4c652e865b682c60c57f60bd33a174e9b9b22b52a1d47aac4aa084b1174b929;
0x9cad80a5de2e6e280dd9b65d56860754dce0ab2becfa07b30853a32af5b011b;
0x81544e3cace3761ab3563b6666160aec7a52d7331dcfb34e7b035d46d9aa6db;
0x29c9f89966182d3c7c4bdb1c751fabf9dec6ca6fd0f3d2c4b2651fcd35916a67;
0x25ae65ab6ad76f18d3423dd2829bc059e43251ca5491c2e11c04e3e241db0e5e;
0x1821e88b8cdb1686c33ad7c1dcd41c61f47a6435beb00bd8d68644b930e7c317;
0x1abb95b6e33243a050e563b5c4fd059de5513ec28994a6f60e57c98d3bc8f586;
0x110d213a836478aa301bc1fd4edd388507d87745b3abfba5bf282afd21f7242a;
0x18edb2d105bb53b768ae0137850dc2d2bf6d1303a1f8ee4aadf76d8f81990588;
0x1e53e92df6c53ecec4c0de5b07dc4c9a0c5545f2abcc1fabf4ccb84a0a6e2c27;
0x10fcb817e10f69f7074e64c393b807cdddf33c84a8b5cfe33f44b73fe18c0e36;
0x2b1d8c11fc652c593543b6f9800bb7d0c9371dedb96f08bbbccffdc6cc44db98;
0x19f473e40c05676d5f8d51e11336e9c65cb32828c397cc8125f1dc667b6cadf7;
0xfcf3a4d9c6c3392de1bdfe25cfb86817ecb80c51be17d47f79750201f1fcd01;
0x23b02d00fe2634889673a7d04736fe15b9f62652b1c0626a19af8d6085d70822].
Definition tabC_11 : list Z :=
[0x752af3c6fdccaf3868276685f0a69b9749e1706a82917b64ec2ef847f804559;
0x69503d417e25f4568c7858ba8334301c0fa19c1b348bc7e18a4c1ace1d15418;
0x25c1b121f33f4cf7b308ec4630f27b603d22aa81ca3595e801c5fa7d9770a096;
0x23d6b55145bdb32827c1456af4d7be4c2d213e825c1d2f0c9ff99b2273751f6e;
0x1b357bce3ef3f2b76afc2b5804805adb14cf6bf37fe2357c79aa7d6b32acaeca;
0x28ec5ac0881c1e6426ba499409894a6f3c276fe5689f2c35c9027e80944877d9;
0x2c9862524ac8a07b47d211c9c504c8b0bd398d028acf690e4b8ed4005dd06eed;
0x1f6e6f0ac4aeb7a52343f30418078b40644cd43e290da0baee92891c4c065ac8;
0x3db3517e233f8a76d21b2fb23c85fa7cacc577769edea09aae39407b9af2fdd;
0xfc333dca4183dab479c5962eb05ee4b79a8ac6e0cce9e9b0a2142247bfd0877;
0x1eed281978a8395c04289b86197673b0f2b65e1a135264527e250a5cdf99aca4;
0x2e370db23857de3689fc9b908bf45ad8f42da900fdb4cc94a7a416286555a7f5;
0x109bb6e5e04c0eb5297130c6524097470f3375c12fc9092d21ed33400617a0a5;
0x73f4a17d45ce4cb6f4db87d6f3f5f4f1650c618e403e1873ea3b8c4dc187cfb;
0x1a3bcd45a2b1dfb8e75686d3651cace13e1a22f5d838cb4a61b17417665eecf0;
0x27214751aa86fd2654ea05fd2611f0d907287433875a8b0c3eb4b22d24d73ab7;
0x1c5463d40460415dc684ef2415ba66628b17ab5f9fbc9597ba65b74892d34401;
0xf934ec1ecd7ad74de590817347658a22a783496bab9943ca1a3c604d4cb745e;
0xec2ad1eca0b260c4c6573f2f3b506e946d2a82aa5f9e65c2fc4bf65d310b1d1;
0x10403c6f930519af3177a82f2be1532e5758127ca9fc84c93c652279618acab6;
0x12cb8319683971740fa81660831ab6dbd3d93c7bcd441a912810d963582bf346;
0x2c7cbab33b6294f292ee0eb31d53daf2eb8494d96a81c0fdbd62ffc681e71302;
0x19e16c1b9123bbbf8fade03b4a36c5df8580f8de0163679b1815dc90ec581bf2;
0x2d2734fdaea6da570313df4a533c0049e44b72b64906ae9cdcb3c86708637a4;
0xfed7ce5d50ca2d33d1adfa990161fc780cdc30c5bf2d588184a190f686567c6;
0x2533b8b3df21fce8544a6e12fd4c3c1fa09d3e1f146ccfab52af1ea4d6ea361c;
0x254a9b0da17f1d13495dfaf68cde98e224f80697a0c31b89af097f3cb270f277;
0x52a196789e7e3c6a020a0d2f82c246a903ad7f8ce3cede8153db72ac41ce566;
0x21df9d899981e100541aafa28753e763a4c5a2af9845b0e9b7c4ed1e7beee2c5;
0x10e9254d95c04bf4988f6de51fb019c8a7c5a20168b6a59479355e880028c873;
0x1872d404afb8424952958f29d07b60d9f868d5f26a4d260f843373b706c3e850;
0x2f7fbbb32af67d88737201022b56a6df47d476dafa7b88784aa9ab73c57a6f9e;
0x27b5ad383fc085d2c2639e80629d7086e4030ae8e08ebb403860b4eb2b4ac487;
0x20a04ba73975ea1af86ea418e5b9fff424b93a3807ecc3aeccec77de9c1d5b1f;
0x4d2735db418968e804766f579f2a4abf79deeb66240fb29907b034db93472e6;
0x210ba11f3526101019b98aaf9492c04491eeda701ebac8c66c453503176fc0d5;
0x598c75413f3f84338c4ddf176e856f6ced73ccac8d5bc8fc6f12d5f306ec8ec;
0xf1a2d9fa8407e310c58af407bf730becd9192070d7aa4215379d1efd9e6d2ba;
0xbaf577ac2621cabdcf7ffed4073e27d1f711f9eb5a9739c12bd6df07a3cf257;
0x23ba3057e5d9f1429ec7848b893ab3b40161bdbc6387c958c5872b4491b366a;
0x1b6010fd6990d3e4928fdff736fa857bd517e35935e54a1d6cadd941eadb8408;
0x2943fdadb96607530cd9f1000db50da2fc5cb030b03985d1d3cb53dcd6937ae9;
0x9375b98fdd737f277a2ec26a56d374658f448c690fc8e376e0f1012e4da40fb;
0x1c124f9f3a2672361b19fabaf0f2e1158b313fa2374b72c370b4662bf96e8a26;
0x10e282b93792c2a893c54294446a63bb36a5b3565aad7504499fc22ebcc58836;
0x4bf8cd673199f41df6b67b76dc46cefb40971f0fdd5e1fa15ee1921ab5d8603;
0x1410cbdc261964a2ad500e3b6eaeaa50ea8b119ea11666f6558f9b3d5855acf7;
0x2b17833b6c99d8d44c68f1a662a47493daba582bc549c3cd8ce47d572ffc9137;
0x1ac55a0f9d9d4983292eb30427f1ca01b861f17809f2fd94d3d89b2f72627ec0;
0xa5efc41de76c914410e9147e5e67f89c7792b20285cd0d15a1c1891e91ac293;
0x1344b6db5439c46a22d144f4d5843e29c750b1acf7b0727106bfdb94cc023cf3;
0x1a041839e844cdaa0f7c2a61ca9259e860599258495fb00d6a75b5c503e71977;
0x2555c529d366e3d95899d9c4ad4c2d4ab284de4a45d6060ad91b8a8bc5fc24df;
0x137894d2c7ff06b141e601c9a95f5664119ca32b55dc5e1667ba62524954a724;
0x1f2ed1b26cfa389194477925f4dd3bcef79e89829c8c9645678343a13ab2f637;
0x2072b0c4af46fd5d200122be5c5011f1bff2d44ab5d440ad946db4ba11b52350;
0xcab3a8e77c43896efc4ab5bb12e3fd6d234a0dcb236c7c935c57a00338511ee;
0x400e867efb3a8887126f96ca884358e969f14ba81be4df7668652e15a581cb7;
0x594f14af7027250911a4b05478f659bab181ab426631fa4c369c361fef0e09d;
0x171345094adedc87f3840f78d3f3ed67cef3b6a6a269b97198e012abf0ebb722;
0x1fdbee4f85800afcffa10d76c25c01867b472d48da1296ecaab478190f81e242;
0x1a37c8b010fe5a7f299fcf41738c50f5a904cab582e411ac14828e0c18ba8753;
0x59cbe918d4cc5dcf2d3a31b3af2c2cc107b6cfb03b1be9a939a7f73c5075b8e;
0x2f0054d719e7f0d3991e52178a020d3b7820a7f2a075695df201a5e292831b33;
0xd3353ad739baccf5ca9a56840d99776b5a7fb60f9179dc15950c0639d18fb83;
0x507a8c3d3f5f3965e2e9fe62fe9e824691cb53afd7430b625153661da3e94df;
0x1eab1d2b44f79f50e2ba917a96b21934ebd43ef50caa5b21def5efd8c38d9174;
0xfff97abc5a6318b03b46ea4361c8d29fd8a5a4dad51286897e77c2aba9f25ed;
0x228907c146b4efa56af5b8f2e59beaa01741ab10f3287369efcd78e1b16ded07;
0x183a209d14af4a1a9db0c647ad826fb75aa67506d03a50e6e937e3a4dcc2d0ce;
0x17052b40860ecfd4bae684ae12271e93a32e1b703c3127d5d23558bd75496d2c;
0x3a61810b60e019e3a5fb53fb055f81600c8f269b3c97fc228b373bc6a5e564d;
0x296d0434d977a105b07f8e8d537a8381e885dcfe482c3ab773cf1c39b3bde3c9;
0xbfac73b8e7f9882bf69125684ae20c7184882d3763ce87911dbc3eaecfe86c4;
0x13900e213c48cdefe3e7090111aaf1c0873e21ba0f0b124daa1e9089677ea937;
0x19f5725d859bd99469369d8a5b029401d90a4c7cf37267b4700ddcee31f78bef;
0x10f8c20b30622bb769d902fec064d87fe8700497de4c3a32673414603f341f22;
0x1a5d44a9d6eb166727f3bad1e4c9e4f20dd9e5c09b8ff1685813e84875f7c267;
0x285812d1f7e9c5652ea549efde3426019405bb080408b01f51ff04af5ca4f7b9;
0x17b5d657ca524c4fdcb6421bbf15dceaaec891e7a730177865542a3ec67644b4;
0x1512120e54def6119fc731a80ebf8b9aa449a5e6a5654dcb16ee8781b55c40ef;
0xce6fd9ff326d991817ed66f0fed93298dc8116c05f09e2144830c07afa25700;
0x14c9e544ffe86f310c027522adca6e667dbf138a586e6fa425bf1f2b2114bf80;
0x2e8ba8e57fe1c4ea06a941cdd2242c414fcc9a1e645b7e137ce61fc4456dfa25;
0x1a1fb2e69ebf43dcb8ac7cf0e6856170be8c62ca1db0f77120d36aade9fae908;
0x599e10ddc716d701d5857e23dec1130b5509c3913fffc727ce207783a2acca0;
0x2908ace556ff1f368f843e0842ccd0dfaa42a34faf67e0b78de6c47de2b6a036;
0x1e80d381cfe184b2f11fe38d64454a6292eff23f524d6fafae34ce150d1b8405;
0x32c3b2a8872c39fb3edc92ef95e76fdb6381f829fbfcddef26004da5b5d720e;
0xf058306e4f397b7b02a58ddae87d5165f21bb6109be64cd3175097f63d0d402;
0x2a978242c551fa8626d0def5ee59675998dd8ff90eeafa7d935b58b8a2d0d1fc;
0x2c646cf8d9ed14746f8a2a438cdfc86b70fa1c31033d4afd8694a7363d1ca0b1;
0x1cc7d59c756a8e93071f95f1eb8a5cbc2aeea366715432873be8f94e3f9c8733;
0xd09d0e6b64757bdfd7128d041c430b0d21a80a3792d0674f0028872c14fd8eb;
0xc28d39d145cb8b6afe18576403080ed19451473b578949a491a095b6a19d082;
0x22a2a85f132915aa09898077bcbd76e572e4340d8085708eefaabecc37ceca1d;
0x1ad68c4e148a6c6197fdd9fa2c45f8c6f3111ddac52db08bd2ae77860e203a6d;
0x19b59a4eb2398896e27a0e670529fbf4b72c3953a82c2bba9541a52186cf7477;
0x1e3aeed61e3a7bc6dbf7674f8002a59ee28d3d5d51abbeb5d850dbb3af50559d;
0x237d14fe10cc10d41cf7b9545c5dacd245207725227ee5d5578a3cd163c4c161;
0x7a561b03c03a856f5d7b15e895448401a8a4ddf1de311b51663640c81cf44c0;
0x20e3c12021f53fc206893985647a3ddd64fb1660257a4b9d7d33fba8be729a1a;
0x11cfdd5386f9ddf36e9e1a271c0a8565e03aa7e427c624c5050dbeab40b10b65;
0x97b90f7016668c55385a0f101b699d0c924d1556918eb58c9d9a16c7815b3cc;
0x23dd4f8205e9cb9e123e27e80f46b8ebfb4554df41528acdbca14166af70a8b1;
0x2004cf48392d1d3492069d0b20c5ea636c7de4704668bae0400f32d0678b5f90;
0x10efba7ebb220de9af4af5b3d2cf4e3a463d6f61b3a51b190b392897922b15ae;
0x26ca8fa32860470e9ba95f2b328f45b6d3aea8c6694f52f7b2b6139b31f0e659;
0x2e7a6096889e932c3bbdc1234b042946ca8dbc3bd9d42894e227abe994b3954c;
0x2b2a5b222000c7485717e5134d31d966d01094d20142ce0be0ed5bcd238fa4fc;
0x5d252566db243c26ceed95719ff4e6b2db926a82a90af66c3913457724d688b;
0x3016d7a342ccaefff833834f8c85e4cdde502f4cfd2e5e67a434ceea8e7e8734;
0x22e4a5742720cc545f5a8b5ec81fc76c856674c2956c74e93d09da15b9ea85da;
0x158c039583d91471651b425b67a9c428746b7d2ff4d3f9c7805cd097252882b0;
0x2e2b9193aee7573ba18105d36d5452636f0a4a23f6bb808dd7b8351b3104288c;
0x15288eeec077977863bbecc27af0e88653434f9db50041bc64cae3a4ab0267d6;
0x294ac3d23fadc39ffde4fc51c231fcb1e9043d207384a51281ec6993806fcbc3;
0xc994f0154a6042df030cfcb8775ea9baf8790d101fb004f7921bdefee4dd;
0x23be197c83df334c3818a4eb54f3755fba5ad61c6ca408d6fcaee753a2e449e2;
0xabe4f60f5710062df7838a25e613eec5c7c500292cfcdd88c4b104f92e66dcf;
0x22d9eea2ce981be68d03a627a1ac38ae17393b42fd589e8492df86bd03f69ba5;
0x17fd7f4e675f456e77902bd68da43d7a0cc8ba75075bdec73800b670faef2c81;
0x3cbf13917d8f6962b85bd9b1b475e083a9a6503290264d732bc7045eb4c0e7a;
0x13e3842e78b6be3414c29bd5528593673bcf7a071c9e547d4a6a8e8c1f29f43c;
0x2638bcc34e7ec977e6205a356d8073edaeb37d6d0cb2ee15ccc657e00884f71;
0x1824a36f9b33cd88b29d9d56794c02f0498c8c3520cfeb8d7d23df01dd11bcb8;
0x2f64d3e9e9660efd747a28a181719770cb89acc868f1db0b42a0d41424d5b97c;
0x27e976b95c1db0a431cc63d2bcb77b7420eab7240caafbd4f6ed94b771d7ee20;
0x71017cf059038a6f1ad9223c843e6f687774a7b677edb7d7dd6d4d8aaddff;
0x263e1eb69b7b2c87f3d9f4d492100367041a00cc20091402d6bf495d74deeba5;
0x1dbd8f7a790ee4fb6123d8162e879b6d334e137c224da75baf9b00dbd5b14a27;
0x1df0f444008cdfef43484dc04f5fdd1694d6c90e8f2e35a1850831879d9d7a2b;
0x2ac29049462ba770408914036f0fc449f4ac15c4a5c16768e95e2486c62da8b9;
0xafee4216cde441ab47db90ffdadb12b08978ac6f623f3acde4d4f9d8c77f3a8;
0x1f5df5e1d3372dcbc83d7072bfbf2ba8914024e3398ebbc3461403d39a1e9895;
0x11c09f4be4433544bb604db662a722bb16824fd85c484c45bf25dfa5ea9732e;
0x111ea5feb756eb07f942b5fb23849db24d1065b278b4643d55311c0672cff942;
0xab7c194763587f1dc30e0ed53aeb6eeb6036acd702bbec9509d649a81f940bf;
0x282c5951f988191603f9dd07759a4f653f19976943d20e30d4c0f8faba0daa05;
0x23b82721a7cdaac2a39f7b4bd10176e50983f32cfda8bab88ea746ebd4d25ee5;
0xbafc22c31e735870dfad91a56a46ebbad29b29e531649c85bf79c8dc91c792a;
0x24710e9cd9f6f42f71cc8815934ce87ca0d677facf1f3d89a9abc2da898f9687;
0x2475ccab50e2c13fb5d772a07571e0e6be551a55e250e44f22adf1c7a4d7ede8;
0x17326fde68e193e4a31782f2acecd7a468493aa94d63833575ae5184e9ba2441;
0x1d044be025c79f610d4009ee0a3f3b50dc556e785718d196e67c60fcda498459;
0xbc38517b0bedb66a044e38b1c199d110fa36adfa1251d46e635f22ce8fb3b61;
0x218a7ed7b5b4e39d21cbd4ecdf0d4f31308cc205583a9ef6d91ed6969b45c27;
0x70989c23efe1c0d6089f9bf987be86854b4bf5aa88b37dda3b4fbdddb068f36;
0x11f0a1f2d5894630701027346163a4c6974023d321780e91c8df5e91ea930c7b;
0x9070202bd144c45ab704c72dcc40a5566cbfd5826f7af4746b4472b1e68c390;
0x243392fe4cd6ca6b6747596c387450ce6a1ae7b0a90eba222c3470d8a80138f7;
0x1a94265093ab44062e5d0e67df9f4b702df8de8dfadcac6cb4229681117a5da9;
0x1ab31ce49e37f690baf9ec7b1443357cd24d7bad16a9e6e95e43b6564d987b1c;
0x2179ceef0feee3b0b03c9658e97b6342f25b208d7ed8e526150fc3b559128c5f].
Definition tabM_11 : list (list Z) :=
[[0x26dba58ade8cda188f49e52fce7167b8f219dbd924d7786b0f98fb799fefa2e;
0x9813c803ff84a3694eedaf4b1c2172615275dc18ca654c799a70440946ccf0;
0x202973f7fba5bd21ed58bfe7156d7b29010d41090f63f1bb290c1d5da1ad60;
0x12305eadf64dac24a7913a62d95aefd45f48355576c671e56fde9cc7c8344ffd;
0x25c783ad66d6a1fc6c84770bd637f6207097dffb0378d7e0395f8c0b86b505f9;
0x222deb606f13cf28c73a67216d88b16f5958d5d292ba10ef3bc2c10f5a0b613f;
0x1614d025472771fd870a9e9d422b3571c5494e7d679824d8fe1212177d5fa2ec;
0x1358bdd6b7a51b1f5b5d094dbd8ee086ccdcfb9c27faad0806e8ef718d0e2b1;
0x1c2007eba4d1629846bb69404acc84565de5d24620f75cfcd9f11feeeb3f3748;
0x22f49d7244077e41f409c0b353afd1696e3aa15ffdb4a0bdb883ffe7a1a87217;
0x1951523a4270c54403dfe3218fd3d4ccefa43114f1b19fb2c2821a4374718b9d];
[0x11a131a3778c3774233bc54096419d463d3abbae18322a7e77a511881665f93;
0x1495af03dc9180c886f0e1bdaf9d18e32e6b0d1b80370e7cbe5745dafc433523;
0x119344c53707f00243983c6d024fd49a0f8af80e5871933e58ff87c3a1f48b93;
0xa92bd6a919d1605615786f2efe80743ca57c10ec80cfb926722b5bed408b79;
0x1c7d3a92caa435cdd974520bb6fb6cac81634cc9bf4e534df77736e06d768c3c;
0x12fb88a0f6f749d68da9250d5adecf088442827248d67f989fd14b5c9cd4d4c7;
0x2f6c4e097bb5851be12bbe2c712c2fa906f310b78048d695b4aad301ffc0d268;
0x1c06c782fbc0980b9e493b29a5e4a04aefc668cd4255d6cfe208e9e7c8b9a1c4;
0x211865b7f9c1c791a33d703ad3280f69756324349afc8912a19b83de2cd06a0c;
0x25542e07c1c13979bb14f8d4ee93dab7a3dc750806cf37f2c02ff53b4bb9e66d;
0x12b5a09e1e95e0d01fbcd234fad473d8ee2ba976fa22827ffa6dd03c8b25a64f];
[0x2a18ab4dc4777e13cb8358c1c423153570d1cb909544243abdacd4547c8ec3aa;
0xd95e8cf8a66b56c32e7d11e0107e41e1297122d1acc41332f1b49895a3c97fc;
0x7c22f96f2f55653d04edc63150567a7a04609b0b79eecfacb1485dceb7bc873;
0xf716c54de41920c401a62df8f9186e19b9523e98637a5b113d61ccc30ba0213;
0x2cd68fc31b67dc45fb6b16f42b5eb89dba2ae7e9aa50c5f1915275a81887190a;
0x66292e64e6a2c64673aed365cb50f7bd4e1d3b5270f6b2e9982590c3f8400e;
0x8a1ef65f52128eb3b22df2b6aca30509b0af8af2f7888eee766c0c24871188b;
0x24529638ebcdf26de8816287fec6370614e112e10c039190c103a75ced11b426;
0x12e4b5408f48641951739ea27e521067240b82aa51a42de2d4dc1e8225908187;
0x84b88b1ce4598b701cf96a3379a02a3157d4193c8a8f1157459f6a34ec32fb;
0x2c184e904d7bfd368d4495b9e3027f9af6b9313c8f193f929ac9e24d10d7a36f];
[0x16ebd782cbcf6d63c38b87b27db2a4a5af5847a9a60889c4cf6aa318d6866b1e;
0xb05f16108c4616a973b01d82e50d4fc9dcdcce67d2d21f852816bd234e9872b;
0x2f394cfd3e442503c3a22512aa4b76b95b743c7076ca4115a9fbbb7c6b07ee5d;
0xa157e244f939125d57f9c8e66f7d88ec0fb3c05b90f526bac0871bca84677f5;
0x1d4567c12db648d4a9c41324c0329325b76a07730fad72ef9e490a748674985c;
0xa94a2d7c4093c638823b095733f37176d7e747ba24645b515ac2a241ffdda81;
0x2f6f14502f20d958a9ff23b696cac3ae24967517ae8b2e9592daf451840bb98e;
0x12641cc3cf50ca67bc93bc8c19ed89d4613e9e281a51cdf313cbc8111922242c;
0x2185c7a4ad8cb21f19009396f134a2c3fd614d305e475ddd19f26f6d4b3f9ce;
0x2f6da385450911cd272e13601e7ce66c2b91d809307492f7ee578ae34d6f5fb4;
0x16fc48e55d64d83010ad573377ea2422397fc3a7e6c88af808a566de0223f0c0];
[0x2b7ed47fac275d34f842f09b01ef9421014de040c26a591595b227ba7bc6fb2;
0x230b62315b30bc49d73dff8a9de79c620e03c747b14c432f170715e588d605aa;
0x206351750037bdc90d4f3e7918619fc690c2b5857f8bfbd86d7c001e4cf2ca18;
0x2218be861d524eaf03b9420b1368e9c5aa7cefee72d0e6ef80732ee9d7e6e2c0;
0x69ee4eb20b4860d4af91afe1781338f53aa354562ecd873e0e625af70746f26;
0xa226128da1d9bd5b329f55f52c75682def3369ab13359dcb7d212eefca86229;
0x17ceb42a19de6dd32e3b38cc2990e64273b52a5618263eebfa49d84518ea3bef;
0x29012deffb112eb14034159c59162f866d4a1803b4d192a4329359f0f903266f;
0x9c4b2f61adf245266168cc918e96f7f8dfc35bd3df7b23fc641ef01bcc71cce;
0x1802b97e54bf3a8978632cbe10e429705b03680325d26ea190c0f1ebc7362ea3;
0x2db1ac4c2b1c23a00027fdcf0f663af896d87415bb035b149d28ad3da98c6fcc];
[0xc5e49e319fb9535073f07f9e055accaf3e3f24a35dcb46cab67dfc648efaf30;
0x15d217a31784741048f326e155af96e90b5aae734f06779e698864039c92e123;
0x1accea09c2bfd17f4061725c712fd1976a07e773e54d906da166215201a58136;
0x2f9bd19d0c8c3887a7fc0173f863f075e66b183ad89f13704930416e1d5cb7ec;
0x6cad0c2bd438c4dba2ed64bbf75066e731484c36d1f6738b6e98601e9fb498d;
0x1b5da83966361586e8810fed032435caa80a9b476db21290474ed1977fcef22f;
0x2adbde5c7b73e9a7e22b913f99e40d95e689c65c428c2397cd273923cf68ddbd;
0x1a8b8ad1ecb6cb888273a90bef8b1a2cfc03dd44e0b28b18e1074e404a9e0f4c;
0x281eca14bbc3920919e001150451c3e44ff18e1dd1171412ff5e663d74a073c1;
0x54cc81c7d1d59581ebcd26b16ccbdcbf1968d77f87a2081d13054f51118f7c;
0x170c05a5f8a55d5c9fdc5e8238b367be358917a19a28b4c47e46f3e73d42a085];
[0x161e4ae5b2d24cd638ba5c32bc2317bf90d404e37e003f1055d9a96e406d30d;
0xaf9afbecae1761cc17d44b51ca66d1dbdeaf341e85f1082958f9cb72f7b55d4;
0x5e52c0ff8c04a8e5e3c7eafa1d0902fe63e35898934b00f4333b38fe614f913;
0x14eb401c1084a9ddcd5d0092e5d1a299aa0f55c351545c781703c01ce87d6b29;
0x1e0e166d734aa614c6b53db4f691179841a33f8105430a3ee70abca83ba6ec6e;
0x2fa75deed281db734faba5b70eaf57962f93e2eea1d3dcee34c81ab1e9fcc0ee;
0x14bfe33115df293670393e1dc8da4d6947acc4b60249e5b1c8cae376665cd580;
0x17ea198f3ab261da000152f26b0eb0ebe088a709e8b06a18a3dc2108c2096864;
0x533e8a454b8cd6df8d48fa9b0a9cb2952933e1a6b1d423cbc54d0533a72599b;
0x19681b4242d11e28aa72530cf33a7d15719f1a888fff625e04652c77ee2b2de3;
0x1eb7f6e5520215c15e274355b19bbf71abbf04aa426cd07da536cb3f909f6e57];
[0x223c7fc6d24fc53d1b428edb8f1c52d20ceec592187d2c7a6b0b147b6292b81e;
0x1da4f4e3c6790ae1b89c4118861d8ca2a50cc82a4e7f1ed3c5ba8cb944ba4689;
0x2e708baaf894bc5835e5fea81227fa8cfaef99086d12b0a3a7f3f85bbca61d28;
0x13fe23be24261ba5b92d363989f58e17fceed4a858d1c61fc2cf2b71dbdb6936;
0x1c879c9428e19607d647f5ef1415e76f7c59fd01e52afb80486081851f9a5284;
0x128cb3150b15cbc4faab14bf7d676ef3682b52cabfc8d3419dfd98109d19ecc0;
0x2bf523cd8aa3be20ce7d891f8727a7b24b72a4d4838484de842acc782fd8bd32;
0x45aaa99ce1e06a3c02150804a91087f57a43b79797773e83216ca969e873380;
0x284ccf70859547fcb9c3c7b64cf0ad62e51726ec81b58eb01c1a1f8ec7a9eb70;
0x1abfe4b1cf5db29d4078e5289bb143498abbbdc9af56720470a26a3dfa2ba855;
0x14111a74bd24730c833699eb41b38f1d4ed16fcf0fecc1655b76f2437d4a0c9a];
[0x1ae060e39b338d09845e2e9ebeb70bfb74cd4af926217f5732be2b6cb7fe72a6;
0x2860aa52dc2f967c0c1a0b942ac81e02189d031430c11a919a5aa895bcfb6151;
0xac23f00ff015baab1c8be9a90943c3c72d17818be7ad427c45eb3ff1828727d;
0x32fa2f166622f057f61a9405c9256223cab2ba82c9495607921755ab018f690;
0x215c0cd4e3f1bdb482b93e571879d7931be90023d7a220e8f93b21c8add41ffa;
0x52700b19ef6d42ea392e044a094cbfc308eea1f72f2a3428b1e721bfc32c6ad;
0x33b93a5cf15ffbafa2726f2527824a11af8e42e01d3a7ee159b273ca0a6520c;
0x254e3acdbc75ac592679b032b65a9c91d2e092ab5e5719551b5da635b13e9471;
0x4fa5620a2c057dc552a59fdefe50a901068190fdc3df8761991cab50a01a449;
0x1d2279673f6cabf0a1c4b8eebf8e9c78361680b2e59d7ec19348819f5b3d5a14;
0x2d46b48e5090c0c56a390de373f4c9a2008db311fe31063cf4fed54629113585];
[0x46191ab41e93929ea51f190fd4e773ac8d5083328d4b2f04828dca3e69098c3;
0x16ff33d67c85121bcee7d81cff1618927f1c92b4d1d21c2a07b6ae18b2b7b9b7;
0x2134798f4ca7fb9928012c937f37de87432b8665aeedf373e7ffa6fe0c13d00;
0x2aeddbfa245756ad1e1658629f747b8da7593b195cc950324f95edc9eda42aaf;
0x1f41fc67ca1322b37b7aa01b631fd19105281f6c6a4d37fbf68fc1b5f62802c6;
0x22d1e64d4ee15e60c459d851ef9f3495e937f5a90990382c97867c45b7940071;
0x249f416fae5ab52a435d65201006dd8ae8d54266e4d5643307551902423f7cc6;
0x12a996abc8577021ac7880c16f058d9e06e9511187f0aadff6bb640e4316d26c;
0x2d2640a74ede9af6c9888e5f68a84fac92b13337dad8fc6152fab34b55419908;
0xf246d2fbb4e1217f09631fbc8770827c36751e6ad8d6fb16810e3395143ad80;
0x15f30ebdfb8b8ee644241039a26b408dc7a8de77f2cc6fed754b703ea92dde53];
[0x14ba1b5383e3733c63d00c32c2bbffd8e54507ed33bf7544c86388191eca3e40;
0x1ba0e835f47626b0d82426900c49170a8be29c39d90337aa5fc10764e2321a1b;
0x219f5e28a5fa52689d2b7be432624280c940c9bf9883c1fb0fe929f78873c1b;
0x123a6055681023b16570c70fcdf3ae8e387a973690b9e6761be22f9941d7ef76;
0x1dce36062af7e4b0098f5590622ced7af9f28e88d476cde1391eb30408d5d266;
0x252e74746677fd7584ceb0f8aa6936bd04f9528ef600737e9913fe4b5698eb28;
0x19a9079a9897a237074252767912bed7b7635ae8ca0ede2dd3a42a75c1c6b81a;
0x777edef4d91520fcd490a22dc569a97e540a0fdb527b4b1a3a854fe346b8e7f;
0x121a3764269fd35cdf1e621c3dc6318f47b862380ba00357849d8840059463ee;
0x2f80ca151b077b50767281ea5d4c1f7457f8da444dda16d8149bb6c1061ed0aa;
0x1ee950c45a0c2f4a4b64688a7935ed2b63d4fe5b414afa05c1a284674409f165]].
Definition tabP_11 : list (list Z) :=
[[0x26dba58ade8cda188f49e52fce7167b8f219dbd924d7786b0f98fb799fefa2e;
0x254a28279a58c838f7392034aa21d51ae44e1449433d90824b817e44b90cd22b;
0x281d2ccd521bc060d152223d46196f27b048f33ce6ffbbbb0884f3d5c64a6061;
0x10b388ce0c7860c8a70c4e903e61b3bf97b87e324c9150ce576aade8b2d06a1d;
0x3ed1d46b39ed65512e3e4c8d53cc1d2cf110cc65e1d65b37f1e5e785a6fe6e0;
0xbbac4700573f9573a123ac6a2735b63c48df92a7c91cfd1e88186a061a102d6;
0x4083e23f948783c32f671cad0395794a2cfa8aa1c1cb6a0c0105590904b2593;
0x1fa80347e1bb24e08599758c895a5a13fbc63df14dd9063f5ee23e5cac163b61;
0x1e465c7a4b123984937605aa07cb8cb830591e22e25b4d94d2efef2f25c17f3e;
0x125febe3a720ed956f1fdf75648260e56e67d32d0e785788d1cf97ef61f6ff69;
0xa3e7d3671a213b3184ac44ea74e12085cf5380c688ad23e8300e69333c123a7];
[0x11a131a3778c3774233bc54096419d463d3abbae18322a7e77a511881665f93;
0x11f3eefe7629e655ea90af7061b775bdffbf26dfcb0f67a5578774e4b237376d;
0x11f896a08f039c3fe481a03e0b8c880edbf71b783d169f4bff14bed5e1b5f15;
0x127270ce679a10a9b93645264ed270d96f109e3f65a437240d629e59eff1b2cd;
0xe81abedbcf77d0706b6a4a7438b5a9c42257b1233f0426225c8d410de5806f5;
0x1bd40e4b13c0eb7bac78d2650586a59f28b7ee26be01fa2a677e734078bdc210;
0x22202ee3e2df678269ac3833b87fd279d1d045fc42eb3ae75107188ad0e39bc5;
0x196301b7681fd2882ee086f61a83db475a030017f92f72dcf3ebeaedbc571520;
0xcb517d9337709a54dd958c64afc6c8ad84fca2f59fe3098f74a7537debe0d2e;
0xd9be42ce8bb76bd249d36ba2d8c5a70b52d20c9c8686b7cfe346d5c72bdc15a;
0x2240e2f64b6f5bacdb2d6aa0b444887a91d1ce0eb1bbcbdd58ea71499b7a85d5];
[0x2a18ab4dc4777e13cb8358c1c423153570d1cb909544243abdacd4547c8ec3aa;
0x1f19f9b9169b49713bfbe59154cd93aac19d03b4668733473fefac6eceaf9a63;
0x1e6425bea9db8ee466777ec75d3103cd11ad6ed24283a0b188b5aade7d496cd4;
0x22e2d64bc44841b96bb9286970439150d70c55f8d65fa79f1a4ab34befdf3c15;
0x22ea712a97059dfd8af604c752e478b8d883333e6749b2ace5385f0ba8697f67;
0xc19fc53d6d946af3d7fb79d8f22c46df2e1b0d0f2cfc983345db3287c44853e;
0x177800e892cde6dcf66dcb1c337b6f7f6f6cdb54dbe7e2e2776abbfda1fc67af;
0x133f706a099e95021e46b79e7f0fffdb210d87a4db1d129bd6fa5f62113cee23;
0x2c540ac453bc95fb61ad879a56126d5fec7ed9300d545938bcd80c2feee7a3e7;
0x2575061c9a069654a195fe41554ac0f4080dc8f7e808d676f3f33c615978d593;
0x283d7487aa3b5d0ede9c741fe754882776708f9bf68c745abdd38250ce70c288];
[0x16ebd782cbcf6d63c38b87b27db2a4a5af5847a9a60889c4cf6aa318d6866b1e;
0x15b3fe328216827e93598e15425979e9dc4d9b9ab421f25aee3e49bc6067d6bc;
0x11cb96a094be409eca05bc42f6d8ad0f6cf09cef2b286fe5945d587cc36862ea;
0x1e5c6cea55983c991761cf70ca77fc17c3789a8023d2752554b49d0b8fd1be7f;
0x257d458a2883c760b295e5b2789e6a942b8d50fa6fd3eb093a96ab81a9aa693d;
0x4603c35c98c1e379b235724bb309885e9b56284a6cdb1cd0d3953270109bed7;
0x1b2957f0c085f578b4a1b58a21143c551e5451ec46b9fbf6ffdd0cf6e586a00a;
0x17bbaa8b0ea832469bf933ec6ee5941a1bf97f0b7b1f6b0ce3f708d43795365;
0xca0c774b1bd1c2b00fe8f6698cb08022e4a3fcecf13d79953485c905b76f8a7;
0x1b0265724a00dfdba001c87dcd71e5c04736a61821b19f30e02a4b53eb59a12c;
0x29ddc736b1d7fdce1bf6a2f684702703e857b3be81599e485932a1c03f4fa16d];
[0x2b7ed47fac275d34f842f09b01ef9421014de040c26a591595b227ba7bc6fb2;
0x15a1af15f1f7a77a5e6e760470e7b7cc4da48f3fd35b1b01f019384381e37135;
0x15810baa26cba809c29275debafe2859cf2350199af232bf920496c5315947a1;
0xa1c89983188b5230102c213ce35a9fa49743c5490356fa305a8578c716f7202;
0x2a9243c6a61b2b7464f22e1603009e6b6f7946f31cb71cfd4d291601458ec39e;
0x14b216d879b61949c8bb2ff6d43bc7fc3c634a90b766f2276b0a5c6b09938cb2;
0x2b2b79db9b5bdc6a1844c4e5c7f33806d44ad8644fa0117f5bbfd7183754bafc;
0x20f56843ab66f86615274f77030d662e1f6cec212015e14896139ff6d28116d5;
0xf2a31d4612576ccc0cb003c57ad2db723008007b066054d114a9ae32d8e604e;
0x1a265ab962a3796d2cb4ee2980ff3bcfa03e8d6738d59c8cfb899cb771f9a61f;
0x5f7ca424f02338e81927a8928c0f02fc78eb1d1a08c3bfb8965cc7b43d8e056];
[0xc5e49e319fb9535073f07f9e055accaf3e3f24a35dcb46cab67dfc648efaf30;
0x1d22b55a0b71329ee03adbd79c0a1e7d32efc4d765e6e581ecb349e2940f394b;
0x825a6da8cf0213b181fba494995ef1fedf1d867f8c777ddb93d10b64f1f3bac;
0x189642d90074b6ef89e102eefefd69d4d69e106cc6d77281b971315feca3f6c4;
0x1976bffe10562085862cc586a3cbff8d260055e1ca382a74332328c0eacecaf6;
0x25195d63f3bc30c2896cafcbcca1f5b73ef4b74929359594e4421c7c9a1c8f8d;
0x1f523a01526f1b783c2e3760a4e7e9ccf8ade4e32b56002d15baee4eb794465a;
0x17cb6777e65329e7c510142a85cf3781ba33de3ceb98a4ba021d783d212e7492;
0x1308c2b9ba44163ab7190c4c151c7f44f2e19eb186dc82a2443446972d667ec2;
0x3006fd98ea0d9db2b33144f885e201534edcf4c3ba6e96d8a22db2bcfe8ced48;
0x14f241ecdcca69b025108efd0fbf00ed34448e7bd804d5e85a835619791468a4];
[0x161e4ae5b2d24cd638ba5c32bc2317bf90d404e37e003f1055d9a96e406d30d;
0x2b04ed9f42228f06802c0b537dd014217f3c444670a0c6f88b3b5ce001b0197b;
0xda48eb83004661d01df489e8156b75d9b661c61a9ee1329fad03ef74521def7;
0x1ba1cb5df0f9b236e9f7c4f637dd1e70784a2b07f8e062088b72c3a392d44b2d;
0x2c22be8e5b7f7c91490c46c27a09e91872e361c1e6628793b9674569ab3c0b1f;
0x83511f996c9f415dbe56786f78ec97fd8c84f5d4ffbda454b3c4d5901ec92a6;
0xc3e13ba070756735522097a41a9138f5a44cb5856648daf70bca100d2346b1a;
0xb14339306b1b2e3114e50b0607215d3f92ba684690d78d2a6ee417a73933c65;
0x25c2045be7d9a915562c78bc1ea2d954155a0289f900c757b7138596edd9db6b;
0x1b909b20dd52d51184b58d123962b7fb22cbe54881117270d279402c4056dc39;
0x1afef8497500f3d89345974c67a21f1e18fa930f7d78a1ca691bde258c5e2c7e];
[0x223c7fc6d24fc53d1b428edb8f1c52d20ceec592187d2c7a6b0b147b6292b81e;
0x8bd608629b132b0d741a305ba0002b9ec1470499f5c0ae88e26f269ef00320f;
0x238b46140eeecb9a32c7289626b692dce13cd51bc3812f1b0d866945c0e08e41;
0xa5ca2631a8379a163fd40936e6913afa60c1850b9e04b622f2b6e109d179ecf;
0x1656737ceb63a2d43d462ffd902804d11283820356001961f1239a1e7cd23108;
0x168df74339cc5c612553d91ce34b44f60123aa40e8486e3177cef84844529bfe;
0x1d1cea63939b21940f784f77c0f79ed523beb6df5432911930878b59f92c7f63;
0xa2768ee0edf0b7e5e69a734e4de8129136b926e5ad1891e6cf57a5c39a14da6;
0x22c57e5689822b5d931e748dec46c5e64c04067f579d96b89b608ab5eb5a1e38;
0x1d4ee90cc3cedbb9973609382c57bbb1b7629fc5398ba62e2f8f7a9c55496ca6;
0xf9c70d6ee5ba237f04597a71278dba03151a3efcc594cfe61ddf16b5cf1722c];
[0x1ae060e39b338d09845e2e9ebeb70bfb74cd4af926217f5732be2b6cb7fe72a6;
0x81e512179c27b63294fdc958ac35b91ca61cb3fcdbe4e661ce465eb3b060adb;
0x64bd952087ea3f724ecaab7ab891c7164148247b3d9534508559f290ab2c455;
0xf48a6aba18109eb41509d160d2b6e2bb75b73f2d360b142e2253e99285a613d;
0x2144765053902fbc1577578eccf3fc1990cffbc464b8d5955e387653e427eca0;
0x149178f36e2a8348229d4e5f829a53620864b7f8c3829adb1ce2f4f8f6198a95;
0x9e651e10ec1fe98ba2bd23aa05696c4bc5acd233717b7069069a206301f7e16;
0x2f995fb2fe9a457e970030416b7811a93b31b3f2ed7c7300034cf958575b3ef;
0x98eccc1107806d905139f5aad87c4dfe9ff0d1eecc1de30e8c6a4cea8c51dcf;
0x1720f40d61fac0f66408099bb1e34e3a48b29ad05b8910a7bc257e01de20dbe5;
0x18fce50e6f51644e0968c44adeda32e68bc24c25e81ec37ce5e8771383cb76e6];
[0x46191ab41e93929ea51f190fd4e773ac8d5083328d4b2f04828dca3e69098c3;
0x662f21223a41d37668404a75b278b868ab602e313e8c423798b47c47f1f56ab;
0xebaf002ad31782757a58dca1b295b2e0ec0ff3115a8c931ebf74fddcfb734cd;
0x1e1567bb8636626357515a40b0d5ebeb351422e19acc9bb5b7edfda91649841c;
0xfdceb3ae2d8a55f07822d7b92026ef83ee8bc326e3a8b35225d587bdde25205;
0x130e0c983de0ad6d15d8770698e39fa4569f38848ee05757951cfefa1f338fd;
0x2f7be21619fd5f7c05e31d90607acc55e36fcb5b6c55f970170e660f2d818fed;
0x5338e9847d4e29692f22f938875dcc5610464d7393c6d87dd799bb3bbf810da;
0xdc0a5c9bf0d5b38785df58fb22ede06709eac85f230639056bbf1333b9a2d21;
0x10ce79d030bc12a43f0b6fff0d884c15c263113b3a6ce3b24318f0a60164f6a7;
0x232926077aaf9a6e42e885290c6ad736f29cedc9b0ed5c5a0530e405d57756b3];
[0x14ba1b5383e3733c63d00c32c2bbffd8e54507ed33bf7544c86388191eca3e40;
0xdeb781e30eced913c20323aa3f86be585d4cce7f556abd2c2a0815bde87b775;
0xa877d868ac293ccec0f559d48e3dced60c81fef80ddffc8f70905664b3bc0f;
0x1d635d1267a513c78be7288e584254f53012b3f7955147ec7153532760c6c9d5;
0x120a95649ccf899fc3a8048ec4adb59a84d3ff5c292328f6cf32ee0c14d8227a;
0xbcf6e6daea072a539fa1030a61bd0c6f425e9982286ee468ae2ab7bf1b8d114;
0x1c4a6464c867d43eb5fdce8a731867e1b9730ab208fbe77bc9ca7ca010a74192;
0x562e63099a7630323f701d2fa312c654a891e682a7e0925429c0321f6155621;
0x1bb2aca445944760eb02e57360e6d3fae93056dc357ff0dd8882d08983be3325;
0x210f17a9d928eb4f42cc8dbf8d6a7865ab53bd038180c9a1c9a506a2dbb0602a;
0x277425a5970de392ade13f6ee3752600050830d3bbea3566438924ad5159df4a]].
Definition tabS_11 : list Z :=
[0x26dba58ade8cda188f49e52fce7167b8f219dbd924d7786b0f98fb799fefa2e;
0x239bbee0bd0536587314f5429186856d92bf093cb902a7513b11373dbcbf7134;
0xac0bca8c1a15d53ce77475eaa398fc316f791caa305403407056f9b14f47f64;
0x11ad8281442fceb40a4c536b728ee79730be6407d603333ba18ef5b7492cdd13;
0x2927ae7db23955f84264264e7dc4f4015b070620841d9035f54c501d0d4975b1;
0xd9455f3c59c9ea9302e721c00003feb40ec8231463b84c2d66c403cb9110dd2;
0x14d50f175c19900cae3eac1f457e2e02218929f5c6548a6e601f3038240df458;
0x237b9200970d84323901b9d7a12626a3d828affd132d9ac43ae01d5ac3cf618c;
0x19d66d04ca7851e0cbaccbe73156524606cba6bd174d94bb79d3fd99da05a2e;
0x2ca5d1e4cd8007c2a6e745ce9d3581c2661d28ebcf7b723bfafdea4a97004061;
0xd54ce53ed8160546c3555b48c6dc1a95bfc11a529d863ef3d6d63f3799fd407;
0x2c21c6df9e87d0942740cfed6b692c5e4868b781085a292f505a9f53e2969b94;
0x6351ae4eccfe35f6fa2f0e50faf512ebf3bdc02a9b61fc2baad2e18c4c7e128;
0x1c86e871f69f568ec2e47ce015f7b324c6833ab9fbfa2013173857efc040f95b;
0x2175813936c314627ae23d64f217d0725097891f1b1cefeae407bbcddeee09b8;
0x2ec44113a689ea96c746225258ebf92460b065c25e979e5bffbf0f8590315eaa;
0x2facae956086465c460b678df8d1a10bc8256e85fe5a3dba26ba637f3d4eeb94;
0x1865d5f9b9b920317a5751591a3275d233aff5b7f6e6ca7c0f6b2e3f1ea0184a;
0x412169c5bd61a200567219a93b8df6b4391fe1da096b22755680536a2173411;
0xbef9d4f49681702d6176c94ef8563f7d1cd1556ef5adf986cd9dd6402456513;
0x10c7e674a66fb25905751a9f355309c0a6b4a622b7c3b29e93c61f64d95d881b;
0x26dba58ade8cda188f49e52fce7167b8f219dbd924d7786b0f98fb799fefa2e;
0x1934288830ec4d6ef05046f36c7e664fc0790fe76e390dae265502624f3e6764;
0x21fe8f4f8f4fa08615bad7638ab88a92cf8f0a6f9e3e695f3458a459fabf9a8d;
0x4e0a4f483d51dd00d1062226b3266d95da5866968c6abdb721d96f8f7e2bb1a;
0x2d3806f1ea209c26c7b3fa95f40e8d213829e28811223aeffe523cddb5246ea1;
0x5f7a9f8fbc8104008bcca318850c76b19c624671782c0104a04b1b03c16d792;
0x1c429b4f17c25e0c73fca45ee8f69e5afff9bbc21b4648ec497276a7366568c0;
0x2a5f492892b38ae10a0615eec76d2f514c9f3251000383d1d1e13a90a9dfe059;
0x1eb8bd92044de59e84b8ff7e28347243a0cf0a665dc38be0a809245cf2632846;
0x65ee5b5e74d35c9e411443393e2462959a11fb9fc95bc1b627cd0f48429837c;
0x10829a880633680e7078e1fe50cbbb362a20d7a313647297a99dbdf6578bbe84;
0xa83ccb34dc841eb9cc8d2974f083c61a9d9f162d6169db459e0544be9935d3f;
0xf8f126cb3833ae566d7020e8bba5f7ee02525d4378d81d36730f97ddd2c358f;
0x2783557cf3c6a0b59926f5804752bfd7de101c1e831a4ad421b12d2ec9f7bf24;
0x91f200acb6c0436b64c4425917f2fa4c6373133a25ca40a19a28cfda9b219fc;
0x1e4a28170c7a5034f70a700fad1088648e97a11fb4856e22a5239385099caaf2;
0x29d63ae313de07d1dc59205c4b29f8b95baaf7efeface383982252f1173dfd2;
0x188a2d62c5e3519664418fefd0fd0f214b101577643ef5674cb5e5e4d69bb7ff;
0x230324a35fb7ded74a04c7fd4cf7ee0f68cd8851e1e86b5e4c2d9c1857d2dbce;
0x27e120b07d441aa2864beace6201c4aee9a06aa4357fd66ef765c6f10b3d3c88;
0x2d6a0fac700c78ef54b97bd61d43e88b5215f352dc6806201f3e32ef06a1dfea;
0x26dba58ade8cda188f49e52fce7167b8f219dbd924d7786b0f98fb799fefa2e;
0x19214ffdc30bd79894098fd3804b092c50b04ed072d36155e2003204e1628efd;
0x2f15bce2fbc19f00682f8ef66ebefd1fc0a67d43e4255f72ff9ceda492c98752;
0x215fec7c7c775fbdd3bd2317d73399873ec497b6dfcf434c606dc22603b41b05;
0x28965510c52457b2b0d9e49812da55f08028f23ff9764622f2af19ced2eb250;
0x2798d59530d1d41a6a311e90c9c37f0bd389a39737394a11829181d1f26c4988;
0x11542d205011b400201141b40f0e818051b0a983ae9387786906bfa71cdc1f5;
0xbaabe59e61426a7f5ebc2174ac06d27ca7854ddc67e51b8bb9573911387eb31;
0x268937a0fa2e75f79c04d9f2aa6cc56ca52f3c34352cee551aff2b99eb953a79;
0x1bc3e33a03e620069e915e78112c4b39bb36f9f3ce5d75e9d51624f0beb1528a;
0x1bc41b054898379199236443a43315088018c303cfa8760d7f679149ed53d3bf;
0x2ee37960ab5cd93080139be75dbf02d205adbc6887e96d278ad3e430a43c59dc;
0x1cdde27557fa9f3e2540dfe7deec2ea92d7862361a4a7ada6e4b68f2f3b4e867;
0x2215b23457c72fb4df6cb05ebb6e695a02c0c7fee8c1ea4553d130e9ab7c3a25;
0x2c0a94bae0c8d81169dc3c1b3efbb544d16fcb0a11b18bcdc68c4b6756c1816;
0x9c4335fe7a502889970a7670ee8537837526594d94bee1008d51506b0baab6a;
0x1d54c7fab67c393a91a61e0e2e38d5b7ad4e43f646286e64e31704c748ba9db1;
0x300b58fb17814ea816d0f7bcd9c3aee0c411ef4281917824180a3547f8f41b73;
0x27855ac29fa4b1abf74da38a4ce42de382834c90dceb506eb1f1259823889f0f;
0x2259c5da3d87b0a065ffb5a9fd340f8bc3ffc41113b77bbf66a2613a03b04874;
0xfe5e47f909ecf12bcfb1e96d2f6a5f96e8e95f7091a921d225fb33bace62388;
0x26dba58ade8cda188f49e52fce7167b8f219dbd924d7786b0f98fb799fefa2e;
0x2cf624bcc1b57941669693a6ee517fe56dcf7ae5f8dc152456d68cd4c839643f;
0x284fc4f8f116661b9dd2690be9979691b33a6af7b521472a36c154c5ecf94b54;
0x15f336d2348dd647d17cffa8507990c62d9355d63fb15fb7b7181c0aac883733;
0x2b097ff93c8883e63327f4009f9d0ad5518484aecc9ebbe42ab9ff386beb2d09;
0x2b0e0d9bb68edcc80f960a98b948c1a172236a4461c5f13d2b7d1fb648d1cbf;
0x21fb862d3aa99493e303f1fbecb67e2ff829a890338ebf642b1bcebcdd3eeba6;
0x1d742e5595d6548a4e5cde3fa1a024fc04ba950de76aeef9d094ef3a6aa80e01;
0x2f00e60ddbc4d8cbf208aace4afbe88c9025e161a5b3dbf495f11520fb314713;
0x937367d77f41edb078d7efd73191a38ec61b2f7ea633aacc172fc808e6e20b9;
0x20cc21ebecbeb50a3e7b6f0ffc58f95d9bd9990c8e0cb2b51bea7cf817e0501c;
0x2153722c6eeac70d60abd76aa40279e600a739a3c24b2d9950e7e0d08468ae60;
0x170429ceffee65277a55842cc1c6089270d658bc86565a5618a4e1156546957e;
0x2881b86019bc624704431bc3ed315ae4dd4c6589118f6a60d920f1c4937696a4;
0xf75ac5249bce09549072133d80f299f5e194bd34f820433eebeb5e020817091;
0x9a487d60d8c77e941b03d1a4cf0e9a92b8328bc432b437318c0bf096b8c95e8;
0xc4c7b8be9ade992204bed2fba9ab541af980a47b389cccf61abf5353640bcf0;
0x13c6f29a13b808abc57cdc98bd5b32326c0d37640b2b1c58a988c50dd0a66e90;
0xdcf77d7d72c03c43842c43d906862cbfa78b60f89780b9385a2d81e316d96a2;
0x1af4ecef93add6d17e589cb3e93a7240f2285e18c1882da49b0996fa64a5f7d2;
0x16500f1e2eb13aef4078724a58c869cf7af3bb0a8eb50236c3e2463ce54554ec;
0x26dba58ade8cda188f49e52fce7167b8f219dbd924d7786b0f98fb799fefa2e;
0x2fb22f7c0dcc8f0710df44a538564fa4835d8297a65bd032793c44d1ecbc66e;
0x186c3597d2e95409839a6577665c9247c61d1d4e39ed975d7eab0407571a3cfd;
0x268a806ff91bdb7848e65fcffcae8ab72e771dcd9e44918bbbf961d024c4e780;
0x22a72134e6b344238cfde291a9c27c8d91a7ce8ca75efc932a3ac0fce7229618;
0x2f3d93275b7e8f80483d94dcb59ecbb02d578565b6f3510a3b362db38b806990;
0x2188074227737f56f2ed000fb0557da0fce247b29e3fc1e94c782497dfedca5;
0x2795cb6a4c716bfb133f5aa5e413d7ec0643932100bee8003e35125e908e92e6;
0x168669f585369a0e9e1e1800a4a64e59198f67da9022257ae38ed2dae2f3e890;
0x1ffa32112a81bc68e5ce9b45a08becec9463ced766f99e3f70c5295bb287cf05;
0x24305de92f0bb0f4bf743d990721957c6147f9712ad12bd0970d35471343f1f2;
0x2553d6aca650db381e5a5cff064f3ae81d10dcf60fdc1b88d0b4a182cc3b86a5;
0x2f3c1b421f6d478376b135c9d120317b4290120dc11218033e249e6f660738a0;
0x245b4bed81074004368bbf0206d685ea4aad9ec2c5c27404550b134d60301858;
0x5d189b960a83b4cd0a7038f8a5bb9fc4f86a1195041c3d5aca8020cbf92a015;
0x2842fd81790b045c74803f7569b25eff6c992c2e571bbaf1cf9917f9dd45eeab;
0xbb806b253f4b014dac7ec4b9150635e5dab4505e9194ce2046af74db06e6fb4;
0x1130802bdbf1ce4ad31b52a3b3380ad274eaec3ad8217a45429e7b8bf9f57291;
0x236b083a817afa7114155de365d7157d5c45d3ff29a665828689c98c118887c1;
0x2b1118c83315eed11ca8a5128ddb9fbdfcb0944e37f30f57ae91e81344f76eb3;
0x26c7bf0a07d43c11dd2460b3d339014666f2ccc0d6f926dc5320693ce6530213;
0x26dba58ade8cda188f49e52fce7167b8f219dbd924d7786b0f98fb799fefa2e;
0x62d864c511b8873334e836d12eb72f7552810f28b4b9270ea837e9118dd92fb;
0x25587eb09d2cdb6628c520a7111ed2287f8ef7d5bf15e7ff0d9415616c14beb9;
0x20344cc75c81860502190a88a9753741eb82f1355eff6272a687af15b3370983;
0xcee668ab7cafe0c92f12586b73566a59fa7d9e14624394bca99d6fe9e082c57;
0x41098b20212f04cc7fed3b8aa272d37dd719e4304f79301d4b7ae6efefeaa72;
0x193870bbe39e62100358a649faa3ff6f81d1915da932545ad5ae3dd951529dd2;
0x1d86daa8ff221daf2c5910e1b9adc7d1a320575c43ec64b6f8aca53cab46f16c;
0x25923c7c452a59c736795ec2d6993a2d27a18b01107b018164dc30ffc6c7e36d;
0x166f933a262efecbfefd5d1218289e8306130b9b3ae903564812aae0c357b73e;
0xe710428c953a764b43ffbdd166707d10a6a08ed48aaeb562ca63a19b70c1c50;
0x14212cc175586510bb7e0107b7e99a1add7be5eca7445e35b23a9bf5e9bc26b7;
0x7922b817e326535d89ad077f917aa3f5ca180e982a89628502299515bd1db4b;
0x17b1b0209846528ed24450b5b6910c3dac0d79a35c1297c2e0ad518bef18ec2b;
0x1fcf8f4d3ba39e14ce346b78e781ccb86fa80a2c9b91b53b2b917d32201bb0e8;
0x1328e374326bd95e9a909683113443b309c75dd559c78e48589f91d3d667fd7b;
0x186b0b6795393cfd4a4961f0d34cd0f86d491ec8859ed1f39649f4a77d23d0be;
0x22866b41e186a1a499d3862f90ed2138b052753dc15fb43f71d071fa54e8ca21;
0x1a21712b5674e92a8fcdba2df567658a78f1c6409972912f59a3fca3fe10010a;
0x169c1593ef30d80f8f26d4c287a790cec8e41ae53c718b5aca62baea5e7a7f63;
0x10cfc561fd16648777627b6f289f95a96fbb95ecd84ee59ed541e7b81edb4d69;
0x26dba58ade8cda188f49e52fce7167b8f219dbd924d7786b0f98fb799fefa2e;
0x2f44dd9b3903bbe40ed4f0a14f06a691510f25d683942e3fede322c7f27db564;
0x1be695baecbf688d6618060b85965e37e50ae175e45f09704d33f2605ae3ed6;
0x163a43dabce2f70ea0d35c105ad54d85eea9b0953d028fe4e11c604e8b5e69a6;
0x2956dda14554b0ab7db32968d172b733bf92a1efdec6320b0c3c9114da88bb7f;
0x10f41dd81a27925bd837952dae5a9c494dd285ffa9a40d9ccb17d71b9098dbad;
0x280ad3fca7cff3b3cbdf6781f295bc0ee70275c10a6409b7b8c99157753013cd;
0xf12826ee6e2f4690c360410aceaf27726e64d0c6d39bb5eb8bcaafdb4266aea;
0xe9f48dc6fbc4706c6375c87d3fbbce3fe78427250b0fcae92e07890d3fd942e;
0x1c7a967977120a43bfbfc9351f2ccc84a2e1a2b9f440867e9d9257a1573c1f3f;
0x19d6f7ac7339519c004c1893c15b90c6b50fb09410e9ce523bddd88aa3dd3d75;
0x1b92f3e79d7fe18dd5a8a7c74fe697b800921cb181be388e65b39cc8114b32aa;
0x22998601081051242be4d99570e60ca7ff816acddfc3605f463a1221b11e097;
0x17f81154836c1b89e026090ab505be76f2da2674a77bb65196f29123106f15e4;
0x27b439487ca8865a03fc7699acf9c74e7589ec1282fbb0eea9f6fc4215fb8d5f;
0x2ebf049a07d92affe4877c3e4faa5bb176d58c7b514ce03b85ff8eea6b17011c;
0x14b55de484bf2eda58a874c907aed547c35e892592a8704e330457a6927eb9c6;
0x2cf300af23253ae125944cac6565ad837e1b4857ac3b9003951c414d167e4622;
0x11a0cdf58417864a0399eb08e3af0cfca6afe79e831eb14c2c7e6ae904ac14f1;
0x13f038e1602814d23b07765cbcb44033562f7c8192fd2e45ae1372cd3f9100ab;
0xa324aa4a2273af5015991b7e47dc180ec2c6cdd3afaa7ca1ffba46e4cb5a78e;
0x26dba58ade8cda188f49e52fce7167b8f219dbd924d7786b0f98fb799fefa2e;
0x2335a58b2a4893de3bb776a21abcc6bd01746d21d60dc99407a58ec99ca5394d;
0x3792e932762b5353053cd478898e7067fa59e0aa0f97bb5d075b83e7f1068b1;
0x171f0973baffed9d21be47d121de7717d9200520579e674c345741ee2c0c9af0;
0x1ff55845a587dee8b90bb11b2490e5abb7bacf3963f7739421b471e1f3cb589d;
0x6db58db2db6fe63f54d05adb8aeaa9cb89f48d8248e45d647b9148d1fd202bf;
0x207a78198a8af61712585f9e3aa8fb315320232612f83529fb1b5892c30527ab;
0xda95af66e6e0aa2f1a0ac71fa29c74d75bb9f99e9458079fbc43fcdddfc1be3;
0x244dff1663f2935bea98c07d041221ff4b866285a999a04e7badb7932a91e7ee;
0xf1666c15799e77aab89a2b35be57b29222ba0bcb4c690b05f144b61c61099f9;
0x2e9b5aed7ff481e79e49c949604b1d7dc241700cbf5d6e7748e13f74f30e5ac1;
0x16834fb2ba464871b1815f1495a872d63e79504d5324e80b34adf43ca7a68908;
0x143a59fd2f1e040c91f7230be230101ce4e6323eec738f2906357464515206a1;
0x43dbd8535bb232d99c3535dc3d655a963324bf70d1a3274e40e64393030471c;
0x7b166c254454f4b8d6fb5aa80087856a5f3affc248c814703364663f08fb766;
0x2047d44ad52bb40ba8e9f31f521339de3e41cbc7ef94245e7b9c82e3d5239f2a;
0x1e23eadfe8cd5443f15abfde942370f48254cf355214fead4e4d85a0722e3452;
0x1371b1a0c0ef71a90bf7c32118ae414f81d593f95f864cea9a1b60607b1ecba4;
0x29c9b03f3f02faa3d633b65dbf083f24565eb29e36ed1eee4bc5376889b5a0f5;
0x11c0d488111b7ed7b91e9be524819faeb74d64619847d9e96cd916a50d17311;
0x2d389c9b04a7aaa0eba8940233e3630c8b98f061a7565a7d5caaf28a3fb77307;
0x26dba58ade8cda188f49e52fce7167b8f219dbd924d7786b0f98fb799fefa2e;
0x12e351fea34839d65253cbc1cf32d39e34b1037767f5c2b90627d90d73d3bb0a;
0x2e27a42188a58299c9d8044c410844229d17a11812405d3d35537974652ead64;
0x14bdf13946d48ef5a08883efab512ddf10596421d031823284426fe729475367;
0x9a068a755057ee06efb7fd6667bb62353ec9cd08fbc887cf5f4fcb2ccba098f;
0x519b4409ec8e3a7860ee5c90956903fd27fadae89854357f81cf33fee0e8cfc;
0x2e810ccf1dd607ec36f7ab647ca38d42710eab334142a8398b5da402a5840054;
0x233108c004672dd480bed52d6f25174cd89d1a025a60ff6888a978503ddfd96b;
0x5be8a2527d11c6c19b0e5c5a0e75a0b54c5e21e68c1850494e4fe7784cfcdc8;
0x1c4d74ec5ad43fa3f3f50702399181ac51aa69d9260f1b32fe7c1ccbc232a0ec;
0x2c98c881a993b1aca5ee9e7f559ccdf305e696156bd0ad4515afcf5bd168de28;
0xac8b8f35d94988510c83febbd4925feedb7115380f6c4e167aaa9ba11ae739;
0x28b2d2b745647c152ad021d9e1e7e87aa179c49626348fcd0c29444aee62d71d;
0x232dd2860f628248f1b55a1f1b7f4205d5d8c86139e182b31518eb4fa1eba077;
0x2d45676dafb1b4e4f2e5326ad8f2d6a382ccce3969091d48ce0635bccd9f1f84;
0x23c9bab33c8ca65ba9579f56ddbd8967db1e9e3530889762e743a32277f4a56e;
0x2e3f511a8650b0493951efe1029eac8006bb5d44f214508ae0870daf794eee04;
0x1fadef99b87a98d042116dc8d68a6eba75609dcbba24feceedc576a5f8c56ec0;
0x13b1c1adee57755d2c3da15fe50fe6332e5d5c5b5929c5ef8ea0387043fc156c;
0x22a338fe1a442d6afe886f9cbcac11a4f7f9bdd77fb3a8b78dc8368a5613da63;
0x1c069ae1b1241b93546ccf9d02a0279737dd1065e075da8cb88190a71fd2e887;
0x26dba58ade8cda188f49e52fce7167b8f219dbd924d7786b0f98fb799fefa2e;
0xcd4ceac7e7f2cd68f2aadd77f8a89a35b39e6fe20795800da208139d3a12390;
0x1c2ee3595af8de51bbd5eb8567f18d3e1db383bfa37973f87cb36e72a88c81c0;
0xa7c2fc763da1bf375377589baab4d68685a7d3d23f08d106e5326eea97b0333;
0x1b50d5a9d6db07dd3f14eb594c51c1cd119a0e734a1f2459cf989a47e557359a;
0x30161bd3b8b78d824bd26c4ac8eaebf0c3bf2ac2a428c274b458406cba4799e4;
0x7274702734590bfd2fa48046b2b21cd261a226526c126dc9841a00c5b74747d;
0x23064c35e504e677bf3c438b120a1c02bd6e8edbc70778e46b7e5f00d1633597;
0x7b4b8fcf8c2cabf527256c84aaccb348d19a3d8e41caecab110f3dcd563d0bd;
0xa95e011e6866c8550e42efbedd76eddbae2a133a82edd6308f4c8d629d42964;
0x180517d31f2656d1cf425f6aaae0751054c71dd9df0a236c6c049a3b33cb4da0;
0xaa7c1d96d99bf95d733baeb6e88f4a8536c1f846730f460731b2074f534ff99;
0xdd0dfedf6a1d0e3368d8f79d159d585f181aadb93429e0287324179d1e37e4b;
0x572df3598f8791d83d3401b87b3d6e6b3a778a9a4a33e1b6c24746070a3bf18;
0xf9cb4e73d3b6c128f629e12d409ecd7048781ea825ac98c564f11fabdff8d14;
0x1db3c7279ff54baa1b579a2d00acce27d1f80dac5da005ac5a50052cf4ea6143;
0x2942a1875714a0c00d3b2d20dc216f466bbc448af3a63e05aef6353073503b0c;
0x2522caff7f2a2bf9cdf836ec99ab832e3f792614b5cef40cd3e9f00c9b2df92e;
0x1cc0d08465538de8bc30077a0fca970b6bc309fedf4f48c79ac7ec6ba1f4a6a7;
0x1be86dc6dca9d90b15bed5bf60edea532e1510007055893ccd65741037c814b9;
0x2ecc73f82062b8a6d91bed0d221022331d55436042ce722797c1ab25f77a9f2b;
0x26dba58ade8cda188f49e52fce7167b8f219dbd924d7786b0f98fb799fefa2e;
0x1e954a04dbc733e4ad843f23a7f402bba126324674450eed047e158c4342f75a;
0x1bf6934a5502144b995fd7a26c8be4f9507169f7d29691e460277ce8a06886b;
0x10a770647e157ab71fc08d6e560bfc21954d55647c32096c258e244fec48629d;
0x2379fd0b045b1b43d59bd7cc2760c8bc5055f3a441fa6288c84a3c7c7488a566;
0x242557dd84169e034b9c9ece2f2dc4bf4f4b3520b2ec0c62754cdda61aa13759;
0x24d0e65867e83cf7f865e89a44c0fa4f31df8eaf20194cc9e773188322020fbe;
0xf08e39c0aca58fd66c96bb21691c0b06fc564cc300040ffd985b0ffdab6ba89;
0x1c3119af9b3e6b5bff8c6915f68472b22cf3f9e187ab26981b86c3e90dc767e5;
0x18836e6cd384b031b1a462ad8d0a11c34910f35baa8a92fb3e56f9615cd702c0;
0x10b2bcb24625ababda8c1c7186890382b9ce83854d7bc4f2460f30d706a4cb48;
0x237fdf2809ea511ef064a7c036f29c1d555c0b32dfd257334ff535fe42cd81f8;
0x21b9cc4ec4c0832479f7cc5e15b4ad4722477a5ba013d9d359d540afc5737f67;
0x258e26b354d7ebe2793cd3fb7c3bf6d170cf9db55cda38f57158d9b865298d8e;
0x1d48d2d440fb27a8ed1fdf8212e7b34cc231bd2d893402412f96f938165bf3ad;
0x138fe1103d55fc0267df8380c50775947493bf88f75a73d783b21caa92197f3c;
0x1edf94fb5b430b784be783f8980634ad92449f73e33c25e9f7d63f3a62f30fff;
0x8eae1383cf79a2ea6482185fb4b72345ca8689c16e67bd0a253eff22c5cffde;
0x761d160fec46a8c06e3e055d34791703f805a77bf30042a43b6f04e35dde41d;
0x2e23c612794a7f8cbce764b156e02bc21f2289396e30ab846536239dc8938efb;
0x1539abe4d27172e4ab5380afc595d723f9ef3fb7e8063705f9a07c40a67e372e;
0x26dba58ade8cda188f49e52fce7167b8f219dbd924d7786b0f98fb799fefa2e;
0x4d800ab616d72aee2f1cfb8eaa194dbb2bd95d9bc9d8327943da4f45befc2b5;
0x2207ae07dccbc047ccce5415be0c4941ccd2aa15ffe4f4a8e07a60c0a7fad9bd;
0x64d711ce20b70d512f1ca107456bd158586fc1e3219d09f3de8fdece43088a5;
0x56adb05c833c5d1984c7f6bd75b02cfc1c7b21dd7bf6daf1b52522c96978158;
0x2efc241aa72e16ff31abc7977dacf9a6df53b26217544c53bb87807d5d61506e;
0xf41fed22cb32a447dcf33e989193fff2157f3075848ed1e46a181128ebb7e5;
0x169291f2bb1381ce3b16e812c546890ef5ce32c1d768d81264cd719e4e1502d5;
0x2f9fc1e4f2924d82d17c7ea7d3b09f67be93560ba39f29537ec0c1f2befd4729;
0x13ac8de14556e9b886de3944edae4c601a01f78fb263730f44f7d9991b8c7e2d;
0x29a69af8e28052f2c56dc24bda3a5e61cfb3e9c6ede0fdb857a1971fa932aedb;
0x180e9a2e161d21013486fb8598113f7a280697e89643400cbefd587893787172;
0x29fec555b91dfa57a42cb368560d4bc471c77a2e236a9d7c9c6aab1b6d1117f2;
0x231ef485473f733d46f0e2acbfe7e3961d045f30244244ab3bb7165863c1a46;
0xe6c1b39867e21ef0c630a99754d1a66a6688192254d40492ce88d47e5fa15c3;
0x2e0a260d61bad61b7891e6306df8b2310d8b8db9232fd1f7219e7fba86597031;
0x176aa7da52727a85134b313308a4c62994d4149bd6c6fc59d6e6c0f09eac859f;
0x12922be1b7fdc58e582eb1adc46890c48e10c8550eb8b9b11d8541694ef3a9f1;
0x32268b4c29827a65066e67d71e10cc978a73e0442bb1c9f67bacc883a3f4fdf;
0x10beab6538e0141fcfbfa8da4cf3070e69b2b49da1818ec8a9e54757a51b3c19;
0x36192a82ba9eea93a2f4b1994440a11a556d0d157ae5da57192e56c21c28256;
0x26dba58ade8cda188f49e52fce7167b8f219dbd924d7786b0f98fb799fefa2e;
0x34207380baf33709aed4bf2cf5d387a15f30dd072028305cdce60c1737ac627;
0x1eb09b8ad28ff81a7b21236652960fe9bcdc84caa6b21549da93a72d92ccbc8;
0x2545313ea42693cc8c0d6315d8bf240ae624d66f60f6f0a356a105ca6a7220bf;
0x1269b1b6e6ffd9938f8b4d7c4ae3c7feb7686b9de06a6831fd957cfc3c3bf7b7;
0x281e84c6cc599d853fcf8ca0a606f70aadc893adf4a4a099364b8c052f169ab8;
0xaeee3f27983d8e9eec8d6873cb1cbeb38c3d5912c74066bd0dbc559edb12c69;
0xfdc47ab86a0a3d8e9217faaee18d9b5b86e9d64deba55018f355d3b9a36b6a8;
0x2c35a627b5540525beacc313eb5733cf97e1ff3ddb3f9b4e8b4f063b686d2e12;
0x332c87526e40afec8b93f9735204bcacd4c6431c60b0b3daab4fb7f120bb301;
0xd5d00fda5d7c9aca26fec63f2565a7b64fcb58a67e7c29a64d0e450fb2b956e;
0x1b9cb4b5f32f1ba38a685870d7a5f7f44370b9b0e4c12ed349fdf28de5f49865;
0x1c63e1e8141a5a498ea10713d8bd8ebc5d61aad6e0ab492baff25befbbb26a26;
0x26ab3869c42b4e0139459f133c996241607f280672e2db244466d3e425c50fc5;
0xe8a1f3050352b43a39fde443e466884d09945cca09f31f043ef872a85511bc8;
0x51d4fe0ed70b240156e4fdd7fb3351d55841c4fd97d1a4fdfe0910932052536;
0xb0a1015d5b0b6a572187b97a4427f7e938485515cbe32e0016d11de7d6bc760;
0xfbfa326f445e39a06bdb999832f75f80114c3ead6206339d7a5edf276ee54b4;
0x9ca06de513672e4bf3625d0cebfa2286a44737b84647df4154d524528e82750;
0x281dba97e7243b1d3437c626fda37e43c95cbe3987bea3be9d19860672ed4719;
0x26de57caaf86357521f470a899d072f52a41043ff0bf242a845b71b8ba0dc6ae;
0x26dba58ade8cda188f49e52fce7167b8f219dbd924d7786b0f98fb799fefa2e;
0x2fdb2e183ab509617feaa6e075cb9de40e5165621c2a4266fb894471e9c1946d;
0x6188498691a27faf8c8f4a2b3425dada1a87d06c53861823232acedb25d6def;
0xbfedca0dd5e506b091baae85be99b391358740f9a7c6578c58349f522323a18;
0x78b237302bdc513c9965872103d4588c8b19a002b784ea4217fb04455d3133e;
0x25f15182a955582df5a3f58d36648b5cdef4bbbdddeca93eae6c94fafb198305;
0xa07fd1f3e8a7d1f026578e5999ed3c7d63d5bffe07ff0c96cf8b23e2e0f7820;
0xbd64bd942a57b8c209d7602bf222a0ba5c84251dde43bc098e938f75a0b678b;
0x2cbe62c979e608377112ff7050870162a94dc68556270ee7a66e65305d1b16dd;
0x9da1c5dbe788effd900ea877c8f099af1c03e112300d9e070e6c6f8c07b6a36;
0x7981ab3c73beaa4e1e775d4e4abce3bc86eb79168d6f157f9cadbbc30ca97e5;
0x3dced6534fd07a1107d6c54510a07f25c0a10b260c7376bdeb10c4e768d91a3;
0x988db118a1974fdd8b434549e13ec8654644298f3388bac401b75b4d550ed76;
0x1deff1662df511afe108d5322ab104e70703d65b729c1dfdc2bc74345d4170b3;
0x3a1bb1a92965c2cfce4124a8abf82b54e3ca37474728dfbe965f7e04fae0f1d;
0x281f0cbf3e036b4ae183795116b65070d16e37621d83b3d88ae69e98d8c44d83;
0x15c4576d8475a4291a8db61a22db870c56b013d0849b1066386e859b996d9035;
0x675b067ff63a96141eada800b0ad12de8eacad15c7f53e6241feb94cbe87f3b;
0x201aa00289c06147c4b86a521818881469fd0e4f91be7bb271afcaeb1037fd56;
0x1d590ada5a94b49917ebf20bdc55e03d0362b3f719aab865957c76b84a4413a;
0x6011f23c13d5ec3df59516c72371f2ea28e930f73189337762e3d4df3f7193;
0x26dba58ade8cda188f49e52fce7167b8f219dbd924d7786b0f98fb799fefa2e;
0x289927a769b163dd67f7165490a1a4d9fc3b8ec189ad4fcee07368a3e75a7573;
0x5a0ca87482e1f242157b180cd02fa975c72bec4c25d87f82b7c53e3a6830947;
0x2b328309cfe721d78f7a6e8634f54524c4eacc42ef998093e0b77c24d5ff9e80;
0x1ddfe1d1e5e9458ffb1d342e1b99a73b0083613406f932d7abadc8442204c061;
0x2da94a9b44a2e2681f75ee004c7d9cab662ca66c1ce78fb2ebd617ce449ee43f;
0x1efb5c3e6f22f498ced2f4e63c366b9dab0cb06adc4e92fc3f868709cdac330e;
0x464f0cbf6ac670c19420e79606bc447e259f8b203a4ba15f72ac220e853c884;
0x67e3c61a95e28c26b5628f679c7843e1e042d7841a670219194e99dcc618f82;
0x2d1ec49939d788c853f85da08552dd458a48a197cf0b023157ad04a49a72a28d;
0x25c69cc3ab094c56e86147024ede9ddabf71ddb294ab37659e9b2be22dd9e289;
0xbec17f5afb43e6faff2a6b09a02eed8455bdacf16ca542ccfcaffb119ea2c0a;
0x543caae6f7afe71cde9b817c9a746870d2cc62d2e7e1c6fe7fecfed5a98978d;
0x142025c358454da1e1cb0de99504766fa297d1f6fc62deb14ae0bec430d58087;
0x12b565ffd06708fd98bf8353991bd236bdc518c7fbb243fb05497ec7ae08939a;
0x12f287f0f3686375ba8431deb018fe9c28382d0b3f6d42c0c8bfef68b99b0639;
0x1b97a4c6e3b1340d563513c29d704429098877af661ac3d14a8e5caf2ec67622;
0x1160e192c3592d85262513d57850fa5f8ab05a95877afcacdf616cf742991fc;
0xde9cdc2af5b4780acd93ea46be905a8530e8bf89a97d41041cd39fa90975884;
0x29a2c79a9dc7c39e8ae57cc00010cc2aec866d9106a8f2c0def35fbc29b304c3;
0x1b39fe57a5648b6b19ed40ddeeda02db1a6a0590bcb4ac75d52c016bb5f004ab;
0x26dba58ade8cda188f49e52fce7167b8f219dbd924d7786b0f98fb799fefa2e;
0x2eaafd2a94018113bfeca9f6f909c380ccb8c99788645cd8169586e66968a6e0;
0x27f7e86e479c9eb87a4c05e80dd23700a81c2e720bf0e889a6a5d5d2f2a385c4;
0x15fd4d2d4de641f8d803e4942f19aad8bf6b01a1b703dfd0f0b51acc263aed92;
0x172a8e725dd29bc4e28ac7a67a7f86bde15c58b1fe2f87bb21d06349bbf6a858;
0x11820ecad02878ccdd901bf88011203539ed7f14c17edf151f237b8f3f357bf3;
0x157bb0ec622781bd0485ed79ceb944a23eceb119dac4f88f3aa4878f082f60a;
0x1a0c8beae4e98f3c36307ba5a8ecb345cc5ff4d33963002e42b36242c7ee6f11;
0x19398691a16329089e7dd608cd6ea18749597908b9885b7a3818feddab8737f9;
0x2c92297efa4d689e784dd5ca22480de59b1ee91203331f44dc2c33877789a888;
0x2b05adc1b6cae6f7b6a2382c527c9e486e825d2f6ba1b1f9aa395fdc793e9bbe;
0xeac0d420eaa22d35e8f1dcf344a5bf8c05559171f5b3d8490e7cc58244b619a;
0x1f14c4c41d337360748c3f37c2e1c72f831a6f811893d188902688b43ff7ba89;
0x2dff4909b43986a532997bb6881979cc68bcae8e01bf9caa69389dd064a21288;
0xc5cb5da369f1f4f874bab1f706b652ef2c50b297b5340f7f6c0fad98f6f41de;
0x13c2c78c6e2b39691d5e7da33ce14fb2cff83ce3577f1909d2a9b1b73810067d;
0x8bcbec544fb37718da2d30fbd757ca63187f342440c8052bd9510314f6fa22;
0x12d845717c2b2c79c55769851913284ad56f2fe4ca359ee39e569cbd52c44b74;
0x10c0c4538604fe7ad96a08ea533aadf5307c89534a51dc4d958f769a0d225963;
0xd2a590e3fc8aa2260656e13a383726d6490425ca80eac6481467c17f1050265;
0x3030d8c3cade8438d664d3ebcb0b0889f57ffeef914c655e50cb68ae14c2f283;
0x26dba58ade8cda188f49e52fce7167b8f219dbd924d7786b0f98fb799fefa2e;
0x1ec953704f6bb2e359a38b99d230ca7a4c8eb37e3479238a282da769f0425beb;
0x1eb6626b17b9fe129966d1ae7f272514826a0bb877d54a3a7d6fea8e46c94914;
0x2c31aba1b873c7d14d82ed3b033e75b871a7264f4ff1beb961a532d8a3b50698;
0xdb6e1d43e7479d449ea8e0fa42ef14a41cc880de1c7699cab480edd8a79ac7f;
0x21d8a97ad31f1192c8d87f08764c4f9a8f6c90940a6d444d922151dc812f4275;
0x29bd140ba4c910a6d297d316c9bb12f3a67ef0acb14f68af7afe36dcab638ca7;
0xa61d2fd60c57f574e19261a4a5f15b98af58e10836f3175d48fa7c361e98ec8;
0x1d593a571d4d07b6b677c7c987263c4f9ecd5d264071a49e6a65a9fbea46da81;
0xa764ac4206cae37430c7e6554f45e251bf3a4c8348e686d3103d44a3a53b565;
0xfc4c56a0e57f381acc4c3d8ccc8f9bc02332375f6a47343896e019f2679a7f0;
0x1c34df18abe2bd65c68b1e40a634311aee1429b49de0ac7a0ad890d434665a9e;
0xfa890b0f4e407242899e2812dceefc2e8e5daa8d41964612d862b182fb084bb;
0x1df4265e4bcb86f8df10427976b496708404d3eb8370ffe06d2fb5eb21597ab9;
0x14b74c5d557ec1780f3a0409c6d53b3b97190734d6f48b60ea42c5d54c194ab0;
0x112e82b702e99d25a62f79b82d5f0620605381ae21c311eb3b9b6407ef712a27;
0xb22a611ecdec54a9e15a98fbaef9be8bffe8c6f65b594fd8647ce0d03b1a819;
0x13552102754e83cff6a90cadf9a9fb9c9c4704c65200cb87144e7bbef93823f5;
0x90872282ea971f0593587dc8e0f8b7bbdf36a1a762b9d000353407306f7e732;
0x101e86c640c3bb179c0805a76ae6f326efb5ce0c7b584c0aeec2ddadd727c97f;
0x17a1236e80618f661c6b0932b1332b40802aacd5fea74c8575ab87a38bb7debb;
0x26dba58ade8cda188f49e52fce7167b8f219dbd924d7786b0f98fb799fefa2e;
0x12398407948eaecd57ed99dce52b4051d9a7f862241f682e26f29366b26e8acc;
0x1846ebf17d453d52ee6bc5f217abe6a0d5aa43084af5ced178a081ae3e204fa;
0x2054f2993d487237bf6e4a985c3abaf3ea8f0578ad5eb731f94a0dd533e846f;
0x1911b97db6f1c83692aa3a44172aaf316d863adacf721463e9b34e93c3499d5e;
0x1e7f11887082042971c2cf546c3fe7031d955ea7e371cff4d270e56aeb0a162;
0x12170e18a97a2c89b045eec5263655c47fb08fdc4622c5936d0b9d2aaa721cfc;
0x209b3d0342a6bbbcea6b3ec256daed1605bb9afb9adcb0ac9ff0d409751f136;
0x6144e781f4197e7402726ed1e01d1a9df01807d8f679e5bff27837902bf4b85;
0x129444fc0f4808af8a64b51d94d9be48764ade198781acd87360efc9dcc7a8a5;
0x1f12b62b42b308fa0b8677bd62e9b5fb6644cffd6ae43eacad6d127f8437334b;
0x2a1e7df0ce57b7a7c3fcbd73c68791c5aaf538727082f773c41e94fa24433fba;
0x11ac54cbcf0e6175c34eb7e364adc9a26eea739c22aff79208ae371bfc8b1cf6;
0x263230c117421eed84437ed926810a77a756789fc8b3cace2da917ee6311974a;
0x10df3a59e7ec06ae62a749bc6791d1b9b2e7cf0bbcf519f3c023e543514e5c5b;
0x2ee43f7cbc305d64cddff15cd91b7f6dbc0425e706b107e6b146316a8ed4c433;
0x15e9ba236c3bd1b8efe4391047d6de8b2d8ebd45ca5912a619f7667655a1b750;
0x1d74abec20aa969ad6f1991585c09cf7b2e4b68998a748fc84fe304511c6b599;
0x5ae72091e906e7f9d94e8b5e00f4dd0b43039d0ee9ac1598c3616c86d7ab06c;
0x2b548c790a449adefc53712a777b2b90bea7061df2f57d337b9f512940bff3ec;
0xc79e3413149346cf672ce76f5181de7604163cd00c9a5263fec43477ba2fadd;
0x26dba58ade8cda188f49e52fce7167b8f219dbd924d7786b0f98fb799fefa2e;
0x3017a09725154c2672bc149b4bcd370771a14807833c069d712618e207531b30;
0xb93ab490450416ec4a761155768efac5d022a8b3712cb410b78e43826dc07fd;
0xf7ef4a57e815865508ac5e78bd6ff37c11dbc4bf0773864e943b14e0f79c872;
0x28d3598fc9de7f8e645588886736a239902008f4c0c54525e1927cf66bd0a047;
0x178d2dfede02ec9735d83ae6ecb07d875b78360c45d9796753b52162050f2473;
0x2055e88d1c4873c3fc760261b724a8c8c852b05773e03e4781e03dcd410c878a;
0x201af7d279732ff24a7300d4a63a327a0d152d481e75701bfb1ae60001808de4;
0x20b9d7719511885b8e03da08d1289fa02923259857fa5c51a4fd3f6bbecbe8e4;
0xc0c12d9eb25cf37cd472d0ec9f4e283832823607ca823e3ad30de69cb10bd97;
0xc413585abc142ff58981d211bed7b8d7fbc6c0538dbffe36105ba44e18b38ec;
0x1ad95bcc4eb2757c070d732f7f27ca45f4685886ec1a21e6222dd7b99487aef8;
0xe9cd75323a37d831825a99061f0920e6594ae3e3e94d45a3a33aae620d670ab;
0xfe94376e19c40263ded62340d5042f64e3708e0c556ab677b64a252de7e7201;
0x236be50f0fe1b1545413d3a6d2c60cd28cb80b5cecaf301fb32d687ab8639656;
0x28033ec35e8541ea37b843d7cd1613c7c95de6d6a3c1e7688cc26ac5c0433dd;
0x186eea9c433f8f5ba4318087295fae6003a63a5250cce25ff3127ceb8ea62226;
0x1997be30d551c31424dd592c2df897dedf13631320bf71075ebd15dd0eb234e1;
0xc86b6e4ec0b7673c81e2a33cfab7f5ebdcf740fa723952f5553a60d7866c0fd;
0x2079ea58606d87fa8eb2de37607a65768044990a0329f877b16141d63675cc3;
0x17d722901c37847aaa1f74a31f9948d916c880d547bec7b0f2b9b1957ad97934;
0x26dba58ade8cda188f49e52fce7167b8f219dbd924d7786b0f98fb799fefa2e;
0xe81a4c71073cfff9bc2053e730c22f6f04712a44b6fdfa3e5d031ae937ba4ec;
0x1b643ddf9217a65dcf59a7c4a40f0a8ab16d034cc1281c981940d2ac528c11b4;
0x26cd2f5364c6d09211ed0c9944602e97e582b47e93f8877923f0367c25ecb766;
0x14e4f38d385b57d8cef67ce66e5199f2fdda3ff261a139a9a421ec1f2bd540b2;
0x168e02a829c74f8224d6ec0f2a87b93714d60848920306ad51309b5f2736c998;
0x2fb61a6b4f14e47f6ec64e4acdc941829a48782090c2f399435382ff67b7747c;
0x2b8353e21e9a695ae8b58e8a11460e8dd7630b073db22e59ef804f570e8a55e1;
0x29dc5e33af36ae34947c29d674778729ec99b8ab4fffd5c3d957ce532ae7ec10;
0xf36d6ea37c6705c7ea7bcc34950a883ec6505ac89b6b5d41cc743516e6876;
0x2799caf6a25f94e81d9f8e362093d9c5440aa9be99dee55c54f7120492a40cfb;
0x2bcd01c7e5c45ca9764c04385a1636e247e47382b443d73a905ece066790e08c;
0xf0d76223683dfda5320cdafcc711a2038f7ef465f9847a8c1c4904d6066adf8;
0x2974f8366a339e664e9b42672012b8ffae9079796783a178ea0009179fd6577b;
0x156f973d0d9d785674e3b7e05e96c5b11a582c75655082796018e9dc11bc5b64;
0x19da910e2a4be9d039440b18d700dde2f65455708e7cafabb61809e4103c87d0;
0x2cfc58b0abe0def0fb166d114edc3d0d3cea117ac3dedde6e6f4fe7ae4768505;
0x2c0c40c61c6598dd8aba498ad9199f38bee4e39fc06ea761a2de890aabb5d9a4;
0x1e30543b1ce12e136f719a5920cde3bc35e1b94142a993b522b96ea9703d4cba;
0x12fc3e01e274c109f341fd2f9869165284c3c7567e2604dd638d0f2267d63db;
0x2a9680b2eda565239cab76b7b7aa8089f732fe9f0167c9beeac9ca8b146387f7;
0x26dba58ade8cda188f49e52fce7167b8f219dbd924d7786b0f98fb799fefa2e;
0x1421e02cf82980b68a9c81a28eeb397e0ccaf80055d5aa562d9b5f68bbebee41;
0x217804431d1cfbcd6e2ae64af07ef7eb31e21baa352bcee45c73af5f07db8d33;
0x2d15bdfb3a952df31cade21c99f2933edaf8d7aa3f69fc1a16a3e6bef6c7f5bd;
0x27f5885f9ddc3ec7e7f2b43d6cb0c0ae1e0e2555ef46cdbb753d13528e239f0e;
0x3a37a151a0a4214c78b52217dfb4bc323c833a25e0c6fa5b2c9c4e1c3deb674;
0x11a6fda46b867456af4f194a5f0571a3053adde7288f9fa84793b3516dc1ae4a;
0x24f22cde459accabe8eba8e9608341086af4cd4c04da2440b067cf6ed63b196;
0x532b9c8c9c2627b9822eb7cb4e26ba7356c4c867c42889e19d80903be433a1a;
0x7f309d33a4d334ca3179048797197b7f6729a3518735d608057330342520b0f;
0x947f36abcd0fad800f8abf23edd43565b6b6c26b7e244af6527036971340f67;
0xbb49c33a2751cfb8848554d24c216ddb7e6b88234769ba9304ca0bd580c2493;
0x1f791d5f90371b44b925e5fe04c2e994a584fc427e4219f551c35215e022fa9a;
0x1618299c6088e1d3a91f6cbc0956c6afbc3c38fd691feadc8d6787ad52d976b2;
0xcd4c820d82ae74e29d1915d6eed53be77e06c36f27598cf78773b06b362e029;
0x158545181f2bd7b64bfa41c26e3d4f5917ef52851c0046a7f18c26a0544b2ef5;
0x1af91ea8fc2319db6925b994492b65f631b416992595c9bfaf93ffe5839d86;
0x26c03eac9227b0be2a855f95de0c97d337d763af75f1ba327a9e409cd5a718ca;
0x189b176cd8975d36e0ef78f2f39f8780769d4c7411a5ad2724927981ccb1ab03;
0x41d9c7ccbf82c77e0580400cf1f9b530aefcdee51dc5a1a4b5a142d4170c6f8;
0x274278f69995b40626a7796e2f70b1d6b52f9fcff1dc50967080d9f0332ec782;
0x26dba58ade8cda188f49e52fce7167b8f219dbd924d7786b0f98fb799fefa2e;
0x1c9a29a3fb7f2b95c153503276233cb8b1e4336434661d97a25389fbabf3037;
0x2cb5533d1d73b7b385328261659124419a9a7967483f0e3a3e63e3a4172d1712;
0x2e9bf13980f73bc9d03f4d644e7757f4a254235e659364b078607b15841ff222;
0x1467a26136dc7c21ae1d2eb531fd9af993c9c0f7923a0f17683babf7847ff5c7;
0x188210cd164a330cda3a1ec91c7b55c8210ddf706cbb38ede5d8b6ad98122539;
0x21789113e7aad51c02f8b3831e2133e1997ed31239ca267c6682b003d00f46a2;
0xd6ae72f4cac38afb4f95f69e9af3571df0ea4d7a726ec3bad4c9c3ce743543e;
0x29f63bb7c7b8dfc1a470d95f246c1ce2fd3126baa620abe230e181c191cb7cd1;
0x2f0fe6071d605469e17000e29ca7b618efcb9fa7f5b296f7312515b7080ba1e5;
0x2c993b62a92c8ceb812cad18de9b0ca96e041be6b12bedb8f64797a6b26fe167;
0x2fa9ced73852f04ca937475317f1ca35adfc8c2b89bcc4ceae7fe40a28f05896;
0x130264e8ed86dcaeec0aff16f605f7fd4577783b348758655222d4b6c003855e;
0x5137ce88eb7162f2c2ee9fa54b56b951a4479f53ffe656fd6a5ff4c9a03853e;
0x275c55e247d72ce00068db24abb786eed71968b226330472f6c8a609f2dee36c;
0x1cd13cb77f0c869c445fa8f9d6d49189f7ef7ec00cb4c00dae22db33c763197c;
0x6d9b6b1fd1e26a4ca07e71e3f9d40647caa0ef100a990ff9cc4b73ecee81bcb;
0x169dd62b282e78ff51548fc12731cea18b3bb95e8262d139b1974b2933a7b373;
0xc0653c4aa7fefb13ab5210cc32133a9faa456bbca5f4f0a4f4a1b8d14702afd;
0x2ddeae46a42784ce32df7b9f7118aef9f13552acac2046005af17748815c23a5;
0x2263646d28d39b4b0ff6d2243ea0e67239533523f83fa0f4f6d575bebd7bcfa2;
0x26dba58ade8cda188f49e52fce7167b8f219dbd924d7786b0f98fb799fefa2e;
0xf91c7a21016b36d9010165ac8b1b7169da842bc0a274adb5abf99aadb62b936;
0x1a2e0a81ccc7ca01220f2e7ecf9189a5f2b9b46e53ff92d8cd238b5d195e743e;
0xbf18f381ca8ee6f9ff4bde5897d635bb27dec564132e744ef8dd436d1cd97b;
0x13296783d0803516483338c7df1b5fcf81f710522c631a1d6db1a1feb7efe67d;
0x21c82f469bf6605a5ee156b2511e0f67e9a242e3d1172f826864a0606ef594ad;
0x28dc10865221c98f25307ed8eb2e235e27d5a5d41ab3fba09baa0909fc939838;
0x23cdb14dc014cfc69098cffe231e4d43a20c6b3e4db8c6d17fc3463fe94051fc;
0x21edeea093570815944d629d7ab442d595b6e468ceb883687bf4a1ad49fb2968;
0xae1075937d8413c6471b481f04b5f6da78c486c9ec3a39f166de8edbf6ef5c9;
0x2fce3f0792f5cd047fa8bc04de4cdf33e1fb7813fbe14320cf794b05df31e9b5;
0x19d1204d38bebb4547c168a8b8e5f9266c5c88f9d30ca6097a5939ec41366bc;
0xde612e0e3ff1ec8c10f2f6683274e98c095439b57c178a5bc0c322d94ef05aa;
0xefa0f50e18937701c781ab79f263cf9fd325d58dd4d0936c592867f49707561;
0x22e1e777da6b3d2afe2a2f6f74ed2487163085e736f587089fb120e5c149f8d0;
0x18556105a08859a354db011951e9f9c5967a71ce648bf0aba15f2a559fd3976b;
0x1a5931f9bf826e643d72f1e85104e5108ca339af493cf5b1cc364552a309326b;
0x19473fd23dcbda0867c0d7655f4a2b99dd34160fd90b3a12dba802b661dad14c;
0x29c96a2d870db1de1e35ba02b37449a947dcec5e3708fc592414acb59812c708;
0x157097a50fe704e1f4c54a55088edb174721db69c7b7ae1b7394403ce694b789;
0x21e90e34302deccd9b3588cc6c5bcf0abdb909e8c75bf618bb5a5334af7a164b;
0x26dba58ade8cda188f49e52fce7167b8f219dbd924d7786b0f98fb799fefa2e;
0x1d31a42740e431e210fc1553f20308cd05e93fc59b6bf166af395f9a66fdef38;
0x7d5c120df5efe5ad44d43cf7966f6260b523a9b25da639017e7f14dfdbe22aa;
0x1e4a39cd76190bd1b656e2982671758a893fc7d65985929f0c914553fbe793;
0x2762072623790fc85fea72d6c64a298bfb16f90ca429e91a1db2dca2451110dc;
0x144554ecdbfe88dc6f0c11c5f6b11fee2a86b1ec4cf9d69750091a7835ed3d20;
0x1983b95a2c8b6fc3734c7645ebb497b942da887c3f91c054fb1a48d3c8a1fc2d;
0x1113d1a221def2da4cb7faf3684ceb9f6bd2f3b0f52609bf08b2732252e9294d;
0xbf64c4ef1310f286504c25a637ec31686cfbaff0c10ddf272a92f6fa8af8441;
0x1209796e263e0d9999996e9f742ddcc4d92a12fd58ea384fe0a639da9334dcdd;
0xb1eeb6c4cd2d793bf5e7c27bb55c1ccf4a8d010c6e6fd4909619960ab127655;
0x4b05da50f761f6e8b2e065c6c6ec74e9277ad16d1829311bbebe773bc234a18;
0x328086aad9ebc7aa0190d029b1b9ff8c89bd85b90206799d7f0b9a67806e99b;
0x1ddfbad99857e4b84449e1076c3ff7a80585378d2194d944ed9a6fe227b16b85;
0x86cc93c30e9bc4bf90c09dffe4e3755ca2272a216434ee6df144c2414930217;
0x261fdfb4046f9f04902356a5682d941d98de74d39de11374bdc24fc441d7946a;
0x21672ca29365e252389c40a058d9af3cd23d84e9a5c4c405b7197488037cfc09;
0x2e04c3ce66b9cfecba87989ded13eba5fafb48fb63088e48010dbe8fa1638dbf;
0x2c8b25d7c74be5b163c04e13cbc7478735c966253677c689ea1819e760b20aac;
0xe9cd4551fb4ace8e62491b7e6a32d6ac5eb57fb5f801de1b27715cf1c770216;
0x17cdc28c38b48f61a48be7d1e5e5c57e8d3caef8f59159cb8017b21d67be834f;
0x26dba58ade8cda188f49e52fce7167b8f219dbd924d7786b0f98fb799fefa2e;
0x1edcbf1e8c9add9f39b44ea9a4616fa51a90aa8d376e251e034a309dd69330b3;
0x123673f7bf110ef3e41b81a4450a12dd2ca03a8e2048aa76f46be766192c68fe;
0xee62eb21957dccda2e276ed02acdca3cf83ef2d381de42a0952ba4e2e71a086;
0x67c268f3b750898c2a26b57a4018e3be45c9453001a6205ccbb4abb9a07696c;
0x15a74bcb36f93b558f2f215ee8d41c64c4780df231ffa1b991e116f0c6e545f3;
0xfd15b70fa8970f88e689bcfe746a1357b99a5b73354129d3d49673ae432210c;
0x217e872910c020e9f11ea5437b1dbc0f45bff9a2c050bcdcfa2b6c345ac11451;
0x1d12a9b49accc9f63862064b6f3d0a2510aa99f1d835880cba6ac0891e172578;
0x2c9baba92c77edcd883f32d4c34ff1dd285e99653e602c33ed3a6ebb65e70a0b;
0x2476eb407cc255bcb6509912e6748cff7adeb4cb933993b4f8c9643c03988fec;
0x629b9717c416be51a6bb98c3716043450d39fc02078e1498121393a09663302;
0x1b8a88c8fe80358d0e1532f7ea232f1716e561326b5000f53ae948fa3eff7e78;
0x23739fa9f1d477e950ff4d63f82d632390546879165819be81219773004dfce9;
0xe7522fcd267e8fac57c87e271f4cbd13d488f4c25aea6719c2a17cfde4aa8f0;
0x58a36221cf3818847bd604233233e69a718cecf262baa457cf1e5cccb9ff6b5;
0x9e192a9e456d483afc81ea5fc9cf93bb91a03334eb4d239753802785c6c8fdd;
0x74cbcb738b033d9e9be837569ad0dff3d8ffc1eb3ede44892566568cb66b68;
0x283e0b8b91557645c15defd2d8f6e21f27621adae3ffd0a7d7e9f31359110260;
0x10eade70c487ee2cd5e43d51525ccd0f345a69ad735b603cc108c17b498152e6;
0x2f01b82b8346c4257c16eff957b22028c5502667fa6874ce956e03fb6939f21c;
0x26dba58ade8cda188f49e52fce7167b8f219dbd924d7786b0f98fb799fefa2e;
0x664e78dad6b22d4333a1f9ca0ba708ad6ab875efa8e8997a0a8540a2599b0c4;
0x4e1f57eab14954bd0b21619ace372b8d8aead861ac55f082aa3bc1d8245074e;
0x41d00073a80f790beb8d4b4e2ac64f807f806d5fe9057aa196f880e653e6c78;
0x2d2d71f2fb3d724683423f92661c8f441565d2e5a878b47af687fb9b76e1737f;
0x2c80f1f732fd19836516ecae7d53f145076edfe857a6cd0749b85406ecfc14f2;
0x2c4c5978cbe976f81116003e82010a291a0082dbd92daacb0a39bcb060a8d5e2;
0x13e3c874118b9913d81f2d8bdf4a87a01d6e521d6548c66d7c0421db714dffac;
0x1c0abdb801cd736feaa3fe7f98515e72f7a8d72ef56b5952e6a0e807e2c685a6;
0xbd705c574e698fafc2d0979e92e9bbf0ff92ecb0a71378be168bda88c33d0d0;
0x49067c522e1f0393a320557b41676f2539d7815ef2b21fcf310cf626d13a133;
0x1989344c4aa025dd6a33c0f2ca58b22ea3f49ee5d29f0150ec05da44a6babd2e;
0x2059839a6b9192e77c6182e6e564002b930aed9f328d24061701ce784408e3b7;
0x2e29f425e322f7780dfc808e679480fcaa0761f752420a49075d76a085e80e28;
0x2b310e22ebc1bbfa6514fbdee2a48cea36c1e938a6927486fcaac8201ff253a4;
0x243b6f33e43a7d1ed19e7f1b8163316c0408e456180d572d52321b622a2296c;
0x3028c94e563bc654584b3f335b0bc3312ec0ff0df98d3c7f2d02d710e1c7642c;
0xce5a4699a96b251fe3c809248875d0b1d60b90cab8a30ec6f882e5ce1823fa1;
0x2b9f25a7fb74acd52831e38877f95297970b3086d7888a5c2e1c11ce1fab81f3;
0x2bfb58abfed4844f986fec4419dd8d83eb0d8a097b72b84c81c72a9eb4e4f7d5;
0x239bc1e4d55fc6ed2c1e41d18252c011fc588e358fe839e1075fb344ff366d8c;
0x26dba58ade8cda188f49e52fce7167b8f219dbd924d7786b0f98fb799fefa2e;
0xa948ca5c1f9c7d679c476d6cdeb6483d28b8fff1f4b3258aca45312da96c7d1;
0xc5c83d7d624699c3654b32ca98a4da4723c4601cd7609db406bdcc5a9634a9d;
0xfaa398f6fc63cc36b00addcfd69233489a8f96cac8fac8d91cc3c3b502d2e2e;
0x1db588b11e10eba9c51ad6d4d990dbb580c64c0bf499a3b41006dbcac277e1e7;
0x1cb8fddcaf050feb6977ef7fb82625d63f7286e4a0bfa52a9f601de563bcd96e;
0x22154748d72b0e00f0f33d6d49e08b874ed2c638fe4c33648adf8862748b2f71;
0x18bd4153a10ebedb78f02b14ea2663a857f458f2708394c628288cfbc802b043;
0x111deeaa497d2d32e93d6d783dadfac2726f8487093472ec4fe8c36bbe2bb5d2;
0x12edd647677abeaa0d99f2e4596bd64e1604f69552b6971c8ac3b44e7cd10a2a;
0x2a1d5873e48e00abde4902969a921782430bec7be01a4284d0455219675df9b7;
0x1470d1c0f33d2d5e2b2098376d16cba0738c4fe278ccfc3b824879535448338d;
0x16899463366b193f0dfb39b35df617118d55074561482e0a91283bdf40804051;
0x2af12631ed9ea59d387e2b2aa14a3ae1d28cc496e7fd28dc9cc149120108369e;
0x6eefb335586d1eb862c09c79eda3712bf64ee5f51913c14e64787f59ebd4fea;
0x256768779e0e07e677ca90aa7e514bb6eee69ceb47e749fb90ac20923d3af52a;
0x5ab1585ae26b10fb8645be74d3e1afe99f25546e0708fd16ee2493844574dae;
0x9b5ea9a096902a104e5b1fe5188a98ea78a373e7f9bf27f6218fd5f71f6e6ae;
0x2d34bed47cafecc7b37ca25901e9f5e3c658950001d728722dc56b71e2d4619c;
0x2d0071d201824d43fb057a0a523c701d2b8a37278b5178c18ed6910cbdceda12;
0xa770d994f92bda5a4b63e65ff8cc35f59ef5dbc20732e1580f703d41b5b6281;
0x26dba58ade8cda188f49e52fce7167b8f219dbd924d7786b0f98fb799fefa2e;
0x1949dfa21e6b27c70609ed2bcc7aaf4f6244e289500c48fd1245566837cc74ea;
0x18eacf1750c093e10b18f45702a42766f1803f4d2ad79399b86856d56d51f25e;
0x29c3379e427d4e89862989d63a72321fb73197b029092ab8bf24c127183cdc8e;
0x29fa50d3448bd783cc59afe8975b7da38d3410fcce680210b3295f8af30929e1;
0x1bd6d35f109a3549dc1da7f96953f1c38f069e9a44141e85e69908366cd65823;
0x2a58f6745b90dfe97d3f89415e375c43f464351bfbe3d140cabd8a343313eba4;
0x1e34e898a082d5a1bb452870e41bd67cc5932031ea8afbf460d6fe4c253ec6f8;
0x1f2884e10b6e90a0bb15c6ec37d269489c35a9fd5f2f8a548002cabaf189be32;
0x1297717d266d0f55d1a8d83e85c22948a89227f47408b0a6bba88cad4e4064fb;
0x2b9d9801a1b0a616582b65b84d5b76da1d6f428807f074108cce867bf1ecac7;
0x701f771295984199a107564c0918dd3c397380bd47e0a9f0cecc0d57dec9feb;
0x1a294c810d83e3f3b9bcf709dd22b810055dd3e6a11e456b284dcd40e084a263;
0x10103201721be8dfdc55548826c8f2c6c5ac249a66079509091b71179eed1d4f;
0x22d656009cc9ad0ea9a60cbd4eb058c820fb5387714d8b4ff52609638f3952f1;
0x1d493a429f8db9f3df571b9eb1d25d425a09d75e6bac7ea1c8c0da141445ba5d;
0x3d1a76c0fecbbd1ebc3b20370894284bbe97b8cf7b14bbc95dca839ec9c4c8b;
0x230688c1f26ce65d683b5a4033cc5b781ff38d4a4e28aaeaf57b495cf843b0a5;
0x159c9adea02eeb1276c2e1600930929edbd7e47b1283ed273db5ebdc596bc672;
0x1abb8a81b4629456b639965a0ffee6ecaae145990d97b2b05546f47fa416e57f;
0x12ad1b21a9c02da3018f187ac6a54e376f8f71fce321933f5ec8a55adbcd0ee5;
0x26dba58ade8cda188f49e52fce7167b8f219dbd924d7786b0f98fb799fefa2e;
0x3c6c55cca4740582956cee40ce3053e89ed882ea253a366d07dfc9a508c2e78;
0x1fad53f449b581d0ed39dd41975d9330768364c1a97d9fd511d0df16cb3f408e;
0x1fe8bcb3f7fbf9c21fedb5a0ae4dfb7ca275d535c7847b23cb74c18251b726ec;
0x218b93667ede394ae16efa07315ff7616f6864cb8293bfd3418f9d5b14756396;
0x41a688c1fb421db3d8716a64fc39d0e0677a5c43de90fd04dd9f3622baeb3ce;
0x2987dcb79171d214817a006127171695659ea28858ae18c6fa8e505a4ea02033;
0x14f45ac12d071af305059de0fc028778d5c1c8afb476d5b7b3ce2ea6a5f3250f;
0x959f1dec81c5f8225c1f2ff4ae2c67c73e4d379756f40ee9f691c82ee08c6e9;
0xac0780131779ad691069ecbc4f80886c0bd9518d9e04b99146d29bd7d9ffc9c;
0x2a7e23e5aa5668bc719b0cc26dcf781d2ca359987f1bd6f9099b953751c61fbb;
0x92c0b897d36323123bed6c99dcb3b50e397c722cdfaaa9bf6740907a4b653ea;
0x29b1674c1e4b705e7fd93d10a380145be75934710cf6b43d24817ca38699e702;
0x25db198e1a5de34b6974aa38ff53572ccc4036447a654aa7f068602233cdc0c1;
0xff3174ad5ae186606ffacbd55936b65838c2be6a635bf8c9941652a485b8c6d;
0x1bafb08bdbc32bf6b81d2026005e3ac6390ad3e36f9178be21034262ea674e90;
0xebcf6fc297c34138661ce9235e7c0153eda1f0c99173970442976ff849eef13;
0xd729230e5d6913a779746f2975e35197eed83aa613b7f9dcbfd2f713b8740b7;
0x20870e26b114e1e20c70ad2d6c3c29bd78918bea5bbd7ec8bc0a60980e601dbc;
0x84a3105ccbeb8137931901cc0a48ca7426e5dbe4d0095c11d63d0f91c64dedc;
0x1b1e9b1d59d5f4518412a828475ca50044fdaa1c3490491bb508d7296436d5bc;
0x26dba58ade8cda188f49e52fce7167b8f219dbd924d7786b0f98fb799fefa2e;
0x1f4bea0f3c5dbf0b4261b9df35e5cf6a5cc36973d09f0b35fad3dcd0a4c69acd;
0x1222849342a144de2b23e8bd848ffd096cd3332f57a245dd3ebfc26032a6186;
0xca7b33f1129a98d404e882ed0a70737543706248c7374d9aa6470583b24ab7c;
0x18f80a875ca2972a4d13d41d81a1cec56cf384780b5738e59988d9aba4cbb66e;
0x2428fdee2ef9912f4693ee9c2a59e82c625e23e9af79e990dd7884410846f8e7;
0x154781a2b5c4401f6ad2809fb9ac23f3136a8e3950ea6e3f084600a730c42d95;
0x2c554db641533606c10532eafe2439e48d2925c9d6e183dd85f0c24986ae38ef;
0x3b8b288b1e1a1fd2faefab9b4e00d9c503f8574e67112bbe603eea37b97ec18;
0x93a9b03da561b4ed6aae3a98f4d2a9d1d28146eb0e91464c25a0e8f2f6011c0;
0x108843f8d4eee7c9df86bd9a2dcf003d3ece8c1fbb2db80a0e225597ccc54286;
0x1f043a72cb5432a4c78f14505ee630bbd2367e83f18db047defb3ff1a495715d;
0x15a8fb06e0c14c181244b3f43d4967e28ba32bae1e84223037abb1524fc26413;
0x1ddbc950967b1769cdb4f8684b34d9bc25b04deb0fe5fb117ad609a5b7f4049a;
0x246a58e326b240d18618908b13785636f051ca1c3d5accddcf7cf4af1362b5c9;
0x1cf99a40b8265758ba68441a45b4993993d732a8b3b88b4d983a62044c0bf7db;
0xd7de5619f4c546050439e79af5f2d0b964ec40ac92ab9f33c617623c9d0479;
0xe5e16504bd5429f1989950e8f41adacc95bc94789df4f29eb5c623a9ce4ad87;
0x41f35a7896a627bb884f8fea782cb487c872dcfb82dce7d0e6941765d1ec149;
0x1537debc183e50b25642a94332739b9dfa8610ef8297d963ad4f25114897675b;
0x2d702440567bcd957920abfe3ca1796dc105a9d6d69df68f7040d45e14825154;
0x26dba58ade8cda188f49e52fce7167b8f219dbd924d7786b0f98fb799fefa2e;
0x14849e30e423d2818b033824be79e994d3b294a7745d47ba7a04412c976a4d86;
0x136803dc9b44527a2831afd600b224d3be36a4fcf1f1bb12f6f3d9c78a49b55a;
0x28ceeac4f3b856158657defc6ec2d98ae8222838625951aba51df3d92323af9d;
0x24e2a9e2a33795f29eec4e3e5171cd1a4f102b387032736248d51da2ca097dba;
0x176b7c931c84fc51a695bfc635c9b2d7e38c0fc9e39119a5d270be388a7ecbac;
0xd230fbc8ba30ea43febe4d7d57cd646c1679a1e1a8066637e19d7b5f783c465;
0xa3d177852fb1432eae4cea8005dffe984df233705a362ea87fd318658b1b10b;
0xea4e2627f1b0f14a84fb72f14025e3f2d4087b5e23e197b4be18de9bc5d07cb;
0x2b5a5586e185e6aff9ca42ddaaf4a48fcbeb342a33b7d8c30334f69917695c18;
0x930ff45950e0b3a55c7b5d59b1bb103f43dad87f10dc01af4f029f1334860d4;
0x13bf29d884e6f2f7718c62b49b2e4488f78abf3371e60ff6a55f8fe614093af9;
0x1347ec6f72f1e6424af5dc07e72c8ed704c1de25df8d0298a06ce875337f16d;
0x7f98eec37ea11c6a953ed4074e0de0319c71c5d80c6d9a7f1a7ed1642cdb3ef;
0x1fbd5467ac28426e82ee95d4e67c1bf39ddbb0d00c8edc994d01b085e81025f0;
0x160ad25d0a5b481711dfd537166e9a758f46ae98705c09a31bb5dc9ca672e06c;
0xd1b059d762e26c7b237c2529c1a2c0420112b04b34071f365768e31c4ee44f4;
0x576eaf22ed6ba9247a7c1cd5f36da28d3c82fee37029d5a564eae4a149f2ca7;
0x189097900e6ed2067403aefd8cb2d68f8be1386dac2cb067f346d027b92c13ac;
0x1d611f1ac08a2fd6b50b23612cd9a2dfbc77d3f1f01cdf0c97776885ee5f538f;
0x21966ac51d732445609cafb1fa452a675d16df7f7c0c932aa136c7914da84816;
0x26dba58ade8cda188f49e52fce7167b8f219dbd924d7786b0f98fb799fefa2e;
0xc4339f0ecf040eca09a8ce68b829e18174e1838978d18ffc85013bc4569bd80;
0x20bf882ac8fa2b8a798c0bef93c8faaf79248ddf7520bf6615b8d4438f3e2f4a;
0x1e097984b47ab98e3f1af30e8db0aeb16dfb7257a5d717b74a0302c0c65be5ac;
0x2124c450afb451c834597afcdeae34d494f42b83ce16525ddd426897cb85256;
0xae46f4aac64bbb73cbc4861b9d67dac7a5b9461185f1af393d30e0f14e6c86e;
0x29608e35e4618f2d31f77f1222d8461c5daf83f8f96a1c3c22ece574bad1892a;
0x8dda504925b8e72976d7225b9348b621d411c42725054f92bc5ac7f20ee1063;
0x2d83e776ee847bb606165d71c5395381883eefe3e72db208d05671166672892e;
0x158c6db4fa12040276f28c52fc4179c40c0b992ce3ff614cc8a335badcb5625c;
0x2ba81ac87e1ba4a0abd35ef4d5e708098d5b3ea59df026301d29b0c639001d1c;
0x297ca48636c22e1b41ac10da84d18930f4293297be2de6724d4a1c927ce6ac92;
0x1ec2fa366088aa3d24faa8b0857b0ee947e7ac412a5c383d80a52219e3036715;
0xef8e90ab9a0d92209ebc7ae7eef599134faead83d4cdc6a35e11486f256f91a;
0x1a1ba37ce6b31c46f06b166007b84b1b5a729277769da12ac45a05329b1ab25e;
0x1ce58fd6bb4c70f222a00ce15e034aa7f951e55745f7eb0e89d9945dc648ca8c;
0xc96b4aebaaf211ee53c2592611cbd815cd8ad79ab87eb426ac951d465200f31;
0x2ff556ea91ea4010ae322b26cc3dfdde21b77814aeeecd224d83754b6fa95b91;
0x51d4d2e3822d407607a763652423f88ab8ac41d836032e330dcbdeb89dd94d5;
0x1f484dcbd4ae03263c1043e2c67dcd871af9f682bd063efb99d6f2c1f58dc89f;
0x3625c6bbbeba41cef4419cfc7885a6acd236f23c10bc21eb96fa3329b0aa808;
0x26dba58ade8cda188f49e52fce7167b8f219dbd924d7786b0f98fb799fefa2e;
0x132c2bd9c3df321b8329f997d51ea4756f06d20599a69b00d9f5d327f431bd9d;
0x223271db36c5a5b734893666d05f8c23472da5750c9cc2185251d1ce898cdc31;
0xe442d13a0489c8ff0792219ab95cdcb6aac03d12617b498eed4f437e9e90f8b;
0x49bd7714d013f9d4ae5d6b0d8a1966e3b6ec2991f80938e99496db12778c62a;
0x16863ace52579a519dc0983e73f391982f34daeb311b455cd75b3c7f75c4a406;
0xb043bbb7a835e934403443a871e8b09789e825314c553ddb593c117ed9f7a29;
0x2233e42b11b31512cd6662e6e2d0f6123b84428079fd25823e39ac7be086c286;
0x1eec2344b54ebb5d2d89282cef20b5a8297eca522759df7ee82f9306cf7013f2;
0x7d3c2f7ffa7d307b1b80cfe7fc4fdc571ee008081d1a37b83d83f928aecbed5;
0x2040b72eb4e1314e2c6fe28b0e10cda2f444baa97cf15b110a5571ad006f36a2;
0x968c69a272239d4657b02e1e1157635654c2493c5dc21c80e459c36943c0c7f;
0x113daea091f19279a75d148f3407940605147f41277347181a2eb45da5e1deb3;
0x1db9caad8a73497abeeed4ce12162d16c8ea56a6ba6680cee0253d7010c8b0c6;
0x323906b531b036a422544f9a789b4818947bd7e1010a9d3147dfb298d747c97;
0x2a17b02e605c66f2e9191f6001fe8d0c054e9fdd72aa912d61b14db3e9e5ff36;
0x20215701f065bea87da0f51f31fb17022a2ff12ff86a3a7d50bf196b9a1793b3;
0x2ffb3a8d5050efe66c798eae2e37fcb0e75c8d3098463728f1258d3d15e9c58d;
0x42aafa50849b504124ea788b0ba7d398ce77b42c09f25618b1661af76c42d7c;
0x1f0760c47e75e2988c7c5f2729776fd656ca950959500807c33b15d2a20b8d0b;
0x1b41324592d37fafa8175af1dae1daf093b7bd074de9dbe0f47bf246fd338295;
0x26dba58ade8cda188f49e52fce7167b8f219dbd924d7786b0f98fb799fefa2e;
0x1326782be064b822cd54a82d526e0861f69cd054922b7809cb2f1c685b255442;
0x140941464435a4da425c24627a01d5d0620429caf2b74c1cd8217f6ec0c5952;
0x16d038333ef8265b4437495d35251402386b448bf2c652bd752875cd6abdd7a;
0x14b3bded0283d8f82452086053472baaa94214fc64e23eefab04ff3a666ef793;
0x265423dd06e1bc30d7ba50361df7b08371080b61cffa5cfcb4de6b840cdfce11;
0x28c4d3106aa551425285a62673853db6ee69f820a38010b1e986ecb25a517c43;
0xef4196f06abd4be2c6c77cdd3d9fc71b7056fcf82ba878a3c0f4a642184f33d;
0x9ae72038e07e063172beeef085b160204d41fff261164869ddd3b35aaa852ba;
0x1e653d313dc085a19473cbf173a65a752d300ac1001b2cc6f868c5aed1d5a957;
0xfc8d4790130083f7d876b437a36a5a07861bd3fde394a7297affba00cc0266b;
0x8889eb9c02f2805d59ad7c1cc11f1f8eac7d10cabb324cd28a4ceb64fab9335;
0x5e2245fb34a0b6d4fc8c7d9b98faaaaa578a4bc650b9ccfc08f2f94596579df;
0x1f303116020fcf151af2121de29d1237c03b89d27ccddfe6283c1edd985a8e75;
0xf0deb6bc06f2954f1ff6e7f2b0f5874a40a67621147f49d9208913e3da2ee1d;
0x138bd70bb31ee416686431f11be6768999f8a881cd5ded3fba47b1e715b98a76;
0x2323cc181a6d96004077fc8afa78000b67af7eba4a37699675326751ca3587bf;
0x2cc5a935240839d0916adf0ba2a13b373cd9a249f3dff29d4e636ea39bb2d47c;
0x2c2f7e211539740f135771a5613be1b9d5626f84bd9bd3d086f6e33e497d4301;
0x23a3b12944728d9d8aecd5b9ac2c1e8683a6d6fcde6de09f9d4981576f60bf7b;
0x98c6085a8de8062c4882a80a9b53bf605cd6d3afde925b4bd97dd0ced63a2d1;
0x26dba58ade8cda188f49e52fce7167b8f219dbd924d7786b0f98fb799fefa2e;
0x2b1aa48ed061330641b7610a5ca3ba0397bac5aed1220abf1ff3c053799d5798;
0x27cfd05fdfaab10d703c5613ac9c30f2fde048b85315e4cad39a76c2625878f;
0x2c6768184cf84573a0e970704987f3627cf4f467e72d878aba9ff0e6c32c76dd;
0x1660e8db6fb22994cd208878039549f85464278a6d593dd871de03c5fed8233d;
0x583531effd84ca69b517fded392f636537ccac39575313c04564411eb381b38;
0x1b1f369306d9312d665302317d2ef8ba8a5673364ebb84b82de156accbc68485;
0x26e1ae1e46325eef62e0ad0702b7c20411e5687ac8bc8b0c42f2294ad511e36a;
0x2267a248407bd8dc0be8d6d60a901e6a6f63198e43ce9ded8b48f35117cca600;
0xaf3dae82886360e75e265f24f928417f3404fcdc18896104e07dac544146d05;
0x1322272068ace8538671a961e8182ca7379ae8066dfa8824036856446ce68262;
0x2ad6d87af121d4b9d388dc3bd0fb2160dd0d43deb5d5fce770b3f66d22a865ac;
0x2db628ad83bdb8c87642ab36796e64464a71c8dcc07db41090014d6824e9e55;
0xbcc76f8301e3daafd571227cd8dd395fe5b1ef2a88262aaaa30eae1be85a66a;
0xe953f3e2a6ea919a39845e34a8fff06874f40fa0c021102551523f0052f2ac3;
0x4ed6096b59252ceee6dabce4945012b3afa929619e124fc1674f9742de6ce9b;
0xc45fabe45fad457d5e763ba6f401e038a8f05187a50156e2e4f73e9eb0c1521;
0x9cd9ddf426f07cd7ca72e4abbc3ca38063705cfe04a002396d91101f41a8ebd;
0x37124c13e8f5393d02c7dda6fc39b986e10f7eee7eb4d8e8b6798aea8bf8116;
0x12326c23b50b4f2ad7ad2a6e2f81e766da9dbaae3a85d5256c36f54f99504c10;
0x27097f5dd86e6bd0c09ec07ed1d565846382d11310d53e11e4ad9dadda2d2a2d;
0x26dba58ade8cda188f49e52fce7167b8f219dbd924d7786b0f98fb799fefa2e;
0x213719ecc1401b7f148d90bb4ceb0cfeccb1f84a03670a65cf2071a97c55188c;
0x3ce9eb2e5a78e09fd8f99bf3677cfb69d8d81fac2ed57a3796fda4c4a75e067;
0x2085f6b2ed31422f2ef8c9e8132320a9ea78f629f40050f9ae1f8d2212822423;
0x18c42b10a0239a0788ca80f40bca9eceb54cce28ad7025ad73c0441f46e25d7b;
0x2296d46885d7edc9e2f4552a8f61e0320ab91104076ba093415f525ee1bfcb4;
0xf464a47774953e1647c8823c1f0e7965faf6e8e51a392f342e27f6b7e1e3fac;
0x1afa5a730a377f7595ff598c11a257e2b25dc96a71a536671e98c4fef8fbb126;
0x275f04d5ff1c821ef2729f6851a372c7db62bd3d45b68fd05375753a9ca38ad6;
0x1ab45e9a2aa1daec4586bc866bac1bae78d8b8aa112962f34c5c19a4588f11b1;
0x2c2b2b27465ba8f6c19c1b3e4b52ad9e76df8671ac3817d8c467fb7ce1a0d9b1;
0x3cc2c6cd22dd586414a1f19bb9bb0f8b7dfde77369f2033f036bd19412410e7;
0x17b6daf401b7e08bd9c414d067a6cb484ee05cb2e7c0791ac2bf415e847705ac;
0x43084224ffff7fb2e73981b3d2da64588e746e1ff0a8e41021cf814e846cef3;
0x19d25137be34aa73379f19107fefaab7ed485b5d49124232a91341747818b125;
0xfbc00ac7aab927fcab38cc1f033d0c79ae42cbd8af8b9c676235361805f797;
0x2a452e57d835dfb153c5d5ab716c615586a692f22ee8bb70cd32ce786675b85a;
0x14ee41c5beb4f4eebb844ad27cd712b8b7b7d3bd96afb18417b0bd83650ecf59;
0x151e1b6f64a2a6ac4afd3ed3adcb59a2f246e4d018a85a4dec29867998bdeb1f;
0xdbc95be9577eda26c26b97276780a2c44046eff2d20ef3e233bc513eef1d289;
0x2142c00dc3ef56e58d4fa535297d2349fe5a8720609a459de7d10ee2ac206735;
0x26dba58ade8cda188f49e52fce7167b8f219dbd924d7786b0f98fb799fefa2e;
0x14f9e34fb8cf902037da0287f7fd59460ee42d86542ea027f5065f4fdb362030;
0x1af072ef30b93499a21687071d9596f8c0720959f5aadd473015a320f525f3ea;
0x1f79f8f436951eab483845158d798af4940c43b6c7606496ac7787e23d513562;
0x32ac1327d91fda3e58b64a629d066b7618b0d2bb14bf0054f8a99ea94a7f9d0;
0x1690528ebb80ebae626e4c7ad7808201106c3f6958a8fcccaafbf105bb982969;
0x28d5726bbe2136f717cba221424342090f8922b607e61fddb1278c9090879724;
0x2b8c6cdb0da43e1a2436f8c43ab3746356bbd0a40ae0f4bc282c8f24d205b2aa;
0x1057e1a29e1cf4f016b0ae4b377cb2946f4ecec14d8a9e906e8bcf994968ccc7;
0x26175299ec4bce279b5cd865110cb0f7253e035e4dd530dc78e98dd167a02c40;
0x2fe4d13a9ea0682f7c6c79e2faa642823c6ec6166864a3becc3aa96a06023078;
0x8faf60f2754c6f88af83be51d4d8fcd91a530c7fe1a7e15c04672be2e26ff80;
0x1125b0b9078268105061cd44cfd53e59b4441c494e4e621513c0e2a7897f2ac3;
0x2ca18674217c0814c200984a2e6d96fa6ad7a93a350ccb857f291dfa0a6b7c87;
0x1b654e8ca3777847d7febd35e71555b5fea755b167581b91b8e66e7557a13755;
0x25cb5e571aef3c5ea542332f3cc646f940ce1ea986284074b9ec9a26028fc3e4;
0x10152a1913afbe44180af20ec59ec32a3935fd2b531d968f71f0365054faae15;
0x27d1880942fecf4f9e46d11a1e3db53c0ae9385a676104de122c85c67a61b3d0;
0xb4adee6ba01707c232fc173d7db356fd6dcba566709cc81dce13db425685c;
0x1e4ce7b0213b39db08d07fb861278fc32ded0de6232c7e050f9e93e4abecf7f8;
0x9e5542f2b8481d63429010b3f89aa2c01b07684b08c406d0c85cbd0fd01d2cb;
0x26dba58ade8cda188f49e52fce7167b8f219dbd924d7786b0f98fb799fefa2e;
0xe24744fcd2826a25131911f4fa8edcf83597f52c72906932a58f3047f9d16a3;
0x17a27cff4f6f9a2f2a1bffc998f0ec03338c0fc3d3ec9794b13af50b3ed177be;
0xbf90dbe6022bd7df688eaaf3b9030c5b6ad0c3633b351abe5905c2a2b2eccb2;
0x2678e3c1f390d5459696d950dbadb7b264f8284ddcefaebd120eb27e2b19783a;
0x26df8104d4cdb377d22ad344e942b76261b457f52d8498fa69de4e1b8ed37599;
0x29c0d6adeada68a869e934d2350a77c91eeec6da2c0d7dd111b8f03d73a2f54d;
0x1517295c7a2561c1186efce6e54a6070307540b69bffe623abffc8984451bf14;
0xd79894bd7300df6fd04a93836438358cc4d6e6921da38520a04fbc8fb4ece95;
0xbda733ef7b53f5843811029b9a5c412237a72b96800bcdc6c71223d57157917;
0x27d91c5d822f56a78c86f2422ca4786b94aaa2f3e066fbeb35b81c7e16c0a1b1;
0x1e6dd8c7e739fadd91888860adf0392f260272a68d32b914f8862493847431e0;
0x115d86835c20a27ca16c0aef5afdd73a1b6b7ca6f12116720b235274ca89fb5f;
0x24df0f59376b1b5e39d9ec2aad776278fab288047a2df5df60990dcf935aa50f;
0x45885167ee8e695c6ac79eaee96e087946c584049012a309ab8ec2087491be;
0x44b70f5e0df4319827685be272a32a36ca3c4148b97c13bdab2bd0fe365bae6;
0x2cc8eb658bd3afc8f4209a1c99566705cafc79332571f133979940b14d736f15;
0x238c44c84ee349b63030b0fb02fa7653e547c4a6329b9902de3602c3c4fdda0d;
0x19a32cb6029fcc93db2b01deb8264a9eb157e995ca21aa0e335589b06ff77be7;
0x1c8612ec98aa9278caa8cb6afdbd00c02ee2f551d3d521ff5e9f92748557933e;
0x2a6509f5e770cc50d718f8590f5f9de7748372d2d39f59a859c9211ee4bfd50;
0x26dba58ade8cda188f49e52fce7167b8f219dbd924d7786b0f98fb799fefa2e;
0x1bab122c560118bee8f3e7fbe1712ab2b2a7312af61fb9820b77dee8d44d6ded;
0x27172e3eb51483dac0c98e32f05fbce687414c3a3cc27ab1c277b13ce2378217;
0xa9e3d7f3ef34d138cdaf36b92bff06b4b73bc9ce36156505741195b98d049b1;
0x1eca82667b9ff6adea09ea840efcbafa5e206c97037e01ffbb28412fd2bb44af;
0x1dd8dfcac157843cf5f94f9b10baa21f00e02a2cb5193944c3d3e970f910cd77;
0x23a1e6890522a89b9b88d7db407b00dc68a40692a366936de0eb9a57bbf1c219;
0x204f236b39b9136dc92f8135192c87c98c7984f1c77cb6064c71ec047975ff67;
0x2c7480b893a528fe00d1ce1e4d22b330bf286443fa443590a63e27aa91eecd53;
0xc5370a183a6f75b698c0fc6deb4447cba5de9ef2002cd8eb2904adfa4645843;
0x237300db179a8dd6b6d784735cdf4640d61d44b518ea8848d8321cda2b7b4789;
0xd9c58331bea02ccab4b9ef03eb202f1955b266c6666ad886272fdce7b289da7;
0xfccf4375bda2c5db513e2dd0638ea1d2edaf41c2c754482f833e17c62d92019;
0xc414e955b84493a9a6c827f24c39f62a9f9c2c8bdd9f76c3884d16217d30c87;
0x20544d89fcc7941ac4972e5528300d0c35d5a650b8ff51f72974008a312d40aa;
0x1af59412421b520c1171d8b74057dbb01653f41082f856ba5aa6abb79a43c354;
0x2fc1a459440613daf728da1cf3a258c093bf41706724e6260afcecc13d324b51;
0x177c1e93ee0ed483c73f148fc7f9891cbfc36a338075bc01498a69b0e1f8c49a;
0x98c005b2959ede9425452eee49a4b0803237cf111f046511f8d56bedefa7682;
0x15866d82d251f9afc692c1a115cdc5ac28b4771bea862dc26643e6db1d61978d;
0x2797e81dc6fc1e231f5051d228081b46fe53fc394524ff424963da9a91070bb;
0x26dba58ade8cda188f49e52fce7167b8f219dbd924d7786b0f98fb799fefa2e;
0xfd25da5fe62ce50a1525fe9e3566e9ff0c9587302f778d7756bd05d8c6aaafa;
0x2a1a6a789e908952cc8c2e72ef95a937179c9248b091d016f28e38db12312308;
0x2bb3bf8f61d1ed85e2175534e9a5ba3d17dcadce45eecb3d58749a03e2b04fbd;
0x1a30a88ce2e48fe060eff18e1c7bca6257b8e39351823a819daf303f5fe641d9;
0x5ecd325b357e47482e4e749cc8305b45ac1e65aa7ddd915ac37f3098dfd2d98;
0xfd33eed2e51061ed5cbbe5de05b6ede9152f36b11468387f518a997e4f72214;
0x95e4c2caedb1de02a6c60b086b8d8b67b9afd186f65e158d2748d2514d37b0f;
0x1842d38786dbac9400929648db9205d259677647a5024e35caab08260744f013;
0x203defcfa6213a500d5a788db1e0ffe30874406355502644de206a7303dff361;
0x2941a9e3edbd2aad6138cb7582c8522c1ac4885b719dfaaf49ab0a138c24c657;
0x10ff2a2017cba3c024111db07e677587896bf77e0673a928c5c2c9edc53cf2b7;
0x26f456aaabdad81d33930cd48342be34c4884d52c17c604b45e9bd80cf3c19c;
0x28e34a4031ce3e5b92d5d92f9b4733668ea65762bbe5fbbf82cb2eca7e208d9d;
0x9479c03abe2fc4bd11f410d7fe958aa64aad1ed9ce46de12e16dce1aa9007a1;
0x1901a62758c3b95378ffd836f543a2c2c1922ebb864000184b1a29167ed608b3;
0x24bbe4299e388e01c96d7de61ba9e9ad46256f8d8c186b2e3a387d558cf912ae;
0x27c84170d0a49798dfc9ab4d6a96731d0e8de772ca951c3ebb799378d22033e0;
0xf12a9b9e0cf4da08c085755f42f2c83cf9f9addaabe06fedafbd1ccb7696e1b;
0x2e34fc5a79f3d7859fff73ee159f8a963cc180ce2351f2709dbcbf6ec0a2d7e5;
0x6d2b2ce15705618d1574127c9324560d2c222065da0c669ffd2304a1bd31661;
0x26dba58ade8cda188f49e52fce7167b8f219dbd924d7786b0f98fb799fefa2e;
0x5b22e29f9914100e09f1d9faa6ec48b849d06dbb567b978c8e2875b8eddf2ee;
0x121d7d80eca14c71d3a9d568d1fb3d17d848312ac21722507029ec3df61d64a0;
0x248644294d40fc12cf53892614ec0e91eb6261ddb4de5a54590770b5a63791e0;
0x8fc50ee296f9fc6e508a23b38d180aa92fec743bb5e62017ee4a3f7c98aea88;
0x2f233d2487f18e22836df893982a593c74b7294f6cfe3ba3edb8272bd2559179;
0x10f6d94022fd2c078fc6dacb1532820021f50f288ba40ae4016366dfa703e8d1;
0x37d5df7e15cf95ac9c4bd02ba53e6d03bddd677a412bee4e0603f88ea1d6ef2;
0x12354c8b1801f10dfe6c394b08317c7e86f49e212ec933fff49d8b26553f3e72;
0x79679dd2756be024feb1bb2ee0aa5061a39752cf710ed6c9cb588f33ede8d0e;
0xd3b424ee9455f137160fa1dd534f67bf068cfce1913a075fdf1cae7e8324ca6;
0x227338281ee7da633b4b3938f5bb981f838c40ade4a0710875147f526fbae49;
0x234ac22358b519377341651ca93dad434807cce449087bd4384f46fc732f7997;
0x2e0c95ffbe680fa7622598933adab2a57c472a0073bffe10c0284739b26700b6;
0x15e0c89cc6c36a7db841d4270855d1d9b8849197f9b08131b625d5a6d9ba693e;
0x2f8952ad83b1ffb3c1a4fbd1064faac4f1c9cc31d0ff156a17478a1e3d255117;
0x1c7c48183ec207dab68d73aafeb96047ccf668318c084453e495ebd5f927d173;
0xecf362a269cbb8e56c2b0537f108a412ac9a3c6e351d0d27d365a4db7cd75e8;
0x11cd56f9dedcb991c0c6cd9c9a0def911edcb915dc1904390782a7ee90d0de8;
0x1ee74e2178baae842dd9658694381cc93b01592c655160923d40f4af2b53eede;
0x12a2830e24c8bf4e9c7f019526f71cc57bad7995f38c6ed20306bd7b00f0d7f7;
0x26dba58ade8cda188f49e52fce7167b8f219dbd924d7786b0f98fb799fefa2e;
0x14e12ee2c2f82a572d97c0b811a25584bbccc9be1b67ed1aa2141b2cc793fbc2;
0x4f32291e7636221ba7905a9a3a1cae812ad570260c81b3ded9af33619fde33e;
0x8a081bf1497e5210f6e0413c8b510f000fcf4a46be0a1b8442c5bc7e5fb7751;
0x284571ffcffe707510d0feb89560623db7e3bf57c9675b02febce95fb7969e8;
0x204b298a08577c1269dfb8ec9b4b3b502ed6fc3303544047d56d4135d3c01ab8;
0x484b3ef7bcf5d63934bdcf53d8aa372a0b0363b0241320baa3701e8a1d0da03;
0x9da34491e52c865a5b080cb9791a1fb80152c04335b1dabc34ffa6ad622842c;
0x1fa3cef56374f00878372c54070d9c41c5ab9ab1d385968daf9ca2ad67d494f5;
0x20b55b39b8df6f86a2ca381e2037d64987d1844c599feb2829648955ad16f758;
0xff1c5369778d4fd96e295c21bef4dd4648fad9531f669e704ad2e4178674564;
0x4c4c92112d998d5736b3f46120404369c9c0e428e47577c857509fa556a15ac;
0x27a72f4b6e9896945e7d584e41fbd3cd5f75862fc6ec94651f5033c8da34cd05;
0x2a1e46726ed9068504f7becf06cc70a5f645811bd65be579194b54486158599e;
0x15dadcb67e30b77d8b1e5dd79edc36c3d8d0afb29b6e7f0207455e92a301dc93;
0x29c1bcabaefb4954743a7a04502647c11c9f18de67e21c811c8d2b9f3ed82dad;
0x7d089a851d1c43af05e6c9243b69b77b12f0c0b0dd25351c522ce8dd99fe5b6;
0x1003d2e1e5368d1318992f181b7cda7786ec3e721be4bb89089bd794c6e9fc6b;
0x1747c287ece311b5484adecef423434d71ca807924c54a53e31109e6a502ea15;
0x134eff601bde8da30e62898b2e05c17f6e74d4ac31919c41363884ce7e30f017;
0xa2d92f328082a3fcf5809958671e304daabfdb5708edc2cc207175526ba3e27;
0x26dba58ade8cda188f49e52fce7167b8f219dbd924d7786b0f98fb799fefa2e;
0x4ebed2d43be5a74e8a00caa83989f16c0b9e82194db68d072226148c0a3d710;
0x29ab24663cace590f69751506905667079db84d33f78204a31c93e7bea1fa839;
0x14351a07d387943cf46b65496c66bc6f3bec8ea200d622074ac2430eaf521d78;
0x1c423576a075f1d7376168b207a6d7203712c523c67a9d38882e8642c8fcee02;
0x2c0564f1c52ac2d9f46211743b632ff07b210916de258f83d04df68ba0e29228;
0x7ae7e44ebe17fc24a06c9caaaf787c2f007c640faaac6bd1790793712a69525;
0xc4e1c566871f3484afba7d364ab755b839b09c5771413b0c31ed6a0fd2f4293;
0x17c4f2873e2da004f2eddea08a30a9cf2e05f196fd3331b6f7f1227ddd8e7fa2;
0x26f0a8ab7b5b0ac4593c98a899ed92d839837d520c5f6f0afd65da69a1205cec;
0x94dcf41915c6c7ffa168dc7137afa6778076c2b63ed63d1ab1b787681bd60a4;
0x15240235912d9c5ead8feecc29a4d77d8da47e9d1909763294ea18c027f1bace;
0x2bfec6d12a548b0fb9fd176c7200df86c3bd785d86b51b2076bd9d3e8247312a;
0x15954dffe4cd018acc436b70b029e0146529a26cdb39151468767b88c80ac82f;
0x1f430be26a11f722560b348b1c5b526894cb458d8a30b49887713d76368302da;
0x1360de1351ff67b63c312a8cacc2a465bb82dfdd3d792244068292aac083c8f3;
0xcae448f98a72597e67867a24eb6ef2c1ce5d454fcf1c9eb4d84d21ce81590c4;
0x20e9336dd103f61a54f27fab65e5fd1a317e75fbb5b22a81fff27ae4c8afbc95;
0x2e36c0ee853342906730e7a2061c3aa2dbdfefbdb554b3a330c0ef34bba74020;
0x21be1082ecbbc3a316c9d73495cc08c60082e1c20ad3d4eeb55553eef1a96dd0;
0x2c7cec0d47c779dc5b614efda39049642f1ff409a40be89cc93e29366df96dc2;
0x26dba58ade8cda188f49e52fce7167b8f219dbd924d7786b0f98fb799fefa2e;
0x287c8d33c0bd8b9ffcc38d1a3501b462711a41833390aa6291b5691321f34f3c;
0x524f490297bfff16e253a88a02b039f4d7be41c62a47525d615558fbb91a31a;
0x3a6f7a96eb42aca86cff7e2417d245dc19e8c7934e91f3dedb429ac4de7c61e;
0x155dd1bf1b5319c5993ffd435ba45f0a0ac8d47ef063423008b858ba214844d1;
0x1970a0db54455db508f369e376345b47d7df8dd58f6d69cce8330ed48723773;
0xa17d8e77907e26a6c23a52ef2b39064da014f030b5785f3ced98a8daaeca3f5;
0x199b42a0db3b829ede26736dc7fef94f2f211679cca63e75dfb6a221d4897807;
0x1d492d7c7daa80eb64f335e9cdf306b0be4b418fb7edf32eabbf0e89df5b8e61;
0x17c60af0291bf796fffdbc57db59d03897c671fd729bbd4c498e6069d0671ad3;
0xc646e58e3442bf43b2255aa0b44c45c87bf5c947ca5192eb906432afb47791a;
0x27bc23b6488e38e2ea87dcebd6360dd420d7ec90a58601eb1e312c6998a952b3;
0x1c50a70dabeed7c79cbe2f91b2f9a1d3ca9ccad68afa0a419745160b03cc07be;
0x120ae724abcc772ec7b0ac90719be72e9c17059b191f6e562620484e691f6e4;
0x69f84058a0565f943c4f5cff4c939581975165144f1d21c05217d64978ad803;
0x14a086d34d0cb4c050cf996b086aa3a21e451ae658ee0b037e7b0ec28f5905bb;
0x2fe2f8e67ac2734b8b1f6eb408f5f62fe88780b37d4d0e3396c8561309f1392e;
0x1b125268df7d9e01d789ba26c5956069989aa5328bbd46bb3a1c83e29b54f3b8;
0x3006fe14ef14b876c2e1e2c7415c98b78918cec927d8b711c4e11987c2e2cc59;
0x19332e6cc8221b23fd7926c431b68c75583036a24b7e6524527eacf775b5be7;
0x2780775cfe1ae1fe97897c286142833fe289028ac4e51285719df14c4ec967fe;
0x26dba58ade8cda188f49e52fce7167b8f219dbd924d7786b0f98fb799fefa2e;
0x1474d911726d98132a38828196f72ba9ea28de0e540822b530d53431c3f787c2;
0x29778cb7afc99ff62da1a393d60b87bb8573606ab7ad7cd0ce647bc1984cbb10;
0x1483d10c35376ed7a027168198d871358c79afbba7885d27c01b766770646814;
0x1a8c31c239faf47d773bdba0f70801eac0ac001c6df938463cce819a72a11591;
0x2c58e07b869bc14bb0eeb649f5c7d9c278b6f7639874ec404ebf75f58dec4831;
0x1d649850732837e1c07c9f303d6278bb14f5a54ca14c86a26379029023c3c6d1;
0x14306d8668280502119170da14128f6a340f1ded7e2ba209004c42fa628b3a0c;
0xd417ecfdcb5924437742605073656307d039e23dc9cffe05ef8416e9dba3a1b;
0x1b5881474a4679cde79a4b63249d1f98d8b417f1161599f6725471f582019156;
0x2c571e0b35cca4cf4ca7121c9de0c4c5aafc7fa6f75498e8ec57928fb1c67d64;
0x2637d9a03ba20a6cd7ed99a69c38a6d70b79d05904e37c9dbf46ab2c90583770;
0x1cde7eb4a685a52ecd269169466eaa897ca783401860eba2b6026e513d6d393e;
0x4f817cbdfd445391ae482fe7248567a0c8b82136358d239d4ef180dde2f489d;
0xda99ce6262676118f51f86309d5288eb65c95fddade417046403bfdbb087d7e;
0x2505fbe37c3109a4d1d321b72070a152625ff3b0fb76ca925e5aa2c058879ada;
0x2783007044f2d12e5db30735edac84614cdb1b19f69901e0f601efb3d44cd5b9;
0x1e145eaedf86b1c5cabe622df4cffdd8155e6db891ff498ff0b887f4ceab124d;
0x8bd690af3ee78b6d212cf184b969f3112d45cceb738558962382227a434540;
0x5a5462e764a4f4780125247cb6befaab7e4dc0d26e2d75f44087af9f6187b4a;
0x12c972140783d7889663c3c9da5cc43cd1a9740471de97908a62cc21d43e6e7d;
0x26dba58ade8cda188f49e52fce7167b8f219dbd924d7786b0f98fb799fefa2e;
0x16109bf9f0eed78c726bcbde7de40cadd12343460b04ba93a52d969201f97f7a;
0x1e85f44c0c271ef8b9a9a29e3cc73b3b782c60d4ed7cc7624d6aeaff8e492030;
0x9deb8ecc3bb2cdedba96ab5bd80b15d4abcc49b6528e84c1ed6971fb3aecb86;
0x7ebccff0e97b9ffcbc6a2b256bf888739c0db05bc5d98d9e591bea4d74b5c7c;
0x2124e4a429fa993d32f641febec0b25b9725342879f76afdf4e9eff7608eb81c;
0x1f4217ea25fafd2a62aa709ef72365c70d66a4bd4d756ead776b40521b29e76d;
0x10fdddc5f968f32bb7eb9555c0dd44462771f57424a761cd884cd0c152a35fe4;
0x201c0f5551305ce9fe25f26526e409c0968c80b9e065553803aa38bdaff0182f;
0x1cfeab50c568b3dd5c252b7cbbe28678939231d1287580ff6222d30821191ff;
0x2b4c60bb89f1ab1bee21f45cf38de8335a2e85b513fe3a9624eeaa1bf6255765;
0x285dc6058b80d18829ee46322acf51d442ec61ac331af40ffab6cd30a07ddd8b;
0x13b9bd7d2cc334d2f60d6249ee87d05e356fd182830d3b3e9f435c6240f47603;
0xfea707f44889ee47e8d9859c523f99c432083d85fdd6a8c75e1bb5771c10825;
0x809a77036dcfb9ecb677ffe4e09ee7fab157ac28330abde61af824725d9e74f;
0x152bb1a773b27f82406efdb0e1557c03a9397a6d87d461fa6f2e06ea9dd4e208;
0x29da79b1af8bb1fd1dacddbcac71ac28de5fbe6aaa9e30f471acc532f5fe9290;
0x252419542bfcaecc57733b02751f5142834e93f4560d7b95b85ad6423073be;
0xc9ddd8aed9e907c27fcc361067f1b6c104c2b0a553e6d6053d2f82fd8cf1cf;
0x2311bf775d429e2b982ca78c015cfb0a863fe4753625c4b63caf8e4ce36e37e0;
0x2a72547e8d5bb41f0623072d419bcf39d08e5aea781b7358e95757a0664d4b23;
0x26dba58ade8cda188f49e52fce7167b8f219dbd924d7786b0f98fb799fefa2e;
0x13ee4f15f3b425aa17da17f6b1f5d00cf09454a9515ae5c719a2d2dcfb41112d;
0x190daca6e75275d36dd65c372d302d698b1a03757c0b4c7689e59bc1a0169f61;
0x994ac0e199f04446e19887d6aea50a4e94172fe29818bf60354e92ba3ec6d37;
0x19d35ebcf34f6d72d2cc738a968ff2acee72f5a54cfede510482076fae55c450;
0x13b39ce996b064bda9880f5a6ee1677d731851ed9c895f19add559025c0decb9;
0xd53028037010842c02855ed8d3143166621d870199dcd06bcb970d30b8adb7;
0x26abf84cccb79dab1c143c12cd741320c9811199329ac1b13c240f33cb0a1476;
0x2f94d075a38862b56155e5bd18fef09e29267c0fe03259af2122abd935054209;
0x1d073e9398a1528b81d2a14baf97ce3081340b03c22ece28408cd284c2752b32;
0x1dbebbfaeb42d7d727f73f93ec0644264cd18a0180ec41db0a558f3b4430abd2;
0x2fac339c24fe87e3763ae29dd6d341aca13594792f6d48c66fae31b464234fbe;
0x89dbbd04d315a29ca4c4ab69cd041eb3f8484a1f4a726139de0103404e073b0;
0x7b9bd575f2ab6d2e57a6112b84c02fd38e25987794b65487f4975d098578ee0;
0x26563d3ad82384b0c3bdaaf1770c3cd5a04873b239fe06dc21900ffeca0346c5;
0x24d55232a8e458e4738c163f81ab363774595c7b79722847e3d6341e1650c80b;
0x15f6a6be40f74352caf5e8c0d27c8a96d233f38d778756dd8b09546416a42a75;
0x2e195aac1f98bb6fd894b6c8c78d0339d8ad8b48f6753046eb438897ca67cfa;
0x240c714f2346df0e0a84bfe85b6f624b177e2fbe84b253cc4dd67c84fb30e574;
0x15f8e5e81c571e42d0ba368ff59ad375c2de65558b61c63d08117bc95de0a133;
0xbc0472f8203755eea5f4a54c4202293e72cedce2f9e697cef329b4a2e4f365f;
0x26dba58ade8cda188f49e52fce7167b8f219dbd924d7786b0f98fb799fefa2e;
0xc8d9a3a7bfc7f53284d3f2d8493110979d2c58fa350b37572ba8ecb87eaf0bf;
0x2a431044a8b80f847d099afa8c1e72d7f21894f3946b0126655720f8a6c77857;
0x1181a1791fd2439ea67078819652478d6767154c7a9d04918373cc072d53ae2e;
0xf0ccfb008217426f92cc5dfec764630d0861c6ff9be2459b227266741a7de7a;
0x41f755b4afa6ff133e8e46fc826c9b3e70b45db7edb7ee2ac500e47e9844a9f;
0x1751a37439e9124554ecb92e3006d8c560d6109b98570800c2edc590016b5709;
0x2abf7e7390de929b5c7d29f75e5c341be84679aebf5cdf21ce295cae5881865a;
0x173d1a4bd47ad310c1227e8d26c8c7ac003258ec98cb99c4f5da10c2fed0be99;
0x208d34eb4ac78f934ee023480a4b55edb26e044d9a46008804113b8b3ea6e237;
0x125616d001a18f80550970d010e57191b13574c8f737e4c82b47be6b1984fa62;
0x671703eb5922282742b194f3c2d494840e872e60fa6e77c66fc03868c71abfa;
0xe335455fdb0c93b70a21ae7ea60638481071649d6bb76343651667a6205ed83;
0xe83b80d5c774f2c4e2a8c7f7dcea61c0b0f000c7bcdca6bae8781aedc2513d;
0x58c57cfec4eb7be81eea51addafb135b89b2c5a111bca597f5212eed8547da5;
0xb1f27ab7d0817ea3f949179fc135b60938c8c20bb9cc0cec20b1bc8c5fad7c1;
0xae5de9d9b873cc4211b1fd9fb2e0717ce46072da5f7d8610560c9582b7f06ee;
0x4e515f4aa39a0a8667cf06abff04d87ebef4d85dc32ce64a80be9073b8e0163;
0x19f6c6c86ba20bec8725fefa5ee70cd0b1bb88b9b20847927e963ecc6f46d376;
0xb97af80e65d5a12a9178351fe47f3c6741b18408ef108cd73a56a785f657fe2;
0x11001edf4b5785917fb4ba3f1cb07e46f8f038edd5eba9c657dc39b3f6a254c1;
0x26dba58ade8cda188f49e52fce7167b8f219dbd924d7786b0f98fb799fefa2e;
0x1f57e91f818cb6ec2ea89a4c5248e21db4ad238c11e2824455224c316c6de448;
0xbcbc929529eeab2f4001235f0dc786e792af2641c0db97dbb1780aa611ac51e;
0x2ffec2a43cb616c220af4bef1265a368c46b0d1c049e79d489bd62e461669061;
0x18cfa39baabd3a1f352d1ff2571411e36ff0c72a2796a40e9fc2238d89d99383;
0x26d86eeda466378285e93d468c3686ab5f649a40ed46a52c29c2b9aed41391cf;
0x2120bae48bc4d0b019112e48f3daef5b38b9991285c3d03e150a21fc03826de9;
0x2872ab1dad0eebe81027996467b9767b38ec6dfbefb43d9537d0ceff4b0d8032;
0xcadd0bbb15b10a2a3b5976ced621686e190691ddcf2911a6d7911aace0ee731;
0x12f83ac35b2e971f68f375e239c28cbfc8010f2d20a609ffa4bf3ca8078870d;
0x247b58e9d413e3b9647f7204b141fb1599eea15d505520b47d61c11aea6b1eaa;
0x13e4b5310fafb562358633169e17e3431a821e301a178c33279f5485290de69;
0x1da54e38f590b18af24713a270573e2c12e2b569b0e90992eb88312117269373;
0x28b85a60621eb6d7d4633f180f515bac0757a3377dfd68181bf6a65a9599121d;
0x1a152410d786dc50b32af794cea9b7fcb7fa48231d536b3c18dbcc7509606036;
0x92699deed292bfeeb718c76b997538a59e7ac548342832dafd64637e738f1a0;
0x774bf3637103073fe707caa2d322d9a9044e4bd92d81c1e0ba56467c591a487;
0x1a2f16440b008c3f42154123ee5c0c0f06eca84795d9b104c43857bf528cf79b;
0x149a1d50c2c217a068dd2ebce1907172d58fd0a3123debf849d13d873648a8bc;
0x246086052d1ce8675e03b097029adfed9a97c8f67f606d7093f6e412a7b4bb8d;
0xe2a84c4e9aa19be7da3e5d4dd74a495d308369e4b26a165dab9c4238eafa4ed;
0x26dba58ade8cda188f49e52fce7167b8f219dbd924d7786b0f98fb799fefa2e;
0xa62dc9863ad7e45ef7f77431acd332fc30280f65ef1ceda4ccdea63b3ceed3;
0x1b2446bbff67b4093c04a6f3e904075a796c5e28a5a6e586d6440753ba97551c;
0x165b84f51091009c389eabcd7fbbc992996fe32d9f8435354368e1e5b1dcd59a;
0xc193a00c3e7e8e353d0475afadbe369f9a5d17169a169ec197977619136eff3;
0x2088473c2b6a6ae33c857f94f2f12b90d7f5ee0569d96d801fa8b87194fc4595;
0x8787d2cebcabac086e9e7e1fafc216e3f8fe5335bd4642dfd1708a82a5371eb;
0x11191767947a0e4f9c3f782d1abd55624b55ff7087f34478ce0a7aa7b2715cc4;
0x2d28a1d818e8eb1efff60aaaff9483679cd5d77a701688dd53df7a9df567f5e1;
0x2fe813fab1011dc74f8a18e5b039dd373f0070ab1dd4fd126718a087cb2b8f9;
0x170e6e3fcd10c27d012f844c21af6850284e6b19fd5d1fe8258861d9db249136;
0x107d6816c1e3db9ea8bdc485fdbcc7f13e6134e807d7e4d686c587b4b02174;
0x19758af0d83c9505493b5419c17e6c4dd7f2ff338e60e9609259dcf15f33cb96;
0x94462f324ece93eddd9764f77d342e248121b7f1dede3f149571a9d9890ba7e;
0x86086b36fcdb387c6dfa2ff39c4910fd0af2fb3ecdedf957350e20ad3c843a;
0x2e3cfaefc61b8b4800158fede4808cedd9d7cb5b2280c9b1590e0429a83b3db0;
0x828cdea83f97fbf72dbdafad73f0954b8849f09a7f12c3bae6989012f8d9fc0;
0x462d87fc2c8185981a6d5efc6e31654b2696a1c42ae60b99eda523fd8c13ec7;
0xe8224f268418104de9a75f6bd915d2861e8e74a74057319dec312cf8be4dfc;
0x89163233ad979f94876f77c9717a7cc3171425a1b484d1050f7550e31c5b42a;
0x13f4fd6d8abcafc2d57797c252abf6319f2d2122dd71b15bec6dde9544f60448;
0x26dba58ade8cda188f49e52fce7167b8f219dbd924d7786b0f98fb799fefa2e;
0x2cd268e81100d72c444d6246f8003ebbc08c1b5b5850a508f162541e43804c31;
0xdece92e3458e7d6e3ed03f44c57b6a597f2a0851662e51f30c7e345ab3fc44e;
0x2782c56f48794e225a91ffec94d427fbc775704a57e24c93a1092b003ffbba12;
0xdea062e2b07f7c6afba58a89e4f46c9586b6ff9abca5d59ed857f5b65e618f2;
0x53f7495e4b1275b15b3f9cd75aa20f9f7693363d4311764a772f2956af6fac5;
0x2d8223dd32694c54cbca71235970b8f70f1a7428bd738646ca6a862f46f64ded;
0x230d3770de4960732ed1114493287bcba5a8b219308f15bdf3d66ab0303845e3;
0xa08b786f3debb023c5ac7f28402aeed473d83cf7345cc4e3ff319ef710c8e92;
0x1abec3768c3f0fb09fb3f77f12a70683a00aa39dfa9bb1df8ec678d38d2f59aa;
0x285759f5a94427ddcf1462454842a9d1f953a3d2f7ec048846fd78d01a0493e2;
0x2b4f0d69284e2851b5e39f369bc98b54d589c08c487f8c89d1eb0c873cc4be5d;
0x447dbf76029e36fa2eaa60a6235e5462decefe44e558246910c8f6d57b00875;
0x275415ec216217739aa767153b11ae80c6b8b5c55c70f2b971c41ebe8e2b6af5;
0x1a7afd3f33137e9fdcb3dc28cadb4a2dc634ec68033c4121f2e55e1fad47d19f;
0xda8b0bf0f0197a311ecf8a70c17d6b73882fa3d36a2966583161a3f767a5cdc;
0x2dc11aa7fc35288f4c50ead3bec7cc0e75b9e52e8a3fddb61492ba94948d5ada;
0x195f7447bdebfa31bd8bb43dd8d1e6875c5c135b15c3b4d609d52345559d71b5;
0xfb172e6709df3831ca8632986ef7d85745139a51a45c169c830c4e691b451aa;
0x88051acf2f4c7ba673361201ff1639e06fa376b2a6505a1e62038906a31cc95;
0x19e57228a8198e58cb5bccca90c63d15e07a0f3e6d5d130d973db1a831af0bab;
0x26dba58ade8cda188f49e52fce7167b8f219dbd924d7786b0f98fb799fefa2e;
0x22e5666a758743c42fdb3096ec7a7e4266ad74824b6be3619435d172f438e2d4;
0x13ea60e7594766cadf7e4aa1f9f005f9d9e06177456cb4a43d919b4538492a06;
0xff1eeeb246ed508d96db973e2c50b126fa55bc7094854acba766574c0889a7b;
0xaffdc5342a12d31f878c045e76796ad01bd19a313b08cbe6071c9fa06d37178;
0x291973a60e03d9e088f91cf2e0d5d4b814b2d84bb97aec7993175e5d6dc519f;
0x11739b8ee3040e282f6d5039784f6b749c3a4d6befe0ec6276270da24f8772be;
0xe74e778ce3b28a1acf824de6d089b276e535117c55c361debf0a40573c67eb3;
0x1a527cc72db1098870ef84543fa630c207a6094df73caca62c47ebfe12c4dabe;
0x12f701614f5391cc72251c38e11391e9aa2d1703c47e84a041ab471ed77450a4;
0x11936336d54527a9299aed9f52635b8a53f9a958598336c9848564b86516ceb4;
0x272318da87365e9fd6249ec7615961b138ae0c7a36b5175ef5465898c711be04;
0x236b144cf42999283d59501e46fe4ea1d60003599b4046d7a60373f0688093ae;
0x1a239569e5888ba9ff7c90a4aeb505659415da6efcd3c101e791228149b35b61;
0x1e9e91cc7f554dc236e84f167e2baecef5a26769296b73a94648d454028ccf34;
0x148af5b46862ea8269491067a96aa3e71f424fe1bee820cd988fd8b19527bb5b;
0x24772a606417d978acf26d46756665b3c414dce37ee779c91e98a4caf803b6e5;
0x1ed8140073fb5244cba84342b2727e8258108dfb63d1daa824f4330932a7f292;
0x109b45b57572882b3de57c6d043e9477acc341231247aadf512cfefb46159244;
0x12563836d2c2fe6d077a81786800dbbc8e90d758a5a323f549f9b8d523b630b0;
0x1ba00aa80b49e70bd2b3748968ce6d19e9d3fdae0bdbc10cc50e90dde09dfe0;
0x26dba58ade8cda188f49e52fce7167b8f219dbd924d7786b0f98fb799fefa2e;
0xf24297c2abe65471b0746d085d394de0919936ec477876d32f44707fe0bf799;
0x20eb0b298c48450c7f613bf10e04bdd22ed3115756fa21731aedc3ffbe7cba27;
0x176482f9dab80cb5c4d91f707575f2a2b552fced3c3b96a5bf37f9b80fcc9f64;
0x1f79915591cfa6648201a28d89355cbc6875e30f78d96a32c3f108bb3a8d5a76;
0x2961cce7579ff9f9f0e867a02cfa8bb2e7401cacee24f5556e9d2fce5d0cec8f;
0x2a41178e5d6a04a7a1463ca1799dd1ba6a7b5c4782097e585793f987485559b4;
0xec4ae2219594ec22f648bc1fd42b82673c47d95bf48e9efdc39e0da9406eae1;
0x261794a9029605c2a4aad5463047d0cb96f9da25f3b18f391047e684519a6e05;
0x2e2bf6b18878b8335e40349e7f475e2c85cc279f99f76c0bb717d0ff7866e5e4;
0x153ca309df24c9e664025e69edcc363ca33cc1a9a2bef69b44f607830195235;
0x2db12f885abe64af44a3ee3f8478b92cc71fd91b096d65099be20ef87c64628c;
0x1f2c5b4c49bf8be7e7d4d9f83e18e6ff0c70ce913f2e246e65024ce32e0b231f;
0x9180876813742a23b9376d01579ef57c1fb39a60e825320fa0eaca8953152e3;
0x2ddf635158aef59c7d8a6de274b34eb7a5d0088a7fc4b0f7f4ce699a18e73a5f;
0x77f3965e42d9f1951cc9528c4a10b099bf49f4eb00e54d389af199a8a474125;
0x23b552370636186071152d808dcf55927b95422529bbe9900d1a1244532efa2a;
0x10b40997e86c5be3b64959e84b6ff95dc3afd77d7a8f708ba81d649075c74ebd;
0x19e7c76c1b1e67f86073187b4f730e17bab59bf1fa5a00365be2f3541983633d;
0x1c1b3ca31b5179b6dcb9ee3ab883ad56a355810877c058d64e345815eb365f91;
0x75afbdbd2dab2064406909fe766072f532bccffa959708bd53863b53f1323c1;
0x26dba58ade8cda188f49e52fce7167b8f219dbd924d7786b0f98fb799fefa2e;
0x2d6bd5f440b052c36e1896ae00904b584661666912e14b5a76917f2a4023a975;
0x9fadca902762e1b9b2ea83254c1422c3fdb99ab470149b91d818f74c166448b;
0x1fc2ef7556e6b217f26c4ce8b049b857fa69b7f22ae9665d8fe061e57ccd86b8;
0x277e0a5d5df37f2272903866a0f10472e3e4d61505b48279dd78f9e5eb18dc6d;
0x1926393f89d142b831b5a9463ae3860bb088973ee5ee9008f0e1c7965c79be27;
0x2917f5ea018334c0f05c07baf8c846d354e3945fbd67d5a22d058a793275a35;
0xf1816fcf77643185cbcd7f0b141007670a027cc2891280006f4e0fb6f700113;
0xe5eddd2746b7345563203a3a02ba3f3be5c9de6fa3d6819c1dc8c10ca61962;
0x2fc0ffd1f2fb9e525e97afb88c5c1f16369b7864f845a922f56af6b567abb127;
0x13a6d507cf38dd7ab84c4fe55fc37ccc00e54ff9114fb7dda131aafaf5e3d8b4;
0x209e31eb994b1224949ef724609a754624b12e3e96aaa426519369d729d7f0d6;
0x29b95c4e0998e017f9a6efa329e997d750c315a7091995543108bbf2ef92ea5f;
0x273017f65d54a8a19e933a2850fe33bcdc56245fc66dd40bd16d1963065a8215;
0x9a00a7bb4d3c41d31473d0c97194d90a94a4348aed808ae2d9b68d66ac6da34;
0x58f37eb54a0d174ad881009a16e033b0413350052445162508f2e3f1fbd13a8;
0x2991d56ab55bed4794d78fbe8ba2d84e0402b704c63e8bb477815b94c0b6e72b;
0x2cf9ac97f208cbe23d5daadf7ce8eaf17b949ea0694202d6d3b4f6802c20c8f1;
0x2b2ffc8ad52ca2742997d3fb13e13abcb7c44ffea14776362b6bd9e1c5aad18c;
0x3f78a9a65aa3f5e30ce1ba2779ac3c5f275ab77961819dd01638a42d14fea57;
0x28a9d40e9c58592742de7987c8acdc7fa5e622f5e87508936c5c90e5a2b0111d;
0x26dba58ade8cda188f49e52fce7167b8f219dbd924d7786b0f98fb799fefa2e;
0x2da971edce5951e175b20231e2caecdd672054df0a81abceac87182f9bf2ab39;
0x4852b72a76fcfca8332cf2fca53426d44a81025b049c6fe56186da6b592b8ed;
0x12678cd0dd103dbf00c083c3d563aaaa6e6e39e940c80c14575ea53f7da93714;
0x63be8111dc061b7b1f827eba7cc5e10703843b6878cf85160b1d8c37f8cf20a;
0x1292d1489e40b2b7a96a47889a8c08c9bb62ba92c2fb6ca290d3026828b90a38;
0x131928f8c7f6b292af217e6a3798bb3c3740fe744c9754f71e964e739fa84c7c;
0x9dd09c082e6ef61242bae94103d3413d8e280c3d824f566b6191d86c3e52e7f;
0x13a9b7f650fbebb1c30c63886605cfe65fb13044bbf58f6b6d6d4754a8803d9a;
0x278e646f62cd15b671eab2feb4b10833606a737023c50356dbcc6802c47e22e8;
0x63a048acaaba44b87639a3d246f7bf5721b2dfef3bc6387eb9a7a1753bc9edc;
0x19137d8c7c05b4380c5427ba3589505a29927ad701293341a797f8dfc6b64eaa;
0x4605aab2cbf1c8db31f3530518b1b058e8a9fdd52380d4365e7faf99ab86431;
0x1a662725c05570d0cb0ce0e3cb83f5a9a0d641d7f7b5f0395b3cbaf27ee8e7a1;
0x2f00701e4012136574084fcdcfdb8a03d4370327b6778f7dbe08468a3a221d3c;
0xeeb43bee0ce1170554f5365901cc66aad614c7db44ee7d933114e56ae13645f;
0x514bd58df752da3a43dd75147804956f833e61091c33e8b6ebc059d1668c3b0;
0x2e501a1cb67757564a27a930415497ad671f61899a37206e4bd4f70525dac248;
0x16d477454abad4ab36e15a385dfeb9d8ecbbd645a459befd544456bad6de8e6d;
0x3c052112963b411255ac9f4937ba4162dcf4dc56fdfb5f11f585a2f973d1ceb;
0x12dbfa8b1f22ca2b3338b85b1a1cd75ff557cbb18bf220312b18a91a24d55d81;
0x26dba58ade8cda188f49e52fce7167b8f219dbd924d7786b0f98fb799fefa2e;
0x10818548ab73fd03d26ee40e1a406f294dfd8c805e21f8689f1001d1d3808e16;
0x24a35e4eb8df49312d9fefc8887e52fe90b836c0cff7f7c07a848a14b01fcbe8;
0x2e0f1e7d21d2d04fce40c67c3746330043b7168c16650a4f2c9dbc17eaeeef9e;
0x230af3cc2c7ce9edb2179f8615ae8a62e458eb13c246f9b673170f1466dfa17;
0x1134692f5f1f941f285cc493c3f2327065c452ad32cf715486dcebfc2d36e000;
0xa9d37ced0d525c9d8577b969975227cbfef65e389d902e6c4aadd01322e8ae4;
0x1db2e2b5cd0288b1d7c7faf003be7703b5c5e45ed5cd77c0f47bb8d3f2703afd;
0x12d629c5fe0a3943083c96e3e532897bb2f63db5519122159b61723410ada8;
0x54da7deba9f7f2f2e2180728042a935674a8446804c3cc47c9d15178e8d6666;
0x29fc7ab2d3d544f25354a989848126e23d60efc67d30c1d7e6dec4f01c8bd52a;
0x14dc9c3565c4d246607923146b654a06c3a6f33ff2e7b285cc339e7e045b10f3;
0x257f594d047a720f1ef7ae56ee5cebea62ac2239715a55b1ffcb394af09ac0b0;
0x1202ed4a356316e5710f9f1a5727b083c1ab217050e8bbe7d95ff5f826c77669;
0x30fe2beb49b890033bbdd087b9e263add126966570888915b43101888b8b962;
0x5ca2c86c6b813c5ab7ecc7fa53fbafef3678c328accc49fa70b5f71a1e368dd;
0x22b38b500c9b360fc2b4ac16b0f8fe71e8e30a9a5fffb2275f40112e01c59f71;
0x1a85a376a332e4ed41c5b9e85dbc2806bb3c3c6f38c7f251fba31eb492d2811;
0x30b8dd372a1546b35d430c7592b24a762c0e748b857190aa47ba294da43f9bc;
0x58804d2aa2f1e9d511cb4bf4459d8747a00af3f8cefa52c3af281d7b71a468e;
0x2be9874c17f4811897b082ce47809991d57d081de49d4f9259bac0c2bbb69e4d;
0x26dba58ade8cda188f49e52fce7167b8f219dbd924d7786b0f98fb799fefa2e;
0x10127c52ea1f6d2ae8cb3a7af70916ab29fd85fbde5d15596076ce30524ade37;
0x2d887f38f4f5c278b142bb09fa17210717bc38dedc721327c34b5af25fa4975f;
0x18413dd99e547cd6112c9b3890a4a927660153967a2fa3cc78281aa3743b7ca;
0x2c8375bf705e811aea8583b90f6004ca186f06ba9005d92cf3ce7317b4fbeea4;
0x26672152eee139f933ea3a888e343a211776aa698206a6b970cde470ad510e72;
0x179472871d26f2e278673df45769f49f3943f98b5bc9e76bc7bd639f5cb94a3f;
0x1ed0f4a870226c8afae5b2719e3aa60c8a4f3f491290ecb6a6fa8ed8fec32f0f;
0x1e8ab7c5158984fd536a1fcba52e4a9a99d2406c681d0d54c194a1378aae7bf7;
0x6e50409b0cc763889daeec7624be727dce09632fe17945329fbbbba7336b56c;
0x5ef96066a1106782bd7942af6ee88ae6c642890863ded5c908a70f0e97188f7;
0x275a393c79c2e975e32088fa28e808ef7b3a28ed55d7908b3304c6270b68474;
0x232f41ac9fb55828ad89fb910fd53a80463ad16ad787e2869f315a59ce7766d6;
0x275bb8e491e9023da98884c13b73892f2b1eb2e77dd1dda8b5095bf5c9adc9b;
0x761b386807668eee2b21b55ffc77eac91c6081c52308c6dbafc6c07028b4e3a;
0x493e9a3b80d179228d2a81e903a9fe8d65ad2dd99a733e8ffe044ec71a668f4;
0x304413ebc59f08c82a9e2356ea09341910ff74938709f03599a4f0524ec719a8;
0x2d1e1f38f6702b847019dd697437b90bbb302f642fe0d71df7faced0a3dad14c;
0x16ac849076bc69c52529d4baa1c20d39991d1d1bdc92c8e0ff1c5bcad374f25b;
0x1a85ec6762d6cbe146dc87cd11c2b2daa1ea599f611965a59bcfc3355a684318;
0x196530945d3d7b35c950174d0b08a4e423a8ea2bcb1d455f4b5e042d66cf2ca0;
0x26dba58ade8cda188f49e52fce7167b8f219dbd924d7786b0f98fb799fefa2e;
0x7052091360f5985cd717c188ee4aa7b12542f1ff3dad0a1996b00fde6e3652b;
0x291b5860cdbc43b0f0e3d258bdf8f8b58c839a56779bab5f918e042293b9868e;
0xd74d3b457f71267a00679f5b34b57cd193626e69dff827153cb0a07245f97a5;
0x6063d52c65712f8ea7af7b3405c330f3a0e1e4a1652cc21d3dc5e0f60cdbf76;
0x66b0a3103e081f9125c429640d2db5993037180131ed22bdd413d33d6a830e9;
0x1a1ec3ab8c7e73bee5257c0669cb9e5958eed3d51d6b8bb1a43f2683e2082a4;
0x25bcddfb7d8a0a191d30fd1325f71e08124ad4b099485d80f41ac677e0094152;
0x10436855078393e34186a26936181b385e1f4babccecf88b189a51b052d6931b;
0x13fd2892c02f51e42d36d9d6986a773f1cf644bcbcca74318c486e1b1887a8d0;
0x2c28f6b8646fe071a4d6eeaabc22f4398d09adc041da503fa5e13d55f280424a;
0x8283969c57b0158cd5bf0dd9ee3bf1d6008dcc45c1ef3288de7d1be2423832f;
0x1130ad17e3000bea708aa2ea9293faa1bb33c9fa734c13ad351f0409c649ca65;
0x741c5c7d36f11cdc84ec58d9e6d7428f8cf2d15110ec45d7218f7991be58206;
0x1f449a6d7afec87c3391d5f306fcaa5ba7498feae544c6048dbdc847c7dad3ce;
0x13c20e3e2bc12fc0d3ef6ba869311fbc5b6a3a4d779dafed35a96098e97f2167;
0x1fdabc23fa86f1b12e840c491a7d7bc267bdccf6eb113729e41f09eb416c0d90;
0xb18abdac519be96bae35d898d40a26e9d9e0561f6934be88da9a5c24e498652;
0x28b6810fffb6ed56cb0ab3df49bbeee7cf4f978461189f205aec741cbe843202;
0xbec82d9037048c805a293a708427fbfb95dea117a6dcd1e6f34f13fc9e088f8;
0x2f63a41ae9a12da286de92e8e7d65162eef3e275eeda01b2f1dde4a6b69826de;
0x26dba58ade8cda188f49e52fce7167b8f219dbd924d7786b0f98fb799fefa2e;
0x265c4fc58d97632fcf19a923a0667b9e9b28b7add612d7a71061bc93a8db0d34;
0x12885bff48b6298f10b722b699ea5cfefd234005c83ff78a16da563a95758d70;
0x151d53cc6bbeda594c839f198afdf5419d1c87ca6c45e23b4b5df9ce6590fa24;
0x14d55af045f1dfd8f49d4f256e081a6b3ed093f01a72e9e7fa95964d274b990e;
0xd2eabd86f01fa64ba065b8ed26f82ce2fc47e9e016448e3d727a7c66a7abdd6;
0x28b3060c2dcb657bf0ad4e015552f6c057d08d94e6a7aa8f65ccaf576ae19c9;
0x29999685e5c96a1b905f85dc5bd585d018468c52eaf77a65a6a7f7252d015006;
0x2cc36566d5372f76a5bdd4fad63e709b1c9a1fd8c638d508d11386a963949d17;
0xf45e1a65d563313981d7fbd8646e8b6c0a513e921fa4d91d06d1def1ac535fb;
0xbe5a47fdf5f5ebb05760335c19650934d3c9fd5bf6a947d230ec07b04b63361;
0x8e06c579f1e6e0130c801b93e325ccba4488227d52279b600cea03c02f55841;
0x2f50f7000c45cd941aedbfe73b0022a95ef948e1672e5e4ae7f818c5af7a5da0;
0x10e83f3ecde3d5babb785328a70cad7f1266ada3811812961cdd561855792100;
0x2391b1a42d1ad62765e51ebd3fcaec9feda26eb1a8e4bc397b4a7692e5036354;
0x5dd281f4536f0e512cf632d8fc3bc3b198fcd503172259acd0a43f6f3b2ca8d;
0x1805c870c9eaa246e93fe07b6de600b300eb1d2cc768abb8a325d1b35a73a383;
0x735b3cb5309a63477b17662d70e873a588e82e15bc083fca92f3b1272de5930;
0x15a7b08ffbfad70da2050e2c609621cc2817e9fab3f8e06f0f7d37599f374039;
0x1c7725a85e6a7f0ebaac87408b38e5e6ecfb4de63ab1819008926a7d1ed9162b;
0x2371b576f67ab802e647290dc0ca0728bf11fa282a106e52567e430aa5cd6df9;
0x26dba58ade8cda188f49e52fce7167b8f219dbd924d7786b0f98fb799fefa2e;
0x2d76222e6f0ba0ffd8667c9cfb2a8bf2ffccc92e74cde3aaf9d515f6770be25b;
0x21a9df030fc2c38623949ccc0e27da5c02225e2e4cb94258767e67046b1c9ad7;
0xc994ae387461d0c7104186c1f4e140f224a0c8590490a5d28bf872596eae2d;
0x27c61ff34f721d9b86250fdf7a433505b8fa72ebe9a28c0f8f9a5a86e25bd642;
0x115aa7aae6b9596eca97b6726a631722dae0a8f630a3368604dbcaa9811a851f;
0x18ce760e701aecf766400d3c8303e28aa7937c3c89c3109a5f0b8f9209729faa;
0x2e8d27465c96902538919868872618261b07e2771f087e9686a07b02744a0149;
0x100661eb6f7639b3cddca06469b717369b84248f18a9a0250198228d8580de14;
0xbba9475dd449868c67d4d7394ed448eaafd0384f417ab5ec3582db8962e423;
0x2ec4cea2ec233f82b5c3afc658cf0f1d5056dfe434c209ee3d3ae5101c5d38a9;
0x15a99df7e6b5ef0315db045932d7a24de603b0b6897f567626fd1dd9f47c8553;
0x1be6d866794b25f0ad77226028183b38ba4faffe5a4375d4b2560306acde3c5f;
0x27257e94b2e95e861b7120ed9762d8c4c94080b7612d9b58d00691fbeef97374;
0x3af51f300cd6fcb4ea567e6c8513d81dad94aa1d0c125a8408cdf1ed9f103e2;
0x193b1cb5ebd78dbe0428c993ddefd3df2414c558078f757b3f8035b047090913;
0xdc86ca1c3c10a634dba579115794017366d06315b67d84381f4e3d530800e52;
0x1235404239a1bd35d8a5d7e41fbf7979bc1132e1316236fce4704951990487e4;
0x17e965fa385145f2d79704557938893089dd6a9411e1a4054614bba0f1453b45;
0x17cf6ef863dfc27d9e23767c80219a62279a7c1df9553c8c3fba34d8d80706f7;
0x568c86457d66bf962613ccfcf294e2bdfdc444406b20a6563eb382164f6b38;
0x26dba58ade8cda188f49e52fce7167b8f219dbd924d7786b0f98fb799fefa2e;
0x2f5139526746698879515dc547fc4a18a47bb7b1069cf42d88c1699f37bf70e2;
0xe9ec645e63a3358158ca6bc99b354570c61b50ae0b66a9b2cdbd5b7bd2528f6;
0x110bf55f969e6beb814a08bedfcc429368f8a65317d9df987fdf690464e82792;
0x50a2f40f3337b14663877a5c5c66bbad6bd40810303fc9077996384fb942223;
0x9fa261cf5150dae90270799121e56745c2e3aff6c6edeb0d9f37ad73f2e92b7;
0x18db0fda1f48a43c15c1d72d7a8e8ec2042ceedc57f08cde78484f8a0175afe0;
0x12cd152e6a482b22678e14feb1d2b463560eb39b0a27bd82dc9cc6791c70e234;
0x208785a8e7d01f556b883d201a43071c922863abb6b5b9d62b06cdbe1ca198cb;
0xa2f6f2777331ff62db3918731dfb0f8981e3f15b0715a44a3e076abf1e29710;
0x2e40f60a955d8717e55b97ff156a8bd9c6f2e806d042d0213ceef2356fc97f74;
0x15b824ec28269dd4d8e6a563169d415cad68d9c1c7aee1aa279b76abed3cee6f;
0xcb83c1917e41f61a32024d11b6d8f43c8a9e9547568b817ea72b3ac253edbe4;
0x131c6c3ae3535f15bb791ba5c1f52051635c44d8e13e7c28d60812a763cf62fa;
0x274de569e20256784aca3a5ddca5222476b2c06e6976e4b5332578eb744ba058;
0x4cd6d293061e45cdf3f30796a24e66007a0aeff1b9c7cf7cc869dda589a8d14;
0x2045eab29038ee2c289a564f10fa0ba6377679514a389b836dd6998b4799a07d;
0x20f10e37bae5a8193adb95b06981b0f7623baf32b69b61a11696e7a8795494bb;
0x1f55e36adac5b9b352d7cbe55651b680c4b342c335bd8562fb45aadd3e83e619;
0x29602ba7068d0b754d8a59a67b5cb83de5a6d86092f8ba5da32960ac4237e424;
0x16707fcaee953e548b9f04c22b714507ad45c63e242d1f386fe813701e59d18c;
0x26dba58ade8cda188f49e52fce7167b8f219dbd924d7786b0f98fb799fefa2e;
0x26443bd83569c93383cc8cd7a2e05eb2bcead4621e70cc188f6405c89e778a7a;
0x5a35d0e22be0f9bd2528eb55583ced870d362ee72476e9706625e49bc556498;
0x1021e56558839fc8b5fb2205d2c799e3b31e7657cfa3106b0651ca9f6e9def53;
0xa4aa165b7771c0810e9caf04fdc8d6b4fa87e2b88cc08aba3c8ec908739be27;
0xb711cd6dc591dcf07f400fabe5cc8b78ec01724bb2b9e62d11456b6de351974;
0xdb4f89a973ddb25f113a6df8e80aa798cd2107439ca4c3a7cb4787f23148c72;
0x24580560fa1df7a3a4921875187ef0cad6db94f0bf7348fb7aeb4c9e31bd8dd4;
0x1de8c3e482d87d19a3348c786983ba4bae3ab00870d28ae3dc18bdbc0c8561e;
0x35ec9a49296b184f2225b3d68de6d1d5a623236576d838e557b150893bea66c;
0x1f7f2e438c0695e2057f62a661aa8e85793ec168e2aac1ce06ef7ddbdad1e115;
0xdba6ba79098331b4dc93515778b2497c38c3ddb2b20e6dc9df6ed5ad85c32b5;
0x22fa5dcd5070a8f46ad637e3cbf69c256afc6ab58dc0b0d98ff15740abee7e59;
0x26a5fd93dff7f5eb49942b51b03b98e9cd2ab261d56db7516afb897ac2706ef9;
0x2216a1a787d05bbccce19eff5d852b92e317606d55c6b5b3fb02afd41e69721e;
0x2228040c2cc6457ecb0acf3ef4699eab804d0251bc75025ea928d16d15065953;
0x1c20e02da095541abc6481a5c1594ceaa688ec99b43ffce38b098ba817af0477;
0x106f19142419a86a234f4c8b94c9ad6f3b6f4dab9e47ff3c9d6669bed5ff3795;
0x104c7b997f5f83d8da35fab234f56c49716df4b0a7318bdae91786b0a007f857;
0x272b659e78a33f1541fcf58f4cb3e64e806f3cd0e2438dce20a9ab7d416a3080;
0x1249186ebedf49fac85f76d0e10ade878518daa306d2b586e295868576a13ea9;
0x26dba58ade8cda188f49e52fce7167b8f219dbd924d7786b0f98fb799fefa2e;
0x1490ad8e9d330e2beaad58cbcbabda75796a6e00166bd7b9de35c84dca1fb7e4;
0x29cedacd10b839b576f81408dba8ff1cd699b9b0b11e16e5267c217e574a559f;
0xd55f5e0d31ed8c032f1b31ebc07fcb088feba88583dd5815f85431f3829cdbd;
0x22c2de78b8f8caee3778d4825710b080807cd14bfb6080488f99e303dea9c4e3;
0x256bf262a0b931d87affd8233c61534d9f5f33a3ffe59460ca8af7d0d3ba946f;
0x259e4f6cfcc7a4b6d2246333479df052ee0477b9ee8faa7f47da45d1495d909;
0x235e716b22b67894aef5bcad49467c7c9e8fb689bfc03f058176c9b2f2cfa6de;
0x91246bee1d5f4063a2ab453e658c50c994dae678cfa15b73b14b0f48408e18d;
0x1594541dd396d5948b6b0172b31330333f099973d8a3a1a9d299bba6f45d1bde;
0x24cc95bb62ee85ac17d1e8c36c15cc50c8c66c7cb12e08f2a8b865653cca586b;
0x2dba892c4f9bc80cdfa40ee9aa9b1c37f0d4ea781c3fbe5ec7ebda39e2272dba;
0x2f3f255428b447ee2819975595dddeef9fa3cbd71b62f34aee8594771d350a27;
0x2f4b81914b52b75c46b6ebcb52605d073fb458f8b1cbf68fb9db225e4919b8b8;
0x1e35a658cb61031459363447cde6165233b2bb5107c6dbb4c2d50c459940f2a5;
0x21938bd170ef0b687752b8714b803b82a4358bf72b74265a4623d5594de772ef;
0xd54bc01b18dcf2553834c7a2330ac8163083186d738637650ae7bbb67e69c01;
0x166ef423ea8ce954adec38214c8412bcb52dfc2af3ad407cc94edf187e4d825a;
0x304b27a7490ba0e5c20d3b273abc31ab57d4c9c39f2928b81ace40b26ae3454;
0x1873ef347ff8231585a15dd61cb7140998b4a07d1ffe2045dd368594edc0f171;
0x67a470e0c4795e245e75c97cb69745c9d9bab71c1b8836aeff01be895f3634;
0x26dba58ade8cda188f49e52fce7167b8f219dbd924d7786b0f98fb799fefa2e;
0x14189f783f0179d6a700e43b6f3412af189203e47b5f6bffaccbb0faa6cf850d;
0x121bc25b16a45c18843035e84ea0f03e550b85c5d5d865c391608764d8f9da3e;
0x2e7705b125455c88939ebff9c94d94b32cd19988de9033421ad2497299e1c07e;
0x4de92a097cbcd0eda877c95e7d7c623205a82e9264d48093144c02affe35f46;
0x56267827dfdd2c8e13c31ffee09c665605e6d0f76ecfce63a1a3e0ff9ba083a;
0x214e0300f805ffc715666db69a32b5ded6c1a5e46ce21278ef56df4cf75d6d7c;
0xa3e3961aed3e8da84d9b2fe01de35febafd742ba83c0cfcd82c48142cf1c42a;
0x2ec69abd5acb3679c257c3814520f5a2d4e15a9e1eda480e25744cc31074d12c;
0x1c68a794990b7866dd921b417960123999f52f198f279489f00d5db71205a6ad;
0x11838fb23d5f3322bbecdb09dd7f8b581465c87a0f6db0216e23c9231aaa5584;
0x5088200a18b6f27d2d094a42fec2247f9b19a17a2f85f9827bf372ff495e118;
0x20a562ef82e57831ee85dfb0b18b716e63de36bce2d28fe067a1ce10e365a8c7;
0xda77e103a18b438ac860d49030a95756dc69c0118e067bba3732b3a29d8fa9a;
0x2e71181976c28449e32e07d66706ca4fd1b6cab8da61b18e712f5816bf7e94d4;
0x1321a6faa0815eb83709c5f4bccf3deb91d918ee15267afc6b029d923bff2b5e;
0x27c3ea888b30068677247481893caf50ad99ce732dd4549e2f651c3e266187fc;
0x47172c54759f37b2b4d64ac2fb6ae6c6428edb065d5b7f185394515114dea81;
0x19fa875a5e821b2fa6c2ffe8acfa446ddd4d6f253338376fa289b20e83de1915;
0x2db07878d810de30ca07c22cee53280d160186e6e27c4c3a0bf895fe2c3349e0;
0xa8c2b4b98315d9c006a0a54992474ac89e5935a1346976400de47d115ca4389;
0x26dba58ade8cda188f49e52fce7167b8f219dbd924d7786b0f98fb799fefa2e;
0xc098e14e0b8ea8d519e73df8da0ef38276518e4e103d8a6101993f21ade6828;
0x26a7ab22e3d4701a4d54216b73e906da3d66859bee38d02be8f120e000a5b4f6;
0x211a846a0b674674aa04b33558a7d8050af880d13e6762872d4560e3f7f55b73;
0x13595dd19c159220e93fc8bf8645c5b9af252edacd343c89bae98a3a37314c7d;
0xd839375c08776325c25610cd2e5ecf8a969154c0979ac7f14f1e58a0e7e0441;
0x136b3190bc5d892cbe1762bceceb68b500861a7f6b590efd62be25ad1c73b2b;
0x8765d20fa4770fa4979632a6e5b500975b173eca79b0300856e7130f6657930;
0x3b2d35ea0ad26b1535413a38f690954f224a6f78896baa496b8e8502bf34331;
0x290489818e00b9c0ea5d2fce994ca9256bcd9775e9ca5bfdac81972b46a4b82;
0x24b7c1b84ec626f59c7952c4098123e690f221504c68006ae1e5815eae2e233a;
0x2d256f845196bec5b35c52a663e4cf84dd433348157a3c877a9ad08d41da5d65;
0xd1150f01d5d7e30b0fb3a6362c631f4664f6c7f6291e6b889544ff778131376;
0x79717001ed6744cae07a2e491a2338a79cb8c95755392c98459c1284c70ebb5;
0x2cd2058b448f75bc368a7cdd20f0c67f74206366bd8882235da404d702d2be65;
0x1b7a766baff43fa8a52e26085427a1beeddd80b70edd992547818c62bd2342ef;
0xd10757ea13e688a4d99cbfe646f4268cb2498d2f2fc8bc352694aaf44f71855;
0x1fe27d15068f85f384f63af983d10d1ccb94147d8560d456171c3d741d427f22;
0x2ec657144f084e48f4eeb405543606e23fe2c1b581fbf942fc3da65d8a6228ea;
0xb71ff8252f9e1c1d3773854103c48fa3857563e8b2de93b78a54d1c929464dd;
0x182b99aac23bebb445feb24cf5f4920497d1c735985248f317c36ee35c343115;
0x26dba58ade8cda188f49e52fce7167b8f219dbd924d7786b0f98fb799fefa2e;
0x1332f4f2281120300496b962963720e68a075590aa803c5c1cd8d3d582bb75eb;
0x24c4647a7db1c869bda030a3f816ea27e8dc93909416ff20eaf39ba54576b452;
0xf5df55c2bfac795888d3aae8751afcbc3f2c5bc2b2dec28148a252de9729426;
0x23a4ad4858fd3c269b1df5858ee89dd659dee776a895dd5acffb17c632b66592;
0x526ed32d567e190ff5628e6b64d762447caee284b84fa15adc9384a24ac178e;
0x144d89dd1b606b27d51d742d02deda341a5f96e7ae5ee380263f7a23020cfd5f;
0x8086e639a5f96c89faaf0ec803513e9c68647bc9778fc779d144991bab029b4;
0x24a2d9babdafa3f42f87ab39e269c2edd458cc87e9e3c66dbe8b0cce81db9fb5;
0x1fd030e5d50ca388859b18fa5617527cf0064d91bec5c81dda5ad3b611a28fde;
0x21e5cd68cdb35c3027433f525cc2fd4f460132cbe83505823bbcb12b11ebad88;
0x9813c803ff84a3694eedaf4b1c2172615275dc18ca654c799a70440946ccf0;
0x202973f7fba5bd21ed58bfe7156d7b29010d41090f63f1bb290c1d5da1ad60;
0x12305eadf64dac24a7913a62d95aefd45f48355576c671e56fde9cc7c8344ffd;
0x25c783ad66d6a1fc6c84770bd637f6207097dffb0378d7e0395f8c0b86b505f9;
0x222deb606f13cf28c73a67216d88b16f5958d5d292ba10ef3bc2c10f5a0b613f;
0x1614d025472771fd870a9e9d422b3571c5494e7d679824d8fe1212177d5fa2ec;
0x1358bdd6b7a51b1f5b5d094dbd8ee086ccdcfb9c27faad0806e8ef718d0e2b1;
0x1c2007eba4d1629846bb69404acc84565de5d24620f75cfcd9f11feeeb3f3748;
0x22f49d7244077e41f409c0b353afd1696e3aa15ffdb4a0bdb883ffe7a1a87217;
0x1951523a4270c54403dfe3218fd3d4ccefa43114f1b19fb2c2821a4374718b9d].
Definition tabC_12 : list Z :=
[0x1512df0135b6692589f071140a60749cf775c642b300da2fb4ad5c6e23ad4e5f;
0x2b109ae037ed30361cf6544b2f4ce58f356589896d6a8849482ed3f9b66e1198;
0x2585bece06eff553d485478a19eb149e2111ae4e1ecb1d61fc10cfe1c077f34;
0x1ff896f4c0662f4b2ad926741b481d03b813a8cc343b9c2d2bc4819c70b2f3c;
0x1b0caf02f434fa3d4cd4fbb13d3116ac8b7386a5afd6c67076ecbc3704aa45dc;
0xfcb7c9f13c85517a7805894ac82b57c06f2f153a6f51f60f8e508684dfe5bcd;
0x2dc2bdf7f43812e39cef210e42e92b4968ad8bf554541182354504d32cbf9954;
0x5add9df20c1898da46bbf74594438beb07c9a65635c90f45c0a08febad13664;
0x21cada6641664daa997fd55ace8b88191cdc4194fbdbb6ca5895447c8a58859f;
0x19623504589a60f058b04489b153324d16ed66667a04df572b103590b848bf04;
0x1776442d850a436a005e02c6475b72fd2d5f84452890c444162848ee1d57dec2;
0x6c1691fd6d2ee98396610f3c868d70874f24eff853938d87face89234a09a98;
0x17f0d5cf360c354a57e7fb986dadb3aaeba094920e772cdd9abc75850400aff2;
0x3062c0db9c925c48cc2f80b698d9602642a84cfa30e1bd36408e2cf82ef3358a;
0x239ec7e4b4723c8ed35b987db03d62c2a07c447bdd6ef183b0647821f6874c2f;
0x2bd39ed7f4f6a72d02693e967740b5fa0314d9a1f8d9f8911c28dad3f15ffa6d;
0x20350e75bbd562e339269cf7fd221fb7c6ed2cacfcc9036568bb4ba5cb17bdc0;
0xe97bb9d9784920fb39abf35a433437ed6fb631525285dc3c126e24ef54e4b8f;
0xb12ccc871d3272e80a216461403559048e4a5b3af445eeebd8224a7edac685d;
0x1dfa3b05c202cd982e3d73cb81709d5d48b3cc105fa78ec8f0f216436826be2f;
0x8d9fbb0715c9bf131d6de70b288d94afc02d46960459fea30e0733ed3be6b;
0x292b7514248f1ae662e5437705ce49153e5be27c212e86107df1725ff465332e;
0x1d58b0684f64db621ab3ad0dc98263fd7285d6bcd86e07a145bdc6aa75c901ef;
0x4e7bbd68e9989a91190082f0b29b0b0adc2be282761c44d1ba687757514acc4;
0xd93a5374677c75bdc1b4071b1948e53a1b67308e70ead178725b08fd9ed8d22;
0x11eca18889e9f49b1f97d5998d235f97c163d1706b4d3d4c380d9ae1f3e79a28;
0x266b924e67a868a585b398c2e3f28e3218783237862bab3e925e6e7a9d659a60;
0xd2e26ad58eacea3b6a14c1c7803caca7ab3c5881bc6b5b274531c2d461867fc;
0xbccba4532b7eea6c3e40135655171fbd92713ef6e8218169591e5013a84bddf;
0x17a12ea9750405b3d59030af035c18e4f362e183da6b84e985808f320211d061;
0x76510bb9eb19070dca388a1d3a95aecc5de4a2c69c3181665f982b60e0183c2;
0x1b7034b3beb0680b858bc8f19528e8c122d6f68059b15c70599910c993b6bc00;
0xeacf7ac9862ff85658521517138795da59f4273f1d969f815baab2382b28bd9;
0x1344043beef1afc165d094c8c5da43e793bba98b579f2417a19fbfe538e2cb80;
0x566dca10a0b92ce177b6f7282493e6b31391e6edd3ff4563277e504c441b1fa;
0xc9c6b5c46b9877c2eeacd033f184fef497d2ed1a1ef276ba4548d05f3c78387;
0x1a5f92921d4f34a7445fef0618f1b1a21d68714b80b6850dfb9c834f988a96ca;
0x14d14e621cbe627022809f07ee078cb2b3fe4fa024715e3f7192a510f1d8e106;
0x1b6f67ca2ff07a2de58f7a0ac8607c92fe8c4133355938cc9812c32b12b8fc75;
0x4c3bb7f555a1a8747edde5fd33feec3ab52f53dbbe6ef23f7c26e62de26fa12;
0x1aca03a3d87c90e7a3ffbb8233149beb0b6809492d33ce3e507951aa38a66331;
0x2294ab2f143e49a23d279c6fe914d67ee878b3dc54f9d7ff107bbe78ac2ffaf1;
0x2fb43038c0b4433ac0c9809f4e7d7e688f5c1d3c08f66ac64397fae941e6aa43;
0x274479867a616c602e87c7521fffbaa85fbeb330128a3bc8c8b8360fb5a3296b;
0x18a3410d063b4e72016500228d8889dc623201b4c055dab660b65347fb4ef820;
0x2d6fe8d3d694ba5dadb904fd6904a251aa2d351f3cc11c6d1aa94ffeee452619;
0x1ec5182518d6d3490ab0b3ff899ef89b61119743188eddfebb254dcd2a787e20;
0x263a061f3ec9228bdf93eb93f2695fea629925d6dce82f18e6dba79b3be9ed0a;
0x2fe0300a8196b9a46eb1f7d529b4d4c09dbc58765a42a9f3b61ef7c107bcd226;
0x862f4486dc03350ea63843db9da09a5a3c3012c0854a7acb75ee18363dc0414;
0x9ecd01d7dd15316f2d3df72a9e731274dae116592adae8a81eece51a4453353;
0xfc127ceee377fedc0d2da69617739fe790bae028858dbe5db8a93e3254eb8f8;
0x15d224160265df8e5e4c1b61e7f9560b3dfc57649f3038f440b64e928bd32970;
0x110f785f7d04151a37b44935a1bbf4782afc72ad28e042c42fe63e6302550f50;
0x17fffee137039b42943e6f8d044ae87ce06d5fb1c3e2e51e3009a45fa1873f70;
0xacb1888950067efa97acad9291f63c05245cde116d7e0bedfa1dd90dac185a1;
0x22a4abaa581375452fc3b531bd4ed54fef9bbfee016e665e42493f09c393fed1;
0x25adecd63680d23f87be6226ec05a2bca8524963ddffaf863379d4c81fc793c4;
0x220ce90ed6442f459eca1fe1f2027e6377e7189e0f6ef43e1cd364e9ca1ceb9e;
0x2372d4e4009fed5ef65a3641db3c8d6ecb33040fc25989039394481a94b97195;
0x11926b0acd944afe2030cf0e8994d90daa535f465967b64ab0b6cf69e316a51f;
0x1229359753fb4a0dc741da84bc9758aa0a7662b314a31fe003474faad18e3800;
0x2b3a66d166c51a62bf6af2e54897c51e45fd08bda74d5857adfe8fe3e4bc3977;
0x1e7f4fa362bd86d6927781af2a4cac46a77a19b28c4ee55b2ba0881d2f7b8e2d;
0x91f7d66fc8ea2e7ea95ec1876a93d33688f9f9d47d3c8b07df92d1554e38cba;
0x2c17ae7d9af800bd393b5fa0f8b16293daf49e5afcada50847795b87e12b6bbe;
0x266e76891b0271bcad1644b852ef8de9d3c3e7a53e22f6cf096ef44fb35bbbc7;
0x24da30c34e49b417e6ce696fef7eb94e67b4d74db6d2d5cdaa4777c2602166c;
0x4c3d31703ffeea22ef8509edd468586bad669b74c25fc9ada49a185937c2c94;
0x2265314c66e182feca755f9a0cf7c5c7f7db6b501e010c283159f5fcc5bded33;
0x1aa1766643eb30f96329fa3eccb67964d510054db9599f5f2536d7c37f5c1149;
0x107e8da68896a4d3ab40eedf2fa75e025f787dd92799357218e823fabebc8947;
0x191aff44b7bf99027bb1d6954ca0901c950f7ba8f1e1549475f0f28ac6e72d60;
0x2d6a00ed5b8ab0055a4277b39d178918744ec5b4e5a392205dd4eae9b4f1f507;
0x8bddd13ce3e6d0add2babc5f0da3ed9c24e10aafb289d03e968163c44f4e669;
0x2f0575cf9b7deadb634320f90d84678d771833f9ac9d1b67c318973fcab18f13;
0x1366a05d3047d5b3452fcc62417343245ea727795fb0d05efb80a75e1e4d7cb0;
0x234dadc295579c62b1080fd64f340594eaf258b94225fcd6beb10e5efb4d6fe3;
0x1f78b1c152a40027a2c7b0ac19bff6ede3202ea1b95e5d0af43125a33cea7821;
0x1532e8db5fd0a6c2c785a0bca111741903fd089d9b73715bf0dd70c2e14df9b2;
0x9012747fffe05e8b4482f278d35a28c6f58e6d502d69a5f351225225aa0279;
0x105b192f778c42354f2a979d91b02fd33c52c59d542a128fc08e5d11c96fbd65;
0x24bcbd8a492f542d2e6faee6c503c9c6f7a67cfc7d8e756759e0bae679920b81;
0x13e55913295f26697ea8ce1aaffb07373dfbe24b8f41e789e05d8b96c2dc9e2b;
0xac524f2908d8e1292a18ee6d5ed583c29626eebd03a593db01a61599c286139;
0xdc402c7aebe3f023ca4b75dd5f69acf8af6607edad14bd806181077e41168a8;
0x6d687b70f200804cb3b39546609c1ac2309c4b59fc96c7673ebdf2c900d9400;
0x1e0c2662cdaa91336e10c7eb3c6eab12330a99da8a095e928f73a8b45accc8b3;
0x14be0cbdb25a5f84d36b415f71ff807f9df89dbe6a9850213a288abde6db6264;
0x2fc8c8938e2554d9d02e135eb0d2bd251390902e82d6ecb4ac37b8ab6d12233b;
0x2059f3ad1d4ffa2787fe0577dfbf12701689bb3359647219d84a000e95c62c95;
0x1e90ed09600b1ad7e5f927ba5e40d6fb87bb537c695d5ab6fef166da18fe7f4;
0x64fb597e3bb0a3fdb8ed25eefa943f6ca21150b4e029836fd31d63cb81223ce;
0x710644314ff7d6091eab77327421b8b18fbd64ab6f6756b61ba96d79854d6f2;
0x17491b622e2f47caf07a2abf0b623896e973647d02be011f099b84af45dfd1dd;
0x2c7aa4382c1cc1897988dd51243facdbb7d37e8cab2e27a26dd7fb0795d77712;
0x14695d28c7fa12ea6044e898a6d8a6592a5f111a293624a45dc24944f77bb711;
0x1602e77d6ee3a46b60aca6ba65c81457c4d36c8ee14b3559966cbea0ae32cef9;
0x1ab02e5bfaf9d4ceac75f53983bae994d12d0c44a280d7e2df3283ee1f429ad5;
0xd2b3a148b13d8a541e3cb82d624cb30209b4f58fef5121bb74e8eecacabd939;
0x2e682ed8f03c5e95d84007e89a92043c968111cffe9d18665258df0d3a6a9b8e;
0x1428a6b9c8cccc597a9eada39c3cfff0154fd9f5ce4878d9963b89c7a878cef5;
0x125dae4075bd6f83314ff7172c70f192173a2d4eaf09d887b942d45b7cf7ada5;
0x273aafea62ef6ad185bbfbe54a753e59f639ab2dff85b1f4c0a28e2136d4bec6;
0x179314705df4e0b530f1d37f9d02c3a88b66e2272edca161365615999b1cf404;
0xdc05aa8617d57fdbe30d76d7407add6a2e95fb73e9f942e4c242e2ed1016318;
0x18469f35a1ad56b258b1e60243c962ee6dc99faf274f02feb42a8a51182652c1;
0x2f79b79663182739a2fe0c607077163df7c0e9193143234337b9007cf472ff7a;
0x1bb4d4ae946d5ec7cfb22cea828d263b7e574ea777aa891cb0ba07cb412c2413;
0x27270b27dc8fb9ceb1c5aa5a49f97a795c1dc652f9012ea2110ac6877df6c20c;
0x14da35468739dc3ff0110c91ef540be904c73e5d71e5b0b5eda5ec6dcb2f6eaf;
0x2e90d9ee3e7c2164851b64afbcde004b6c0b82ae7ccdf6f78849fb981a35a2ee;
0x2b15612eb94247469bd9475ae4bde9780511cacabd566c1e74ba1761d60b6158;
0x121c521576ba4ae4a05ed2565651b2893d5f704e5c6f0a642c60e50df22c8ef9;
0x23863fd0801582ee9b9a4c83f3b6eaef83c59068c0b1d4b9e93ec5ec1a0c2938;
0x13a597a19307e90fb04778f82f2e6780a9e2c4e03cb0515e2cb960c51838693d;
0xfe4f11040f7ec803ba86cc6dcc6ba00ed7569a00cb4aaf5685d014beeca35a8;
0xc30eddac033e3f113894327db9763aafd747b32d1344b65ff7108177125de2f;
0x16449ebb71737c6513326b4636914fdc9f7864c7f10025a09734880d423cd1c2;
0x267f1aa1162b7284cec8df83403241884bf4a29547e2d0c470f6abc19fbc4e75;
0xffa65c12b20f5ac05ab035a3b9cf0983bcb4cd0075d9a9e5be77ff9b4f17bfc;
0xfe550d9e4e3eadc68883a977b6869a5887db153f6bdba49233f60bef77bf44a;
0x255002f14c45aecf8cbdccc25c25cf16c9c771c653dd213a2ce22e190d7df111;
0x160c6500540f89b145de5aa9fe944604eaacfcbf1c17550ec91da6078082ce1a;
0x1383faf37b866d99769fc32b68e45a753f803ea36e351bec34222729356c6393;
0x240b1af70af648da4ae6886dcad5c673e5b36aecfb7f2e58bd12564c5a77697c;
0xdf9f10587e99fc6280b6a84f0ab1dcb4eaadc8958518ea2bbd5e648cca49e1a;
0x26e4261f23f0856aef429a307bafdf1b57335d7a0f38ab992a77a5cca9b50ad0;
0x145b8482c15986fbc1a4085dab239bf2d5b524632baed39273551273ce1765a5;
0x25101aa4715ababd467f91767d0cd0e8037741883381e392c8521b08c6cf62dd;
0x2896258f1d13f8b556b92d0b5fe0684f67a8665bd97747eb0364ed9b41cb2b9d;
0xbfc25af60e375f1a7e09ec5c0411ee14b52346ede9837df5703420189fd877f;
0x29a042bd25d6f3aa5df99619a794de17432fbd1c75fa33a1010c1af30cbcd828;
0x1cd0de72b658cfa8975dce977ccc6b6cd06e4f8f49e620e72d7ea84ff2373c01;
0x2197c4469eecca78bd4629b5d53bde29a8d3222bbfffc5948052e039f18e3461;
0x59c6f40b2b1bb82739356c24e78eeb900d1d1057fa9d48289157af603d05dd0;
0x18ce307b89e3700870c70a6e9460f1aed5169f729d2e75f7e6c7e6d0298fc334;
0x27c70ab7d57ecf0b8348df89c42e3817450b3f018519673f9f508e5e1ddcae89;
0x1aad5aabf3751e7d413b8138c2769035e8591227395d0d1ce29d1c5b3b42a54f;
0x165634b54770542a49ff684eca304c99d9d06315412252bb82a2ce5efe24fde9;
0xbe7826f267e77ace74a4eb0e10e5268f07f52cefc1d7b74e7a5b82a08c85266;
0x263fdbeaa2840c05de52dd10fb42817361a189d2abd54ce145fec18cb11b7ed4;
0x2c1ddd2e896c9dab5533d8400df17eb353a0191b9b97282df18774113657b473;
0x894b90c18b05d7ea347b8dbe1471fe0020b9d0b1eb45a07b0f70d4b3bd90228;
0x3056b80856c9e6ca2d92a5bb3ba46c03de22785d58565aba508d2d898068d741;
0x1b3395901b0049172ec09a314e4a4183563727d32a87767a094d70535336be93;
0x143e65a2a879b7a35660da4fe2141be33c17ae0e6f1324fb3cd9a1d061a15757;
0x2f3f3a50c82372cac6815322698f09826210a571a9cd64c68dfec4711a5fe60b;
0xbcc338d5a9ad15519aa00e89fe52cc24491416e1ab69635a67d3246e58b12ac;
0x2a462fa9c4a682e118cced65a4aec9212496ddfb5de743729cb281ec3a76a8fc;
0x7391449ce7efe315f816f0c1c3ad33b520007106ef8d11c2a2463de270ab282;
0x8cc2bc080753c7730c57f179e38cbf95b95db1fdcabfae0a8d239342fc68c8b;
0x1ce160503379a007e38ab3cce61d6fa0d78ff6b19526e1546023cb6dde3551a5;
0x2fe5f53e6a16d7430ec9a765d640bd5de6587509be8bd773be71073e4e652975;
0x2b9d6359e3de7b25159b8d2fd42c96244ad92bcb54f26ad8a6a10b2713de4d73;
0x2f730a0fbf24810d49065521296809b50c5e96a6bdc4e3fe44d9d4517a259728].
Definition tabM_12 : list (list Z) :=
[[0x2cb13179d6e8a4ad1b9fec37376253cf64386ad905e240575fca86539b272dc6;
0x1f930557a284998225f5f4e4dfbcf5ac211f1b12d91b0562ed3d63285d7a714a;
0x18e8222f6907da5745eeb9cd4a9e62f28b8b710aa85fe729f9ea73a3ef0099d;
0x180e924d757d0be4066feb146ed56212e38acf9df4957432653f370f905b8b07;
0x2f7d0715d1391190e7b14a1242b6799eac3142e21f08ca02c21755eae77a55bc;
0x2283ed8d5e6f9470b3f4f49a771061e4a4fc7dac683defcc0348a8862c6ce71;
0x21f60efb132b62909990b9f994f381a9c02abc3ccb54c5c8e8c9c5664c6913d6;
0x1cde82acee60b84424e9bcee49a5464ee05d1cf0b70469208a675635ac715495;
0x118a24510a2153f818f0a996c87de913587805f16cdb1939d9406941f958e8e1;
0x164567b0de16b7a5550fca229bac7cb0779524325e4ca5e78a86078881660264;
0x188ff303194112a7034527cc9dd0b4deb0960c9c106ce115178dd7087e4e8c02;
0x83d832adf9bb4a25f686abeda9f16ebf53263dcf9ef4311781d09920d094ead];
[0xfd547840f3a30a533a994d1fdb3f60ae5073f4484f34be951ee16a276fdeb9a;
0x4c4061820cda9bf472df3f64d6afa004f1e8623d0a4f6142cca1f19a4c275fb;
0x107757eb0c0799f781308d83d2e057ef8106f6b656b45e7636181e113a2cdf32;
0x2acd39e3892ac429ed812863efa05eda746b55bb974694a4e77b9a19abb55001;
0x29788bb6cd947ea9efaeefd0eeb7fd563fcc2e40bd623ea2b2442b55d98dc5a6;
0x6ab8672c936070a10757adb45031a5e2922f0fb8b5fab3a4f5e3872fb582ed3;
0x1db98a562fcd1a5e4496e61264aad5ea3b455f46eabd8957ba671e9c31e5092b;
0x1c4dde07d0f94d1aaa832ac2f5712d438b4e1804b5209ce55942d7afb24c6401;
0x2cfc82712ed9d71ff4fdf63ee4ad116fac195794f8d910286c152efd9f959bee;
0x18b49b773f5799888e9abe3f6883d7063333835b6cdd333580b2b4bf48f3b27e;
0xb300de5b99c27d332091f8fb0d97cf04a86a51d4d2037788e0d4f38e8f4eab2;
0x541af6b96524662084d1208d71b6b2a8d66d91179745b213679c2a2bbc94968];
[0x5019671bda026670c7ffa9081795105963f56ce327fcf78451fba2bdb3ac1c6;
0xdbc22c3e54c924a882c22000951239cc263755dfcb38b27ef4f880e202cb5fa;
0x966a21b9615af2b7563dfe41b8b9fc06039512dc9c8e1196891eb77f856b608;
0x17b18621dbd61df085da4cf8a03395e3700269c7df4d98ce4851f90abcbb3631;
0x12cc274647fc572bb79035bfc3332a4e566a28011f69dd0874f01c56bc44c3e2;
0x2c7d538b9e6d2b2e06e72f8aaab26dbddead1fef6a740a11e9953f8e8e9ee057;
0x2f30800c0ee461010569d36b60685a38b02912a020bc4708598854f65822f15c;
0x116c45e4d88ceae4565c0e94da844eaf2775d5f5b435d94d2d3d38b583fa7841;
0x2ffccbc40031ebafecfc3a97284bd0f6dc4d45eceb8b8998f1a667bee369ed62;
0x2007424b129ade2194c73e6e2c9d79360d1360c4fbb8c5f31330f938558b3ace;
0x2c53d6676d4d4c87d9eaf5d4da08d1e98d103a3388d59a7c0c3de51e2623aa3a;
0x2cf2c992c02a36334ff5dc851646ee7da04b44eb544ee3c0fadb8dc5eef2a585];
[0x2952c18c15558f29b2ae77fc39e51a395f173a9097db404db765ab02906b27dc;
0x2fbb1c59e9e8999d91c40f4d44233122ab35ffc975edfb43c53ed07dbf0d9c76;
0x82046081498eee63c287c6fa3efcdefeba1b5272a77bba9cfddb56afa53c82d;
0x2a429c2d06dcf34d34730c3af8bc19b04abd652468de5a85b5d5cbfd9c23e6e;
0x2ef584c3aaeedbbe2b4b103a61e94ed40a97294156ad7ddf0de43b845249f534;
0x28e4620d210536bcaa42ee46b1cdcb21bf215933bae4eec639efbd51f4bb6557;
0x1e32b1e2e6b59273a113d609663af6b30c95b36884fe5faf371de3d564213c3b;
0x18820364804d22119347b728135b409956f7933defa1059d634b977d9d3abcde;
0x9b6c00a37df2770cec0f1bf62a6aac3bd380c6ce9f4f96e0f0879237ffa510b;
0x445e26e26f91707da2df5c188baf80ea2f48c703614980fa798971cd8ec60f5;
0x19f5101715162976766e2b57a58674bc58e1ba2be18a59b07a07e4a93e038075;
0x6c5df8fd61eca2fb4923f0a46dd4e416a3a3b48c10ded13133ffeab6fd153e3];
[0x2353a60af6bd61e5eac2c9a4263d451fad07380654d4792378daf752e5cc33fa;
0xb8f40d2c4d28c472085203a0e460af73bbecec3b2b3a63f27028f2ca8a71251;
0x2c7ecbf14b2d6049a6439d0f29f10e26ec975acc3e3eddb77c831a509af59196;
0x197dfb64189c09aaef94a1f542d8c34aea27fffba704202d5286d62bd0eed372;
0x5f9a6a8d64cca12725dd15110f74aecf99dd30e57a7d99829cd8757b75b772f;
0xfe0def70bfba40679aef8d5a239b3a1b5a52fe8fd7edb754aee2b182d64b66;
0x1b1523463a45a2982889048681a422c02ea373f8b8c1bf16c74a375d5060c662;
0xc849d07b1d9e6ecbac517fc19237ff73424a0678f94699b23f76952afa4514c;
0x2c4036616c156006337771c1e355fc0f2f238e64cbd69d068aabb4b58116886f;
0x176804ec1cf85d35298351245d32236546838d9b98cf4242d601c7e8e501b49b;
0x2f5855a876a37f7bbbd6104accfcae507e9ddcd2a7219b487a76b17c525b50ca;
0x1a233c7cebfb0c6eb72dfd07aa2b537ccf291e84093aae36cc68002ffb83639b];
[0xed6a3bd48174e370b4f264b37488b03a5e3f4c0f61cf32d3157ad3e3b86f6bd;
0x28c01a9f01601bb46417ed466be6008595052f782e46857d81229e64e6bda02;
0x144022e7e077ff22a2ce3dfe9923107d5aef046d0a1f2cb5f36191ab04eae4ed;
0xfd3bdb79cad913432b7d3828e072dadc26cf4903d56b8976200723846c6577e;
0x2979d1aeafdf97988560d4ebbacfa6e2b7f3d026946abbb9d5397645e6e81825;
0x22ae023520979741e5c58fb04fd25d12dc8f5fcb6ad15223a5da7e0f91c7b4f5;
0x5246ee7854b2e20e8612da021b30798e5f0d02a5bfd5e79d3f9ac6c79fa609b;
0x2b60a4d43d12cf31076e0690e931716c47a86e7728c34b2d3cb0cbcf95bbb74f;
0x41b909a658d136993b3f509a9e9d50138baca48f6b66399ac5c649e68dd3aa4;
0x25b6e65e90ffbf910d19fe3ae23d037f8f64da9fe3df483fc4f4977ca36a7b1c;
0x2c0de448a88dfeaacc9bcf2850b6ff4f701e1a538d69098bc94087cc35930966;
0x5f6d62f54518f039e79aa726bf15a5983583eca4062405400acca58ca9d2235];
[0x21103a7aa20c8d15501be8c23504c6a912c6100c5d88085cc2e42a52302f4483;
0x23ce8e402939cccf36176a5bd83183a0d54a24ee6cabe4fc7f814dfbf26f85ea;
0x170403d414148f4681b8213550951e238edc009f46b00693ce3d9c5800fadd0a;
0x29b9ffe05db2c52ddd1bf0e5c532eefe70497c7df4b97db2f0624836576a6b29;
0x153891052fca1290fbf83240d334fd4ce05de78adfaa2c9686488e0c47ce1fc0;
0x105c0b246660c4bd8a6f1b36fc3cff86a2c432c0dc9321cb50abb98a10cd1bae;
0x6cdf8055439ac8424c435e7e9bea3f0ae93eab171ac383ed2cedb460fcb04c4;
0x3161d7b94e1b0411fc01dcfbd748a6df3156ff04536b3dd3101f7b2ebc3811b;
0x25c075b41ea2d827a4955b6469db9d41760faf885f2c6e9c09407ebb1c4dc274;
0x2fa2af7970e131f7efe3a7c788890ab860f76751e55b4ff634dd46cc4de660d8;
0xce587066eae0c345c3368c53dff2170cdb081bee52b243a1e6de6d4f82451d7;
0x2b09de93c6e3148cf7ff5731c8e144debb66ca896ecbe4089d2d22cbdb09777e];
[0x2fb232573e85d68c536d100c3a6ea9172884451e677b0d1cd0fb4dc4c27536b7;
0xdb82abbcd3a1b56f7fc8d116cb54c54fe26243702bd3d57e71f7ce0d470a40f;
0x2997d92a5e9bc66c84f635e8cbf080eb720ecd4ca3e42c3ab8d088611880861a;
0xa2a006e3b086bf502c5b1540eaaec14b9c15bf88471cb6d479fb4563f016497;
0x1b8c7eb04d351aff4e76af7f9fa1114fe45aaedafdeb42c1c23503b122639c7b;
0x2a5aba3b45e79eb2606b2a5b47eb907584aecfbfc0b4cd50cda1ce4854338597;
0x2f9a5cdb79645e3454c617d77a774feaf24ef603454c02076fc4c9d7548cc455;
0x6438e8b0220464039a7b8022f06beaee502c5de269db82f91d88fe1b72834fa;
0x115a91867233cc75d1c906a42930e93cb9c16afced390cc14435e5cfefb4e96e;
0xc8fd4ece5c205190cf6c842d1683444079bf49835d5c8b8dfbb11af956ccaf3;
0x2cea98cc64abd926df963da57f2ef4c434141cb53ac6311b2566edb957982713;
0x239ecd92517825174f796345db296562223760fb1b81c091b74a6a4a82968a4];
[0x302a085be040ff9a709ad0c73238b0d1e11e1d17409abaa34fc45de29b541535;
0x2e703ea9af99161acf9949da7afb18d462d85b671656d61c2cdee3a72390213f;
0x21427b3a9a2cdf1e2e6c628906b21e24271d72c18b0261be68cca44865dece11;
0x237a9e020908cd0edbd9eae8772350e0e731e3228b892fc5f64fdfa9b9daa670;
0x2d8125dbef602bd970d11fad7cfe06c3c64f5687b09b960ab92b14f69efbea57;
0x23a3b23d5edf5cb66160fd2523b3a383142291c0e0ee666682e946b1d57937d6;
0x1b1625d757786a19a93b37adf7f22ca8a502aa4462ca78f7da2d7c22b37d7f9;
0x14898babc8810cbc626688531511a8473ed89a22569d47ba586c284e45bd0ae0;
0x2f8fb37178b525758bf6aa527f25773e1ebcf8e1425379500c8245c741ba3fc4;
0xe992f44463e2dfd267e6a4a1c3303ea7a1186252efd6c9fae9e5f0c1f6d8266;
0x2c7ae475d90c475f73c0d29be8889d0c4b8536fee6c0389984bf9e4dbb1aae6d;
0x2945cb85e34532e3a22fc576703797893ce290d0156430a8dce61c9df89a8bd5];
[0x683e640e6154ef73c3cd6b1d0f0fd86ebf7e292e63fa84cf0a883c2f1faa8ba;
0x16512c150c1d2fb7235efd2d4f0fad5fdd78f8d0cde53a66bc90206c82c4b597;
0x24bba58086a78541a8ebfd535c107c36946d78ba6cb26d227e615131f71d337d;
0x6d349d6182ec30d68c9be010587c707f7e1e175c0d324e6added6337a72c2b;
0x10924807f6fdc4e9e586792e3ace3001f16bc02e84ada5df51d7bd37243ee1ee;
0x26635f4df7172107dad6b7c3068d2d438bfbf486471039f9e65a9c8462a2c9c2;
0x28bf5488a525f5514400dce722430287fe8e4c810154056eb0f4d6fe61091cf5;
0x90dfcc0327a541672cfc26c7e1370583c5f9214177093010fd3fbf279aafd4;
0x29a14dc4bac0a4c52bf30aaf6b9b8e05453d0d797246b64732d50f176a7ca257;
0x2609ff97ef574fd68d16a3de0872c3b59a5b928258dd1469826a191dcbf5bd0;
0x23238fda1417302dd03ce54607749610292945bddbd587241714fd3964af5f10;
0xd3be6a5b12bcf1bc705c20c30f320b8881c6c2ec00e857685c0599262a3cf0];
[0x1f09f3fb07f7f6476fac98946b7375095e014b28f23a07ac9fc7077144ac3979;
0x298aa5d5a44565b75ef68df902d791d01d98a75e822ef553b1761c58d6fdf32;
0x1fd5a6eba52e9ea1db389a1fc8dd3d0283d737c18eb06e090b6fd2dc88e0a14;
0xaabba39d220f30604d0c44dd47c3c70de3b79f5baa70a3a7a0ca02ae1b080c5;
0x230918919b6826faa7124c5bd15d10c036d565e100b696a3be7afaedb2abba6b;
0x2bb28ef42f5fadab6a6ffd5655b36580deb063ae3081d587bb1598878590f1cc;
0x21891bee31fb7bd89f0e4422b3c8f5b393299af0d9825db9be73e7b20097923c;
0x38e0c2e29c79ccf46b5ea1bc589276aec95b74e8bb82e4385c0585637c885f8;
0x2c89dc7562b91d8f2f7daa209b7560520b6bc62ec631db41cc5edac1fb142be4;
0x15dc57879cb41d6015da9881f948b40d20f0e03fad87746d8575af009c96033d;
0x1c674ff2ead27ce002f4befc7ad5f0f5123e59793c0fe21075e819ce56ce1e83;
0x11e7bc4a39d2730196b6c334f99750de5bb5e4fbca5d6a19eb7fe14abe845dbd];
[0x598c38d2e2c78dfe4907c74e82325cb191d52608955b583e5826ebebd1857b5;
0x203fd2078ab2a8f88b7606543145ee34daeab2aefca31bc04a476065697cabf8;
0x1276442d9383c52d50fc9b5ac34442a4ec8e9cd7aee6d6ceacc1a6f521aae4a4;
0x16ee980a2c67de24fa1a34082f11c71b7c45966a6e8bc6aa1a1dbc7ef6a9bab2;
0x1db922b8c249ff7bf96121eae9d9555ef7770f3dd7b056191ae9ab38a5ccf6ed;
0x96dd43a832ab68e35e57c98d7b01f2a2e5936807704593ac72c74001383f7e2;
0x2282e86ade85855d4ea0657c4add20625c6daa90bc93943b59a92dbb77b63681;
0x28331d0d31ca8675ad4767c490261bbfe5b84adb4ca2c5599a87f331908130f4;
0x14972bfc85de037b07e55332e6bc5b4f08f39ed4eb8a9721dffc4a586dd9a1df;
0x6d039b64e82d7975dd21a37b5ee79308f20e82e23489382ec2d176190587896;
0x2627be68d9cd0ccda3828d51621ba409f9acf09f1a9cc503a29ec306f8606ae7;
0xc7c9db952865fb9470f8aa1402536cb3b82276d9e288082ac7f83b10bcb6d17]].
Definition tabP_12 : list (list Z) :=
[[0x2cb13179d6e8a4ad1b9fec37376253cf64386ad905e240575fca86539b272dc6;
0xc894a150b70154ed3c77c170df947769ac6fd8f4170d341613e7adaefc605c1;
0xf784c25d3497fb7f058d93af7ae1a182bea00ebc2806c19377ea19a77db346a;
0x1a4f48dbda22089500b402545867e341b6b6f14bcedd66ab59a1f1482e4f2d8c;
0xf61b0bc7dc5911ba7d353e201a1f480cff116ab06d9e735e01889b688078347;
0x15f5f8ed095948c58f2cb630b9b892b1289429c3c6169f26d4501cb4b24e7d72;
0x2644c801ffbcdb796abf1036e3a240514c45708f0bb0616dc9f5475ab7ddf80c;
0x15580d2d80baf18dd310bbce40e0447c78518aeabd02fc3d66bd0f573c1b7b4b;
0x2103a7704b61ecef423c74fc864f57077ae9e68fedf93c4c24b3191c05552e8e;
0x254310df353b2d1c72076f34db3ad823aa35b7fcea7124714bd5243d90c788af;
0x23c2a54a64588d3672e1e11e0449fca37349013eb30472982df8935a727808d7;
0xe25546d7af425b5954185a669c63c9fa25d3d269e036e2770451d2cbaeb887c];
[0xfd547840f3a30a533a994d1fdb3f60ae5073f4484f34be951ee16a276fdeb9a;
0x39f5e3ba736458d66a7276a3f7fc143f4d2e10cce779a0288fa042477fa8111;
0x2834c6a4b3a7068b2959204bd9df5f9eb21582db300ac6cc9bc06188814e185;
0x365a1836d0c970acea6a65b34b4018ffbfd2334bfc29ea050300fbca592da7b;
0x7b2fe7cb2612a4b8ce45aadb192514490ad985b31686b75cb895938a99c35e9;
0x4c72c3e92bcf3c9450146921952051dd7b932e045c56d2b8d1225c557a02fa4;
0x18d459655484dea4af5de8922eb66fae69bf0b742ae678e6ac5ef937fd23f145;
0x28d575bf09788e6c9f404c4f2a4794c51393c9fd263cebc2aab4f575a88c1ddf;
0x15a78c5f1d6e0176ed4e931e25aa42576e7d172bc263bb5b22fbe2a1dd096b76;
0x253af96dc191b1ddcc7da399cf751f0531e2db5cfbacce3efccf23e9aee0635d;
0xbd6477a4e98ed1b6a052a7fe6a3d111fc2478b3817bd7c2dad8b1a813dd9445;
0x1c371f42917639fd59992e6dedb5a144b079a25f242578b21baa3fd6fe98b51a];
[0x5019671bda026670c7ffa9081795105963f56ce327fcf78451fba2bdb3ac1c6;
0x1c9807d9b8968d8f620640d590f151e0914406af2136f902521b8f4da19cdf64;
0x10cbecac3303667992c537c54deaec58a34528a2fe041591a98e64a8d6da5588;
0x1bc32304ad49812a051886f8904e1af0a76149223fe72e96523937f339a5d9a;
0x15dc91d6fb987bbdca99c78dd90a57b386e9b9ff7e4a4faf70d5ae18f431edce;
0x22b26a76db2dafefccea7be76f0e139a0c568e92a447ad288257ef310794df28;
0x1c76650a0527fe929be54a7e8a47efc654b515547f9cdcd58c146a0bd11872f6;
0x23d3b9deecba2482b107832457fbbe5ff670a61069cdc34a6470d2293471231d;
0x2b9a6b170ff9ce22246aa0b5091a7f33ac5a1b39904b61f0a7360c435feaa593;
0x316258271c5c2be65d5e41b0bf6f9917c8c60944d1be7f60891236cde4c2676;
0x1c67cb4dc98d5f02eb96d20f1134177396cea0f4fe4c04f856b0e2dad8e1b56;
0x25a8f4490a5df4e1eb13e2e146e0deb4de3d633d11bc4a540c5a6a21934b94c9];
[0x2952c18c15558f29b2ae77fc39e51a395f173a9097db404db765ab02906b27dc;
0x1e7fcf514768abb1800ff4f4884ff5bb6af1ee7581b96e2984c2b2c4033379cd;
0x21828d603ee0c7651c0a3bf6b18217e1fe33f283bfeaa1fa9ef9eea3b2c32fba;
0xde712fca9d7df5e0f67d3eb731a53dfc7d1a7cbdcc34411f6138d6de60fa369;
0xc58a3374648de30ed82a9ee0f4294d493710fe813edfa46b09aaf44b3ce6d86;
0x14be55982212ae54cb8f0ce42a162a7ecb440a4c0c4d73189528e4b12d34e5c8;
0x9da7079e3ff632329ed76acc28bcd293d69f9298fa25b9d5231f9611ece2c22;
0x2d865f77a39255aea1b29c483eb4a3acbe7fdd909cf17d91a0100143979a18bc;
0x2a39a308231582d0a1d003b5244fbb85588de1df3ac866dbc2fee6d1d8248c0f;
0x474c582c59ef66cb29b984f6e4bd97bfeb5a41c6485aca67dc0555ed1eea61a;
0x65cc505a691aefd234e572640f6c731993aadfdb529a9aba4bf6377ae28b69;
0x2aaef152c413b4ef991bc228242822e2a6377aaeadc7ac22e502def3d839f2d0];
[0x2353a60af6bd61e5eac2c9a4263d451fad07380654d4792378daf752e5cc33fa;
0x28d0997942c3b3b0a4ae3b17ba382c8fa4e1809be0ec701d01501f142aa401f3;
0xecf00f71b1814ced4f6525c4765846440aa3d39e7ba0e4e4610b70b5a38209b;
0x1258d5a4d495bd4be6c704992ddc3e89f7ae5c6cbd7430014491fd234be89fc6;
0x30513cdc3149663999036b87af10c4a183f71722572b4d958cfea9e3dca618c4;
0xc658aba90de155384cd4d63e285ac2d004cd95a2e95da1540ef7f1237d851af;
0x13bf5098cc05b1035e2f22bd47ab4041d8adbeb53c40aba04a75fc5d2435df46;
0x2339c682b7084d04d3c9b6072b20b63b12003e5c52043c6336ba222397269a5a;
0x2cd36c4bd8257cf74834663fcc1e38be2c3fed64f7b568e1f0eb0c269b0e14ff;
0x37b5beeecf060cb73d6e08ebb984eb5d9075b31b128fa3e5234e969036ab5c0;
0x118fc51eea37540b35bc2ad77d91af14dacc152f86db157ff4c48db58e325225;
0x29efcd78bf5b6b7c9811b6e838f5563b349606a1959751d63d28fa4c1124b5bd];
[0xed6a3bd48174e370b4f264b37488b03a5e3f4c0f61cf32d3157ad3e3b86f6bd;
0x287cd855b94877a396d39c336dacdb13452eff5917a877edce1412b7ab24ebb8;
0x4f06b7fdcc319605d038881cb47f61748f1e9f14d47dcf824abfad47a73bbca;
0x4eef0886e398163b9f0009c8204cf2d9b0a4a30fb019b3cc46cca6ab3ffe666;
0x2fb04567ad27a42a4ca2ea90a0f27660e1e10acefe62de96607aa26583695932;
0x1f1c7c6bbbdecb7ad8a2c8a91b983b075f4998fc620c36e28e2b59077ab57704;
0x78a3fd180d76eea922e4237fd65bb83ed4561b268751a20ec97d3e0d7460d27;
0x11ce8d6554294777e161cfd91ca86ac2fcf71bea4228f8aea857187d579b606d;
0x17607b33a1043bcf034c42feab79507a82488808f988fd0e13f2e2982ce55e0a;
0x2c90418c775ce44e34d9de72d06a7c2c9cb072518bda77828b1e82fd1d19525f;
0x1cfcedb53846d090e72523914eb33d6d2781bb18ff1a7c885eac1326e93f7a46;
0x2a4d8464358084800c89f6fbb98bf69d589164f9a648f48d3a42aac8c5cbf177];
[0x21103a7aa20c8d15501be8c23504c6a912c6100c5d88085cc2e42a52302f4483;
0xc783dba69038bd1673bc3bed51afbf51ecde783af95067c14de12f49e49570f;
0x1cf80bf06f3525aa85416d6cacd0e8251bf1b3a771be49253b60ca83f49b2369;
0x1b6e663aa128709d83c7e5a86284927920043926cf55678bacd8ee0322178495;
0x6146f62b14c25c15ac08d1756f2302395505138a4ee1184000a38f4c7f53905;
0x1c5eea7863fca5bdfb2f4a3dad7e2a16572998329ab695adecd136fba4f4063d;
0x197b13f8af70f642e878063aec6e21ba8978ef2322f2d64bb512ebfc7bc2c7c2;
0xdfce2c65e220994dd2deaaef6e04537b35ee47eb92cdbbd7c61cc6189ad3f5e;
0xf4b71f3763666a3dfce7517b6746ac033b2392ef742470ff7365ee5976bcfcc;
0x6fa7b6308e448573f3fdd11a2ae8e44d33c3d3cf0d9ff8601df20c55c6aafa4;
0x2390d163c2c0b5d461be5ae1f2dcf4c38c2aa514cb22b4b5e104dbb6889f8a9b;
0x21c9120f90988cffd032feb1aac143901de9cf42ea3cbe83015e9275cb67907d];
[0x2fb232573e85d68c536d100c3a6ea9172884451e677b0d1cd0fb4dc4c27536b7;
0x266913da539f40df5123e01fb748b241795f1aeedaf1f7ae3cef0e5728d23aaf;
0x2f6910e50cc8a14ddd99b667c6255bf66dfb3386e62bce0d74cbb47419c31572;
0x24fe05893f5e7aabb44d705fe83fb319d29b511eba00b2705561c6bb0afd7b37;
0x1ef5275b46a65f69edccb39f50fb90cc578ce4e519d54c8e61c31e6ae0710a45;
0x137569526eda65a31fefc352a005bd0b10fff52cc5692edcbf46cc5f03538ea0;
0x8552774a893c4dc375ee4efca4dbb742277f07d8980c54581b5d4d0dc1b7688;
0x2d9b07507a9df2a587056f988c7caa44693a118daae6660e160561d276c83482;
0x2c90b4ad79e2316e7986b75730418fe5d2b1f252e77817385d78ebfa34710afd;
0x275fbe17c666f61f6cf5484db2e52083e856c718ff2b8f4d4e17f130d2989e9d;
0x17f57c813764e728dd240398690408ce71dc8adf83e53f5257ac34b643a3ec15;
0x2700ff01dce092807c3f143418c11a2f9db6bee6f478edcf7145d69af66e13ef];
[0x302a085be040ff9a709ad0c73238b0d1e11e1d17409abaa34fc45de29b541535;
0xf259a3b7e18add912cdcd8674b0f8fa910fdbbfad967bd816b33c778feda3b8;
0x1e43f0a896764c42eb93be791fe26928f91c7bdd278b7c810a2f588268314b95;
0x268094abd638ee0145279900f8755e55e1adeaf2dc222f402d1f08ea4953abb2;
0x2e1bfa1a1aea7b44c84b866d9e7445e4acac75f82e0ea8ab03326214c84faa0f;
0x2e1e2e2f2065961056bb63f04c175c1682eff3bd9073fd7fd76e7df0e8f12d47;
0x3a2adbca7945b9a6367799a20c37944597333320cd815d054a5794f68460c83;
0x2ba338308820d232cdd019154fc49774b0c884c7f82b9aebce6ea211db294991;
0xcfcb2e3744279efac866e0228c1b3464a4048f4910d17042ba1a6b8cd12c8e8;
0x24cb3811355775bf9bbe6431305ffeac61c7de7c629d9a5ef84d960cccb940df;
0x257540e571a74fbe3ec524ff58f183ee0560d506a8d10973d77e54c9d9061161;
0x2652e1e037bffec0d7be1355de11170b7f916d148a7c3ee3ba8fa44817d48fea];
[0x683e640e6154ef73c3cd6b1d0f0fd86ebf7e292e63fa84cf0a883c2f1faa8ba;
0x10017188ff4a2e0e9b05536c8d07e27d0f194cf0689d834af2be2b93ecf20ab;
0x2afd3c4028b2ada5d194c593bb5e4e2710cc5c32edcd5865b59d4c7ec037e251;
0xebfe1c74eb49cc73b0f6c3f32f096c2fa6288b0a04823e290cd02dfb5e5dbc1;
0x2be96b6dc6b5dc0f78ebf844a52f6c1d50562238dbe7b95c47a2ba4ebc0e1c17;
0x2eeb27f0c5a205ead76c92eed0ac8a112c171711b1d12d1e066fe3527174f6bb;
0x131560b779c80ad8cdd22a9c3ba80290c76de761b1dc6e788f7f9493f84d413f;
0x7039d5dc74b4dd2f6a0701a3179b502b212c3a4503557e6e8af0193f07a5669;
0x16b1fa736396549a38076cdd9df36cc3385540ac1d7e42c79aa0c9cefc66a65f;
0xf5008caa5bdfda3401446482b3ce891ca497cfac4a24ca2571a02a8ecd6e78b;
0x427946475c0460b0fff4ad995eb4a9c608e260007589d7195b5cfb892bae4f5;
0xad2c3c083a08091a9566bf29eb7506952d2ed27eda2fc0f51894b5d2e28aedc];
[0x1f09f3fb07f7f6476fac98946b7375095e014b28f23a07ac9fc7077144ac3979;
0x2bb007eb9685bfa373e688be53f5d6dafd6f87413c9805d20c579933c6ab1124;
0x2b22adee2ededd40c3dcc8e1b15d38081edf590a9a7ec2eb630cbfc5292f238a;
0x6ac8237c50116ad33685d84005ae724cc52e0ff4ade0d47b194f7923231d67f;
0x217cef9e11c01178da427e2b9f7fcbe4c1f1525d76d3ba7c8850191545e58295;
0x46e7d8895837a4a02894e5d6f3ea8d51adb0ad4897434ab0d0e8079253f2fcc;
0x1f478986f1820203e99247b23f9ae06526a085c84cd31655f82c17037b1de5ff;
0x3a1fee4f5ef14a50af278a0b62247a6669570858ac9b2074df28b0a4e9303ab;
0x188a23c2b448e79af34b9b4866c954e698a6163ab9326f25f2dd746cd1347d35;
0x1cb09fac676323645d322c13c676eb4645446638d83fadcb37c4f1788acc1252;
0x263d998161f060aee0e6bfb95f1974efe466f739715e92c278128c7f18ad5e7f;
0x2488b89af9d856ebc2f9053be37e13f9e1e546146198b764e0e0ed784115d94a];
[0x598c38d2e2c78dfe4907c74e82325cb191d52608955b583e5826ebebd1857b5;
0x27fe7a3879727f44da5d035c1ee30fd12b4a6d37a488981b4903d9340b67b7dc;
0x11033939341c415cf31321211e351744c0831403f53a65832694b35adfea49cb;
0xf47bcf189e8e4ba1b486290d0c9ee89ead181850d2ff29b97bca91518d8c2f3;
0x53090370cc10eadfa09d586810cd0da5ed707080999f1211f0094108e1b3d57;
0x2e2c801404eebd30297f3ec0ddf5e0dd9c1e0aab055268e647c3fd4712dfc84;
0x203f12fe19f06faeaa77bc8baf4983c763081a7af43dc5e7bb83f789eaeee5b9;
0x18837bc92a8af3d37214cb2724b4c8b904e641660e5a48f79ae4a49a7bc37ff9;
0x9f0706eab57f151b23e4b968ba0b6bbd4fc82700acd601333382757a15de2ed;
0x1e7d6dc15eb4669f914899901e7deaa91d102a4e4d569b40b9a11d1241167ef1;
0xbc8d092c5d38d087f9f34faaecec3a55ee916469ff5e23e619b73468ee8eb57;
0x2bfb96f78ef7fe047373d118c0aaa0140ff43e5dcabda257cde23856a654b6fb]].
Definition tabS_12 : list Z :=
[0x2cb13179d6e8a4ad1b9fec37376253cf64386ad905e240575fca86539b272dc6;
0x2e57ee9089adcc51f2ec7d5fc42821e67fdf0a2f3d1add870823002a1e9ff4a9;
0x2346c226491dde21f38b9eb1be8c16084774e9dd941895eb362c2bf763050cbe;
0x2c294fa2466a0a9f1f89b1af5bab1ed3b86a0ea730770854684c754750efdcc9;
0x2519e073c3abea02f7784cd8c841ddcc10d65507cb4e85e8df3bf85a8e41a70a;
0x21ea0bdd27e0b8b71b91ab46798b907ee094cfaca4c68ad81f9c0c107e7a83a4;
0xda23ea74cc325d3922665cba17876a643c4f6ed46f9813ad0f403955757dd80;
0x1207beb18149148fb6f50f1090b05de32ec5d438fb30604f4c63c237a8cc1d55;
0x1c357f783a3df3f09e57ffb971a7dfc50c1145da9f3f67f323b4742ef3ad7f82;
0x234747b2d98835ee8b90f19b5ea03c13baeb410f21211383ddb20248608c5862;
0xb38e11da34730bc74b7f3add58779f2e0bc55734962a059306e4b950276725d;
0x14732e1bcc452fb9fa40e72910575640b674bb5f90353a52356a6133f26cbb9;
0x197d6117415de8855e11099ed6c9c4d76433d39fc7f4cc800d5beba27dc7b40e;
0x2b3a311741f8b94d8255d87810649ef6674c7a6c7711a83ff88f2ad9f7e23c53;
0xaff38c1f5500a4ee4949e5eef338372179779bb29c95142b3ad18efa9e673ec;
0xdd0c48ff292bc764e9fd84841939694a761178783ba99381df579cd3385d8dd;
0x723a053723b6cab73e72b36722bfc52c957f8c7fe0322d77348955575e841bd;
0x25ca5081fcbc5b5d8b808627af3c9494e0ef74245f9aa45419d3c400dde893f7;
0x2df552ff14232529c8216996f16bfab8d5555923d2e4a53706da66f4bb013969;
0x876f56eb6844dda9bf30ab548c8f0b3c4127ebe7fc31e1cb27e3ce62bb940b0;
0xa8f10d1b35ca9268bf4403635f76f1b9ac2e39ef1b5c9e6d8174f4bcf095df1;
0x1212b888592b16b273c55c09e887270a15efdef111fb3f0bbab6f34c4cc24d81;
0x5f5771bd30e0b5160466f322ecc23f28e563a44a80a3df85eb30b2a6da5681f;
0x2cb13179d6e8a4ad1b9fec37376253cf64386ad905e240575fca86539b272dc6;
0x26bf7fced0bbe938cd67479fa2f03e67cb8a775892e972ff4ad493655237bd8d;
0x10a49b9136eea6f2c3fc79d946f8b8fd64854ddc3a964c57462ce17262ad7d93;
0x5bc772beda5709a6fd33b3625682927678d5d7db7296f5703ccd7e40e0d8dc3;
0x15d73afa88e6fb1b74cdf3ea97c694ce695fd39695ff3b7266371d1870f610c4;
0x20656f69e483c5b05a2c5e26aeeb9f30d17b01054be5d002b4c312a32df35daf;
0x2629526c99e13dd1862ab8d125a34cc68db0f3bc297d974044668daec9e567de;
0x1e204bb473dc75bef5f17f5f828e521f657d8c58db1f4e096f5046589275609;
0x2a4fc3c7b54eebcd023dd0907ea97d73cefc2955a5a8347bfb5c41cdb10fb1cd;
0x374b0643d980373a12d798e8ce0f9e016a3b3d9c71e56e0b979534aabc3410a;
0x2d54f4a821cd3a86fbeaa914483d0fa23a7cc04a6be217b4144b668ae70770c9;
0x29fcf234a9344cc6a8541f6da7b2ec3b0cdf256408c362bd72048d808e72893f;
0x4254caca99daf3eb34030e734085eb2171f7346ca2e9f43ae8f61a4ee43c358;
0x2b4c8db3065c297d08b7f1cccb32a84a4bbe657c16ab0d9dee4bfe59465030ff;
0x1248ae908fd75fefc42b13be685cade6bc106684ae4a4513ad415029374ae02d;
0x1cbd111af62201c242a38f3a1bd792501cfdc5035c71961c29199a4a7167edbf;
0x2eeba2b31864903d017a3036f11985a8361caf73d4fdb215c5552d9e477a7a52;
0xd32eaed9cd5aba29a1f8cf029d022f77f5eb2011fbd7b8bcf442df70261c724;
0x20971ff3e27ffa9dc609a839e591d688d07dc636d2cc79ce570c2e5b79f63b6b;
0x2a8bdd4b9b1ef96bae00899ca737d2e1dca4917679af1c64f62677d2d626e314;
0x26cfb0174d91280bd05b4e9553c044886e8b8c8b30c36f4316eff726808ec638;
0x29f510be57ad8e8a7358c0697b8f2d761e7e6237c8aa2ee452d645c4fb5f3548;
0x1c1cbfacde1ca981ae5f91b44a95f4252aacf086637ee431dc81a89d4db6b41a;
0x2cb13179d6e8a4ad1b9fec37376253cf64386ad905e240575fca86539b272dc6;
0x2b7856136f545d69ebac3c459451f28a2a53aaa144ba679023b2161887ef1250;
0x250c047260e50160cd6586bcf0ea5180821fc71c3788567481a78e7c8b9514b1;
0xfbf82f8a52984b9d4153dd6e78c05163c8d4720915c19767cbfccd0c3973488;
0x6bbc95542ed85d6012d232b16d3d01deca662a0f61bcc164b6554b32e61f31b;
0x28186714392c789ae58ef7134248ad33a5f12470e416718a3354f34056fb12ff;
0x53afba658da76de92084f426da8b4c0330e7725be947aa266b8c2f9c0c55c4a;
0x1844872b8235f851728c66e0b29d5cbf1cd0a0ad5ea4885b2c9967508965c9b1;
0xb09ec5a6d9b68331f53ca5fed46443c6fadd52ea4d9c4640de3fc2940c0deb7;
0x638529db7cc2182751ea21241763d10d34cbc099c578b2603cb0d0c0fcd89cf;
0x5d066dcaccac1ac0448d43671f20833fae00c106de7fe28c9803d7715feee67;
0x65da2f374618a50e6fa3a0164160b1e6af42a76e9b187115b330d60a548b3af;
0x2e202380b8f6d90705a135c42066f1cfb905077d39e7a02231a740a3262c1e08;
0x14570c40a4e7ef1c096e9d8fcc0a46cbde32dbb57916695206ab03aac2e82f37;
0x2d87c245080329821da248b17456f9e7c106ce8a803d3d015a8bfbf952897c4f;
0xda8c6fc810ca1891938b417de296864f3af15c28d6cb1d59e2de28ebd010fc;
0x2018992835e00507a6f2d97c728ca059eb76a7fca5237a36e9aad99a61265cc0;
0x2d9099c975eb32f31f10f807baea25ddbff205c624a66a4966aa59bc8aaae718;
0x298dee77db6b29e44395264887603d287c45850a18582a8ac9bd09d292882344;
0xfcccb87f04870bca6382244b43a0f7f92d336e3bc4d7e7ddef48160e2de989f;
0x1297b03aae9b949e9a5186975613ff59bea3a058d34baad1b3c15178f19e7ffd;
0x893a222f29077408802aa74dc37c833df480b350eb1ae31eb1b9f9b20b3f02;
0x1231b1b0d91bc7687c3813b2da32e7c71fc9189641ea0dbaf1556ead8f36182;
0x2cb13179d6e8a4ad1b9fec37376253cf64386ad905e240575fca86539b272dc6;
0x2077a6155ab34ab05777651d0151e0320005731dc875986256e103209606fb1;
0x11a4f3347aa9f08e59856002487fe97a4ac16dcb9a7962d139a3b80ca952809a;
0x146016f8ce100f6cdc37afd22f00aa5359d531ce7179a2fc691fd12b00c12d3;
0x25045870f9da8f4c97e11825c52cf4ce40bca1271ddec4ed01b774fdab83886c;
0x156094487d4626cd97ecebbdcb8d41d7e70f28a6734dd3fc3382765ea111fd63;
0x24ade6dedeeb900110df4f92bd790ebe1514d4b24bc88062d6249eec85805471;
0x12ad265f80d855a7adcc2ab7b6bb9f49b50287cbd36e7d9e41860fc6596734ad;
0x2f16237203d13c693faa6da2d3162b25d0d1be895c8026cafdeedacec7d7c835;
0x1868f1766d3e2f9bb152b15a718ecbab287f6d9cd2e9bc5e66423b5bbc76e43d;
0x128e30bad26f11c3be9a689a10d093822b5d2b920a1b78ddcd7df1a8bfca5d60;
0x2e72c3b1f6bd3a793b27cd802532d2768deb9668ef00490a0716e95431abbc5f;
0xa3e8c07a5a634ea815e1f57afe9494515da623e363a408e505e01471c5a2bc4;
0x1a5c7a54a81fd93762ce79db6dc604f03bf519d683cb2702839662e69271bd6d;
0x13222674c9603db4a5e5a36398d24d77543ac79a4a31db13b48c9a1998046035;
0x333b7ef8d75e61e9f44ff11182db70311648a7b78addfe4f2144291ab5987a5;
0x231ef3a554066132798e544505b11d50106c4406a937c9702c7bde44457d4f47;
0x3016482ccd1ff28db55d6532420e95b9d3c66d1b8fdcee5b45fd94a4ad77088e;
0x284acbcd8d3b7c6e7e7fb246fa9b39811c045820eee55e57e68d7a6cbb7f165d;
0x17751244cbe20f816b7490b7346b8ddaeac1635588b765fc0e7cc337546999d5;
0xe3b27a81103dd231517acad6c69e41fbf488237d0fbee8f0d652ec72bf09a21;
0xaaeffcbd016b27891ec8c80384a7356211b9996a5cc9adebb24700a976d71b7;
0x118f45236c875283cde478df3bd4ccdfed53d087ecf8d85d24bdfdc78b4018ca;
0x2cb13179d6e8a4ad1b9fec37376253cf64386ad905e240575fca86539b272dc6;
0x2cb4a528ebaecb5ce5044e609a9ec5f36057185a88022e8340d74cf48579595d;
0xb4aeb2205324cf9c91474b3909faa82059ace7d53f4ece6e91971c11d212adf;
0x2e879ff17f31aa36666dcd42303d4aad9f55bc8d55ddcd7b8c54ef46fbc8e66;
0x1bf5f6555edef79bb094218b0980f27db57f9709b63a9c94b18552be085a62c5;
0x20a3689b70840d755fbf88c8fbe323fa7c7c5aad0e8923a165370511585f07ec;
0x10a50b432864883bf92a5fb77e6003514f43fe4a5a1c070a932dd8340eaee2f3;
0x6162a58c2fc725a6cd4746c8f229a99f9616dcfc54014a2c41e97b9ec1eb29c;
0xa12e5fbbbd66f0de0d49810e948220591fa478abfcdfa1ab0fc5fe861b2140c;
0xb899ccdc1131b112724493af11636d6421db516a59e8fc7f6e8240bd7581bfa;
0x12506c3ee2d15b082a2cf3111e9bca3d255a2aaa48e16eaf5130461f5d8820e0;
0x2135481566f8d976d6c776c65949849e7dc5a3097d8a7570240223569350397a;
0x227608e1587276aed4b92b8c602d81fc32bc957826e2c4c83d8e82a46d8ab68;
0x1f4fc5d8d275e923bd82f8f2fac04f63bba4fc9558326ac9ee895fcf682b158d;
0x1de5b21d942edc83d8c79bfea64f54e681143399bbcf58d4b31c8c9d671355f;
0xc8d9ae8381b7de88ac2894407c8158fe09fec7e372a4548cc0dba4d9283aeba;
0x28e6f24ef229a25016cfaa7e3007304951e75ca14e8eaf7b19c7e1df58033833;
0x16c93e94d5ec1faa31dbe2a105286d839588fd1517dca2e03d6b01d381adb9a4;
0x12c51f2640a3c05726d08197e01fabf7d5da91671d33e40e00f924027ab24ae7;
0x1ba9324d77e86ff6234db66d6183912bfe23527e2c056744231d99982d1cdedb;
0x6616e7b8b4f34595a4591bfac7429663b852e626d20bce6ee7805367987d67a;
0x2b291b00aada886311dbd8e92fa67673a2e9061f87b43a3d4570515dbe9656f;
0x24bc1c978fcf44441f251c075eee52c7b0b733edab05b4d2081a4b52ea798fa;
0x2cb13179d6e8a4ad1b9fec37376253cf64386ad905e240575fca86539b272dc6;
0x258a9d2af52b4fefcd409d763bd8e406c4355a9c488878a5a2c282adeafa297f;
0x2fd82f70d05f4bebd46634d329f317e76cff5149a81424d1da18580f5c1eefc2;
0xf4b503f7be48c09319c5a9b034ce2dbf3040873c284ac09f254f5ce86e88f63;
0x276d0381d413ba30b831d3fd4a292440091a1f7f4ff919fca4bb2b2c900c1115;
0x28e661e4cf942f9c9f95c503ad1d0a2d078ac4644c5dff369d5543aa7c48f798;
0x2173c6794694634cce267bc21991598f3debac70920c9d8775947bcbe3f51124;
0xa3fba241019270d5cd8bcb540899795fc593b5dea208cf016a8af970cf7cc2c;
0x20fcd9c08eea8de9d38dd10180e9622d5e7c7493d0f8c511a4d2f9e5da45fefb;
0xebc5296052433f86416ac17583ef06db0b6abd8d47110b6fc40bebbe02ac291;
0x1d76be7dd20256408dad6674c8d0e51d5a5a5cb8fac79067d3796456168d002c;
0xa94d77bf887daf01ce54f21c6891f3a9fe14faec2a1401fa3ee22a0244ed155;
0x1174fd29cb4654d093226766b105e7ce63f0016a0bf790d847522e906c357a86;
0xfc72bc5d051c4abd69d91c14cec4cdc87fb115049f1b08aa482f7ac7d7c4e2f;
0x845158555b18fab6a2be184849b6569c1530d836d9ec37f9e4e14c2067420cd;
0x28220c506fb21d1ff3ebbc47c2c8d766d427a30b53a3964ba575a21021d8b9d6;
0xf45897a8f2b5c4214db423321f9763aa25692e0c05d46e9a45e5253aa696a20;
0xf71e156500b67e356c98999c688c8b2a354d0537660e0852bfe74d038a4785d;
0x1b933d41cac25dfd0de679e86cafc7d13855e4871d9b61e119b04d5199c09f0b;
0x19287775fc90903925ac37f60e269bf68dc05675079d212bfc9faa6ff6a49821;
0x207b6ae3483a8ce2bc1b2f428c1ee240acf3e1ca010f5820b0655c9d8eb868ae;
0x25d71d41264bd75fd50528062bed8223a243f25d2768169b343334d708740ff9;
0x2eac8212fc2ad788f72ebe8710f3c6c98625e52894645f3d714ac951daf2031c;
0x2cb13179d6e8a4ad1b9fec37376253cf64386ad905e240575fca86539b272dc6;
0x172fd12d4e03af148aed931034e7060af7b8e8546e9e4e7935a32fe7727ae3fc;
0x154dd36eb45f530fd949b85233eb745aedb76297c33ab036bca6f2eecfa030;
0xd6fee6e12761c3832a48a89989abd5c6ac7a245be31dc258b03c12cc30818c9;
0x1be1815b17dc7aeca4440d5850f787c64f7b251ddb137da5319dad8d9025fa8a;
0x2be2edb8867a2c4cb3fe2653db4b526e7edabc44418341fb708a6620509b8bfc;
0x6c0fe57a444d90391ceb5a94ad1de1443bd026cef8763daace23a3b701a5cd2;
0x1544a456bd7e736ec88816982cbaeef38530e1c8480dc59bb74ce844de7ec438;
0x13dcec7c410c82a7cf03cdf661e4c477cda63b31d34274653980cf3f6f04fe70;
0x28832482d1891b799b37a9f34f26a72a8ba4cff953001ad0581cd4080d039492;
0x1453cd3bc8d13cfcfdb0ca235673e3fe47f91772a386b11b3108faaa8b04446d;
0x2948c35a60690dda3b5dfabbc2cc392c585671d64ba338f5112d4ac46720e3fe;
0x15bad7a6723fea31ca2cfb8b79a656a16e6020406193e22d51897bfa4f5a2d0c;
0x2a3eecdd1a4f9ba57ab6b9d31a359352c49dc129d68d9c509a74af0d1a27a25d;
0xd1a72d9a9f731b1988ba20f99d8b3d81572f27035d9288d8bbd3685b288f94b;
0x2099ac63775453e12762b57075cccfc6fd9574a65f15bac95091dd9475351a60;
0x60d681d211c02f7909fa329f6e05dbe7455ad5879ac8d3d191138b05d207b82;
0xb751b2674878344d13b251440475af9b37154209de0760456b1dadd1bf90288;
0x12c11a657f6024257b1d2e79e5a9b76a1efbc3c3fdfcf0392c063086ac58a01a;
0x17c91cad834837b9a48c46400d3e25e1a9a7154c8fcbe0115452d3d23d265b;
0x1fc3820af6ae6515fde45a315961e27549884e2b367ff88b4ed93ceb05de6154;
0x17a167b5b9014ca6330036496095ad717f6e37a4dc776aab1b82ea7fdf751ded;
0x46702f62b69daf94a105978608dd2c3a8daedbe7823e8f8275c8cbe16a97dc7;
0x2cb13179d6e8a4ad1b9fec37376253cf64386ad905e240575fca86539b272dc6;
0x1c44223b01de8fbda664ca95848b813295f013b8c208c88e9947d3fa8d244cf5;
0x25c7179c48928fee7e9caced6240b851052322c5820ba2bdc329868ffdcc17d6;
0x1958a68f02408107fa1e5de776901270181b3eecf421c6aeadc11866a64e2b55;
0x17ad9adfd56f8195f4cd55cc87a833e9d6a12e091b59529d00ce604e99307f4a;
0x5638e90a5883705652412ca5cf9fe315bbaa74743995b600072dd4be5f5ccf0;
0x2467cf163474afc71287ec56cd6d8c6f53479aeb3fa0dfe5f5129db4385e5ef7;
0x23427150e60b6fc48b7c8d5140c07d0f97f81f4397c0959fc851c88699c8f02f;
0x16f925f73e091b1749ba5560993157d7259fff13c2010e4734eb77e7ada60aa4;
0x2dfd7d6796e20ddac5fa12f1e533957c671fabff0c8c74bc5b8ea8ea4a4c87ec;
0x664c8b4ddb68209c1253e424883a0fc059fd49be46a468ffed7bbb2c8978eba;
0x1f3ce48c3ee2922ba46f2bf0ed51535e1d559d223b489bea2989116d48e7bd25;
0x84ae17ff7f684885a4f21d24613d733fa2de7c694722611fc1e86c144618455;
0xae2be5c975fc9c57eeb14791c5234c2f3e74c8ab151d4943fb98f4391888c11;
0x28ae3fb3896a81bbc583a2715c9e2193209c79be2a4e9a894ea265010fdff87f;
0x1a66346aedcb602f39974b69bde3c83fc72944ac6c2dd32a32ea5b3384b4173c;
0x224a43476e893bd20cae3950ebb698bc5594f0f70ec5be20708dc428b2aa0b05;
0x1d78ef43d9271f5718da099a5ad658993aa6cc4e263f0227433c1c0700be9a13;
0x1c2ade57dbe0afc29e9c116a8b52dc653e3b67e891ddd363e1dbcd515c7f07ba;
0xd3432e9b73c810f7b1b013cd2c9204574e75dce2c85d7279ba1ee5cfa912acd;
0x10c5edc9f4201dc2b0366ea68593aa279438745e4e98024b5da5300bbf594f95;
0x1424d5095a3ed3c98e8d59c21743e2ee18e6cd2fb87a4f8fb566a51d550747bd;
0x1ec3fdc3a02833039f3ef99f01c641c62f0f90af4e2d9a961048e9b87698f117;
0x2cb13179d6e8a4ad1b9fec37376253cf64386ad905e240575fca86539b272dc6;
0xd9abef260b1cb444cc28166a74e729a2833e12445aabcf151c1cd036d1cb5de;
0xed6cbbab2f8701da54b8b692304d8a4e8cb2e08f655c88924e27f4f15a9a52b;
0x2c637eacb602a657668bd513a7a1007d825cefd98444e38b021b2c1d950a76f1;
0x20fa81a9bf57087cf32bd01facb98697426792c6ebc73d02db7e5ae21b750d19;
0x4f1d239fee709de5b0b5e5d5de370404d7df82d22b08c30e38a7550738aef85;
0xa1de402ccd1aaafecbf31017e71429162b1c6d80579bfdc5b1eff7c48bfb810;
0x1c14d03118d712c8ec5c8fcdc25ec9f15bfe8857749a7d43df91232dd65f37b5;
0xc5e0c42722e6a74e7c9d75d128df4a564da3e0fb809cf7768615a2cfc0e9183;
0x78c4b7313d470130efab6d889ce7c18832e610f66981841824e6f1d812072bb;
0x3668b307c93ec14fd047713c1acdbb0b9248574ee5d6fa34fe883f1c22f3cba;
0x23d9be76930ec686660aeda8b0cf9753e10c87300ebc641ba98e09dd2f52fe4e;
0x29a3b2345ec04133c77316b42130de0131eb92263c4dde2ea07063c5c128680;
0x2094711a12812e287d245d3c3efef7c17f18aa907378ad5060d80712b195d4c4;
0x5c8d6aed39e2d9fa9a2eba112b4ca0aea1afac2c3a68622b50484a2c356a567;
0x15235ad2ec7319fc572119534453ceafc36bc0bc2e4507a2a8ef1f7fa9e3e856;
0x2a25158b0df94b0aa9db35f56bae7b9935418e9d6ae0d7004e23fcbd38de35e2;
0x12db88ed4056400b8f336eb2d50eefb47c8cb34c31708093cd4f7dc30a13e2d6;
0x10f2112348242ce97f64d304a108694283ae8959e5c91731b625900540bed1e9;
0xdeb481ab3456ccc232dfcd50eb82acb8feca59538be59659fbe39426181f3c4;
0x2bae45f1c2ff62e6048fb24ea8b3f732f6ca9620040285b5f89bc2d4db28e16c;
0x2b93089446d7130073970ca2059fb0c06102fc91a6288339b687470613fdbf77;
0xf0115aff5d6fc582b77c744e7a3310f569a0e786e12b526a741ad7e958e1052;
0x2cb13179d6e8a4ad1b9fec37376253cf64386ad905e240575fca86539b272dc6;
0x116ba64981344053dbb50022cf797b7cc2fdd015965ef309453d3f249d581b04;
0x15d813aa4208144a30d1b4509db1009a7eea4f4a8ba43145f72a0d9231a45553;
0x1347fc037b2b26fb2308cf417715a9cfe43c2c65f2c71c7bb6c5c40ebf730e8b;
0x153cbb5ae6b6d48a1360870cfd5f5e0f4c4ea591acd14df7a02b2edcc2eee347;
0x249ff166662ab43663e65ec0789c6ba6bf1b8594471a26162cafe6c32106a003;
0x72bc9e678fbc25cf9101f49cbcfc48cc0a51b86aa9d7e66c52897a5d3f5dcab;
0xa6577ae2a5cabf4c9f00eea76f9fc2196288f1f8b3c16d54c21fbcb28a1da20;
0x1c610a46a4eca6c1215870d8d35d92712544192b256de5f82ff6d3cd6eb327d1;
0x2b9a13cbeb3acc4a615f45dcaf18828c844a1d61be9b59201a8fbd9db0cb2640;
0x2ab0560dff6af3c0ff49de6b343eae05c665a0caf15792d3cbd8321119ce2b9b;
0x16de08dca0ad6de9eb247866b16cf89da11890bf1285318b92cf302d8fe144fc;
0xcf760300b2969518645ccbbc9d94ff315b966d828ce76e9e665fafe496dc979;
0x260d564df3dc0db676e22fa410e41794fdde75c4f19584b43650ba909b44ef55;
0x78c91572dd1477b07006fb1b5852ee50abd789a190db81c0c51de867ed1fc11;
0x2280039d47ad466e5af645f064e0c10cf12e92c3d40675008d4c4eb9e873807e;
0x57e2320efb4234e61691c9bb57aeda4fd11ab282b2cda1f69e91871700c81d;
0x22f771ba7d2d275cf543283250aea007432a03973c77a82744bac9fd942136bd;
0xf01220ddd07023709c7b55a1485f0a5443030435aa02d9ee677fe4d5ea0e62d;
0x2e1da930eaa52749c15bb6bcd34b131e7c33ea3ada98437dd9b7eebb22db48e3;
0x6d621c55789875af6fa6645af8da7331e54044a5ba01c54891ba11af10a36c6;
0x1ac30223485713604244857141dacd036ab088f29363eb51c3113eba8ef808d1;
0x24f06bb121eece3bc8c62e05fa6c0ebe28925e2a47a6d16e3269c5984682da4f;
0x2cb13179d6e8a4ad1b9fec37376253cf64386ad905e240575fca86539b272dc6;
0x146b2acd097033a165d7525b2ce6ccaab4d541d5ea58e215166d393cd5677dac;
0x1fb587e5904d58efa007310b9d86684fac658ed406c70d0e2af913ea416003b;
0x2ca7217280f3cb8744c3c3824e46c6de85b654c41b19f4b662f8250f742041ea;
0x1ae6ea2012fe1e87bca1988cefb126d63082cb3fa74a717b3008a4026a6eb28b;
0x2d80fe550d7a4f7f67d2b170a430270679f03d119839d9ca72efbb9982dabfc4;
0x137557593958b59bdbce0dc6594c99cb85c80f3e518e99179d8000b339492575;
0x1def05089b4444afbf11ff8fb6e10259ee3b837fd0dd3d9be17595ecb5480c92;
0x201b23b3cfb13fdb40deb239b3ece158fd8c67950c242ededb39540f9d71788a;
0x22d9d27ccfb5d874defd155bdb5e0f9255e7be972f912c44ada9b7a2831116bd;
0x239a279e55c2fd47d5872597cf2ce10ab41dba4cde5bf4cd7fd478342234b264;
0x137724d6aa363143908f50d990be5f70794e6b9fe17beea4dcfea9dc0b6073c4;
0x1dd6e3fde1b84a0b4a9fd1016d1c6d22fa80abedf000368d34d8c069be2fee72;
0x2c94522857162e4e67bfbd495e823aed177c8a5d87d237fc57e5355b177e73c7;
0x183022fedba6c78d0076bb2c2c6bb4722444fe77703e0a6f462dab5579dabded;
0x2252e07ab4d0fcf8dcda2fd18514f0314282297cc99819dfcf0a5a9f35544430;
0x719e632cee131b853c0824f527980bf00f18d8a16aa7f265480cd10ed3428fd;
0x302441b28d3b1cf39dda7be9eced59f318c188274c6adec584737856495fd875;
0x12692c7d7301e18bcff106c275cdd2dbc67001502b21aa890d6bd70e95a76934;
0x1eada016794439b4d460b47956301225601ba9273266a9e955fd3e3c347aa7df;
0x5cb3b0ddfcf2ea8552ef578139d19816d5c3ea7084f80c8cfcc43960ac2c980;
0x13b78f0215ed7f48f40363ea5640fb9a41bfe6ff5044ad3aff51d755d9bcfb15;
0x1b3a63d2f5d84163f48ff24f99ccba5ef05b29ca80019907e1c3a789296b22df;
0x2cb13179d6e8a4ad1b9fec37376253cf64386ad905e240575fca86539b272dc6;
0x2957ffc8d1b0a3f2dd026ad7b90fb7eeb555d3772d8f2c7f47e37e913a921fd5;
0x2a1c6c7b345e260cbe11154aa6a062d87725bb940dfe9798e794d551306f75f1;
0x300cad430463e7de043c54011a594b2e5aa9f0aaf6558a5194a68a3285bda986;
0xab63cd76eadd01e944a13e73f2f03afffc11b4823380c6d0f653cf2966b1eaa;
0x26227ae79cdec5b80aff802dbb9bf4e8659ae92bd8a83be6dcba8d5917c4d34f;
0xf30d1719ff31c8ac2175e5fd863b5b04516809e3c7ac6ec41a1a53d866a71e;
0x11c786871cc25ea48df5ad070b2fd3969a4841f05885a80028d910b7b6e6eab2;
0x2c7a714da7b75d6bb3eb16b8d1599f3729105bae675a1924f43c3239f9c1335b;
0x24b7026b296c245b47ddbc1e44492034c4b7a8d35b2887cd539513c5d0532403;
0x2c247c7290fbeec55bc8593b0f859b43451002df189238934b16bf1a20d3624a;
0xb94893f2502d38fdb691bfd23b211fac95d934cf913f4c52eac9999fc059e6d;
0x79b6b8524b8270e480562beac696afed88406015d4419a8ff123329050dd3b2;
0x27e2e1708fc82a7868b3a0fabf059d164ed3dc38f0e6220534928b1cdf59e26c;
0x3040afbc8482759cedf03abb41a1ee858cdf563190eecfb2a24424d4964911b5;
0x1741752784ea1fc7304aca0447b2878de168c87b78e2c3ec32d6805b4d2a41e3;
0x13445ec326f4aefaa2a84547767b65d8884679aeddb391598b219ae7ffd41830;
0x2b23df120933a79eb1feea325a521ba5d53372e29d279a8c32dec33a83dceac5;
0x2c6adf68e43f02f6721d9fd6d19e8934ce3a462ec543ff34210e828239177789;
0x2e9faaed5c26fecc4672723370623d6f563537c06d1e98292134f4ae26f1cae;
0x22c261e0c7bdfb933e808382fd75da681f46d90e703407326630768407e0c27;
0x15605ce70aa2918973c4bff136303580b51fb071d5224a1732c10424b1fc7a82;
0x21ecd0341474c3b4ce81101d267ca95d7cd2647fa4bfbc823956a9e348ddb877;
0x2cb13179d6e8a4ad1b9fec37376253cf64386ad905e240575fca86539b272dc6;
0x2932e8876d985ea09549df2c64e8097d85c3578aa46adf5eafac039999835c5;
0x2c1bf660a1dc8b26995b0e78875b0c28de9ef7b591fa2bc01a15ce7729b9ac5b;
0x1e88f3c4efa334fa5bf313a919c4de396bde82e124f0002f1c00229f8dbcb67b;
0xc774d6acb4fcc45b139d92323da82304fc4e29a919c9468746dd20a6e03fced;
0x17c11174c9104e2ea1a374b75bea6925ec45a1d9e5293741944e5359d4d34408;
0x221f6d3412048020aa832d764a5b5e80af3b014139b28f06920cd3a3d3c7b7b3;
0x2c0b403d133861410859b48131001ac956fe4c9e5a368d9c3f085560e5d37699;
0x1da9a5cdcc8d5c8e8390afe24b8d801bb87b9fb9eed429aae52aba17570c9d03;
0xc3e382527280ac6525b3922388b310dc9864d9fd11815a2c94f7378f3d52f53;
0x2e733c656ab7308a5f77b1747c7c7562f0b48d9bc42b4c1392632840dc67eb83;
0x5500ca3eb4bd08bd91997d4fc698fa050d5d80d881f634f84feaaac57b15b2d;
0x112aac301ad5ced619c2925c297d3387bd0690d0972aa21f88d7437f42bb5cf9;
0x273c9c5526da6130164e2360c9cf111e2a1fb2b5f02a5a463c6c64d55a6c4760;
0x5b30e5e7b01d8730fd549eef232bd3824b3a670604ccfa2407f2a63eab5f5f2;
0x26e905c3889e46597070e8b67d4ac9ed44f5a89d59efec7add002494da376c6c;
0x3a4bd09500b265238ee8fe2cc149e058d35559d4af804be07119815b5b98960;
0x301e86bf4790028b674b2497deb4370f32b2410defc6a4f3ef6e500a0f29827d;
0x86d71db143455444d99b9993964b827cadf4feafebddcf019c278f32c8114f5;
0x174ef177c132d7a3e91f02639d7dd88248435018525f095ef18cb846bb060e62;
0x57af114d2416184735fcff06d88e734f7d8d5dd412b7c407bb3a0f09bc2d44b;
0x2cd21076d55f5c9c8c3c3afbf7f0eb2faf05ff80d267eb692d93b8400c9b5fd6;
0x1ab2f05ede0b3e9790517712ef714568d570da3a0833f8e8317c1644264ce97e;
0x2cb13179d6e8a4ad1b9fec37376253cf64386ad905e240575fca86539b272dc6;
0x134ff00b65e9a214f19212b4750781ba3dd2e28511f61cda7a69553bafb44dc7;
0x144774a605bb8a7d11b2f8fbc2a0d05146812a9f1d03c4be608a544d18ad8f6d;
0x2f1de3b0835804059ddeb1d93bbb9821f6e2070365ff34da2c43dff65d3edf8d;
0x930a41a901ddf9dc66d27b2238016500aec43b06bac6e7113beaff39df69c74;
0x5ea98895839deeb637c0693c60994afe4950a088d1005946b20c25f48b1f4a9;
0x2b2ad0eb96fe5e5ca0062109b8c535d32ba984e38547f3d1050b72526884e14c;
0xea3a0fc0b46da189a9dca213c0288e3369573fa66b3d3379ae56df2a25262f8;
0x272ea64f54ab3526e4679a0d0982560233af7b7f2e85147a86298fe62afb073a;
0x281aa6e665287f9540fb2f6d13a077d52e145ed62b38c64899b92a123357c089;
0x2a432fcc6ed2fce50bf214a31f9546baa2fe8fb3d1d00145a7fca7482ae2c390;
0xa9809138f12435ad1150f8fc74d401d992c42439a44ebd122991bece3824ed3;
0x109adc1cf8528ec8f537cfe978e320e2a4027abba83a3781aee0b88444805154;
0x979b7716c8be6bc4091a376ffd1fc1313e19f3266095bc753da2cd4df883ed2;
0x163c946685c585d46b6eb8a3edaf018353549856ff6ec0a238f45a1f0d593af1;
0xd3d1890201c5bb1a7e40dd5575b4267fad63ae91f429efc5f57f52f498f4203;
0x1f4adf58a1ca1586815ac26a76d8d6a25c313e9b2b0ac7f830e6e1e0cee2dcc8;
0x2916cd6ca0ee56ce79345046ce1a91a231895fe24628a840852474b240b53459;
0x1390ae730e0297f1c7ef2e27b3c050d6713015a40370d6a281f1c985dbfe86f9;
0x2b747562e4956de74f4b115e082bd95c00a7e2a175255c7ebef7cdc70598de11;
0x26d57a5bdf2b1da9eda88e856c4909c4265ea86d8b7f630caf123aac328e0207;
0x24410235e3faacc2da4215b96ccc5228faf00709dac6542f589409ee5d833901;
0x2bb0d85f9daad9891a6ca76117c5912a19e2b959f03e59ac52ca61c6fc90bf32;
0x2cb13179d6e8a4ad1b9fec37376253cf64386ad905e240575fca86539b272dc6;
0x1c53d25cc30ee67b9ca5de92e574ae8e006378568883a35ec673078c5cffffa3;
0x15809370254e24135947fa4d4c9bb5366a809244c42e44d58ad51041ee0ac0a1;
0x1c7feb95c74dfad69a598a6569b5544b3138c293c78957c281e16178dd4d2ffc;
0x7160482689f59cfff868ce436b6135ce5b8d2e15aeddfad236cbbd174fceae6;
0x1e1716d8a49f0c324485bc3adc0f6a47ca4d7921e079fec272d79aa4d4f5036b;
0x2234e7ce1e40056deb62ede7b86c7f6482f7a253ce49aa78aa5c636a5f0f942a;
0x1134d89c4cc64ecb35202fc26b51689c745b812587ea60ae3e2636908b428a0e;
0x13c6c021a7904ddd8cbf3d0a7db61e044403812726e369bdb97ca31cd05142a4;
0x1c750f568881fa07bd9d06cf2c36356c5b824b71bf2060b763fb2895667b54af;
0x8170199a5b260bcb05638100428def3df9efdb5233441d14fc219c1bcfb0a7a;
0x1c0bf7af434ae20e594924e912515bbe260e21afd030f32eb7b0bf5cddbfb1e0;
0x1217414da7ee96629d16d8d7b906df0c15bb7bd5bfa5595974714aed8b3de96b;
0x19bcebdd18dd8cd827850f36a3f6849dc028bffcc10fd5864c0e37c50156964c;
0x67a8b7fce532eaaf198ef0fd1126b45f7d0aa8645e35b0331d7eefdc9c7b364;
0x2a92c17b2ba923484475d4bbf164caa1a8f16523b6a23b2dba260d7178530eae;
0x21bad2c773c7b349b2930be09781138a061c06f4f06fc38e71332b942ff2939f;
0x28d0786689c5a9bc8c7f2eb62f2fd0b21d776f3cd74725c0bc2aeec801048801;
0x222cc9d34695b0088ad166a5defde21377627fdd32b789575085363d6d5ef907;
0x2a54d465647c8ac5df86ec2bac782e9aa560977f7fb60b87ccf3cde01e40ac60;
0x13822f37a288f99d881dd1e6f6df9a8ffff482f84179be0924e7768d678a2a90;
0x1792175406aa3a9e7056233f4a70042e8226c943b7aba99805727ff7a9565071;
0x80bc46879014fd6b55a3e4d7698925b2a6710b7a5478a51292964f64de1d762;
0x2cb13179d6e8a4ad1b9fec37376253cf64386ad905e240575fca86539b272dc6;
0x8aeebda8fdf99667caaa1b7f570e579375edf7fb6438af9b689bfc12e2c8ba3;
0x4b0ff272995a13fede7f4465a2f0ad2134efef55626e1824c08ed67ad981bd7;
0x63c3f451fb64fd5e95d21c8eab8fb98523a716c8f83e0f764b41a8e731daeae;
0x1928de8cc64d6cf21107045a7fcc4e0cba4706e68cfe779044583f2aaf6e885d;
0x1ef2ec873dca7eb1092b1835b74cdb403726d8fab6cbef50b231df9ab87ce725;
0xae02db0ea401b8a1c747f50e885d087eea93fb3037870bd36b1440d88995031;
0xcb7ba6cb4e056aeb2bde61a38521aeadd877772701fa572fc77915050db758b;
0x18e89e7317025644f8043265ce00d61382467265fa055598066b9b19b47653f6;
0x167a003eddaa7d10f96e547b66cc2bd9f2ca99d267e011fc69669f71d0b71fbb;
0x573cbb272daa570f35256fd3826e34c3e2f35f300adea697a306f914db7a584;
0x7fc9b6fdf58ee181a0141cff89e34513e7b4d61e01786c176dca84b9664eaa1;
0x2b3af74c7a1c0f396429f7e2d70e68b014b3a268d92897330cb9fdb1615674c6;
0x22580eb83a854a817e4277e8cf1a05f663d198c0b2b6458fa4cc45120b48883c;
0xc03a653e7e2061d62e638a0931b767a550722b318ebfc8bd924b22c8a009b40;
0x1f0f1d34546815b4410f8ddf67bec129e8ae08fe617497a70e85b80802e0557b;
0x1dc998a827321537333b22cdf7bcf0a5fd9a72cf9ed9d9e05ca82df4105c02f3;
0x21305fbed36a0b611ccd7139a48b7d36985041687c4b76483eef93d98e28debe;
0x19caf75550855e1b4d0e580444a73db1d86d507b72031d11925f33fbcf7e9f10;
0xfdea1098aa89298d72ddfdc5a47c8f9141955ff5a612b4c52ad3ea0461f3df7;
0x15e15542d8176284cb1b007f4655236b1f6795f045634ec815fbb5f842bb3c64;
0x24b51f84f0737f35c038d3801de3102fc32dbe223491c5367af7baca0e933482;
0x22231a672bfb82faf7b867475382c2fc174937b53ce765f4b6fb9737177a0ecb;
0x2cb13179d6e8a4ad1b9fec37376253cf64386ad905e240575fca86539b272dc6;
0x2020cec5cf125567b97756ed7174259dec539b4c40bba51bb64779221b4bca9d;
0x16b7ffb1a4af4b1dae8d82824c542e81b7380efebf3183208dd87f3368f2cd73;
0x29474e7fba2de80bedfa9f2f8bcaa38e6b154ba2da3454fd1436fd5bacaf2bf0;
0x29f55a4fd3170647fad71cf38c80c4cf8af0b1039acbd193732ff1bdcb049368;
0x2383d1015508e17fa9ff282c175ea5ed655f74bd5793bae4700459b5600cceed;
0xb21347d3f2e1ed0ed02262545a6aeb4209b1809b132f7f1036af67f9ecc114a;
0x1c3b4d79046a0030b73e4ed03746ef2898778560012f14b8c151f4166e0c9cfe;
0x2bbdcab9bc95ec1509f2aec2af8b117c34d8d8079173cc099e658c863088aad5;
0x32c3e39a7299f29c816d761fbc2abda28743e917547eea1eeaa75975b22b7cd;
0x2402ee3c6cfac01e1fb6551c34b1591e2b419d4ec69a0a9f1331cb546c31dfb1;
0xffbdb63b86161ab9648a7bb7e5c25d1541847070efa58c6240937eabd05acd;
0x2dd50132157285954cbfc6ec6f2e73b0d1218c699a07fb09984690d0fc8719bc;
0x116fcfd48ab31fc4b622f442566be132d688edf27d5337fd8afb80932769151c;
0x2c3c7ae7989bf23c86279e146798a3ecdd80898acbb6c2ec1f716eb7a91b017b;
0x2b7e60fcbeef2020823e799448da1cb0b866d776c8f74c031de2f5452010186c;
0x2b4a3e4a2db9c0cba63a23100fe5b9ad29b63e1e004b40a16fc00e20a83b7d0b;
0xd1527b252bfd505f375cf86b9fc95dc55fe1ca65dcf37409ec48da8b1207735;
0x1b0a396a158fa717511114766ffadeafc6cd82b72390aa908e1c5b496eaa2ed;
0x25b7181ae26411c1705d3adb389716b615f7c1bb3051ab9b9af4df76cca672a5;
0x1ce6e261ad4d6353538814957c5184ff343521f18ed1e8ac24dd380978f1b1ff;
0x2114b703153c05d8a458b86daacb8a1180a0e0e06313c69f0319885218d57254;
0xbba93da8fd45f0232aac88e242f83553799a5dd893a27697169d9ff3f628dbf;
0x2cb13179d6e8a4ad1b9fec37376253cf64386ad905e240575fca86539b272dc6;
0x234620365d9e508d8b7a01a20c8b84cfe78734bdd7a480a6f3c0270be6c9e031;
0x18773402938384bdcf3ed2931a34af760d3401e10cca02854081209ca5bf9c71;
0x12f489609e827ee3dd6a53036f1f8fb80243c0ba7ac2720ed6997504f7f50d3e;
0x98af099212892af46e34cedbb21e88b9184ab2fccb8b8665a5324601d8c5909;
0x229c5955c3b6f26373956d4e3ddbce6c4c97dbd1382ed1c141c6c6b8cbcfa95f;
0x204c3dd1c157600ceb1cb55072ee278292a3003a7777febb080a33168f4fd9f6;
0xfe2cb3ac38a35f9d943e20a4cd370598e5c1b128edfb9cb877f2d424cba56a7;
0x2ae0af8492610bc178f36cf8887b6bc86f02da15b1dffb674706df0d9b62e9ee;
0x1ed1520997dc0364683540a32fe3e4368385d140b61b09672ff0e0bc2b398115;
0x25a0c2f522b7f27667a93c435c2bdc67d575da8a808bfdf2a43558b1eb12d9fd;
0x24d9bf46734bea252329879adfb65782fa5c6809a1520a3656d7f67331348d3e;
0x2b5277817669cc8df0c6b82feb1587ed59210f1414ae609f40def4c314d96e05;
0x724f33acc2c20822fe7f8d3d1f0ac39b2fa1025dc18dccaa4b258a2654e705b;
0x173f609ce483747dc7ead26598dd2227107af0521fcaac5efc2bdc3f48c07c99;
0xcf0b2b3f0ab40d718173aad7993e6213ee48804e3e563f0e531e2c937abdf9e;
0x17ce34f45aafd638238ac5846997636b58aa04d76b4b0bb46aa0cd078ae14f8d;
0xaf51c9e93fa5991104504bba90149228d64eece560e4c8bc2ccf1b943cfa761;
0x67a323bab4f3d03df325818a393ba5dfabd66405cf74e65e9dd52ee2d8fb197;
0xc3d3445a27d7a042fa2b4c5e2b5d03c1332d38bf26a781449325896df57ebaf;
0x1b5b3c710b37f195824a623712b2104d821ec8d859940bf0d27a3c50faa2e886;
0x16fbcb1c414031ba771845e6f67151fa983a4e32972031ef813e5f43ff3a8cb7;
0x2dbb1e93d3cdcff3ec3bb01debd9211951fab454e9a019fa4658a98f148cc8ff;
0x2cb13179d6e8a4ad1b9fec37376253cf64386ad905e240575fca86539b272dc6;
0x1f580786a86e622d9ea1bfd87c2d7a3a5f19f25105f0247f08b0e1ed89bd9dbb;
0xe2debc6417cbce9356f75fb55b7ef0347205dfb84b5b0de2c02f4e130453c16;
0x286b399e2ca189612a8d7dbbe938a61a273025779047f72ac5fc902847dfc0fd;
0x13144b54692e577de4598ca0783dde7af2a3a81cc5f0030b6c3bd92d3bf76dee;
0xaf7247e59389d0f9509b168845f46a72b4474d9ef66dd7e35f58450fdafe9ab;
0x18b3c1a2e20476cef58aeb4b8ec1820d80c28a5309d85f974fa62a19d262f5b9;
0x22d6ca5d958faf4940b74e3f50fe6eef888799302c7c99399331a9db0a9dde32;
0x28ebcdb416210c7ea0a9c44cdcc1763bfeed08267cc7a17a935f0e75dd6beb6b;
0x264522a85698bf1cd24c21e937f975faa4cbfb3534cdbaff55a89a17f947aedd;
0x170ca38dff04f179223dcbf96e15609225436e47f6aad10c21059b549b8ace87;
0x1980e8052c47daa2a7eceb160ba3cb93291acf7b84c3a1b83977766d78e7ca83;
0x2ef55e77f32308739f0831d0a98f7a6961e4822e53027d86a46aa9c9ad39b64a;
0x284ac526379b614a14c7ea0567aba7a459c269c32fd5af192240c11103a308c1;
0x1d5a978ae2de2380a458d23f2c2c1f7bc1791d4fbeb38b6c7a356b6f033e6dc9;
0x1fdd8752355eee4ecb1e8924b6541942da0c3f56e2f6c12e2ab75eebfcd1bd98;
0x274b47507df843c5fd2f4c823c4c22057b76336affc6631035f28e57f6a6d387;
0x2d46b1ea87a9f2ed6d8665f43aa1b4f6fe399bed08d9c77bd98e82350be3f379;
0x21e50a36ee2e6ed562fd73013bb2d34724b4ef34525c51931610076b81d49eca;
0x2f0a7fda21c19ae55233db913f1dd886bf71e9a0fe12f425d479f462f1cf4b06;
0x2dc7e716c1b4d182cdb078f38ee7148f0ff45a65f7f6360a66d6a29fe78172a4;
0xa24d8de1362fe9f8f23609dee59bbb4230f39236e6729ffdd95bedcf8f404dd;
0x2b1c087ce01523c9e0f97d81c67a77014e6f791a656f8edca33133fe9206bbbf;
0x2cb13179d6e8a4ad1b9fec37376253cf64386ad905e240575fca86539b272dc6;
0x243ab6d29d356d147b7915a7a11f6ef485a0f3ef8d003ac239c0a926df820271;
0x10f0ea299cfd16da7c54cf4315a4bf993f6c8ed21e1f1b629258655bb569f3b4;
0x1057e97ac983fedfa508de5e9055c24629b7faa279f1e483a2927e621a45a16f;
0x13ecb96925a985173e792bcadd76dbf62657e8aee6e732e1fef9ceb1d86688be;
0xe6f9b2c64d9d97e1dcd59691a2944c4e610f2c9361a93284853c335ef448b93;
0xf5130dfaac7698c83247ab7d37384c6f4fdea4c423691dbc0466cc847d22240;
0x719c66d510d88d51a80f22c9ee06cab506ed395847532f0b0aef79e94ff5c37;
0x19fe7de3a53de3d0cbfbbe226c6d9799cac73c343bb7f652246d3314de2cd748;
0x1fb5113860f9c3717742da8ac8dc02d3d750447ae00236789ac400ab7b0a4a5a;
0x28637c9718b8c1053ac27e6ccb68a14daced5c24c3932460d23aa40fe066611f;
0x1049f5f885c559fe26f7d811c660cc9c6ffdb5103dd3217111b99808a28a10ca;
0x11ec2b02d176c222bc479f6fba4e427738b96aca1b7c3aa11db89b27ae10f0e3;
0x194af56781953f69e1b00c8040eae1bd59b4861dfbb3969d8161d77552233c16;
0xe752eda03c9dc685060d7d0625d4882ee9ccf2748929286db03f0a453d8c21c;
0x1440c319ce47daf613542b6085053ac22ace7246863f49df6488292e7bc72a2c;
0x10cd79d6139155e4208ddc71ac9646aeb4ac61a3eadfaf337ff97ed9109e0971;
0x2ef23590604b7f057aaa0583333f5766d25a43366d99ab87f9e290600b3f749;
0x2ef2c45fc47b175cb8c6e23c2cd7d26332ee65470759893d167772f18b799f97;
0x1e769953c74901e1cd39e0a9d7ea12db105fa2a0c3fe40cbe36965e11152482c;
0x2713a7060c9901b904ee4efd31cbe1bb0ac6efee3756d59392e8b594db57a617;
0x15b3bc638f4556ac765e5c60678b18ecc5a7aac5bcabef247da9cf116cf4249a;
0x1df44e6b43f51e3a708b7b6f7a05c67e7817d8fe6f36e357e266265e3183535d;
0x2cb13179d6e8a4ad1b9fec37376253cf64386ad905e240575fca86539b272dc6;
0xda3ee283edb0e4256891ac9f4166ba14c17436c1ff8b6870f6dea7962f36c3c;
0x2eed5fb764a1fa6cd387d19322790c87a6b6a0b13f832f24f0fa54f36aadc0d5;
0xcb9fce02c3f2f82704477407a46991cab311db6e12f14e388c2a4b6093de75a;
0x2eeba73653edce41cef62722997e5df9d2f76d799cf112d29bb5706a6eadad08;
0x4318c41475504dce0c6bbd1e76fed829f7c8a71f1b02f45eedf5c3a71e63909;
0x2a094657153ecc1710c0583c1c3b7e7966e67057c8faedd408e505127a78605e;
0xf40aee2532a088cda6d1b13c48569022dea6023f85231a5544a9e6cc4edcce2;
0xd97ae723214277576911235bc25ed81063fcd21b59e6279275f11f57c054459;
0x82f1e5e8e5087c1aefd0f4fc62167bca4b73b8009e3a67e07cefaef1e475cee;
0x284f24d43d09bf31c1b59d84a8f2ffd8b1b903a2b88827fba8b02468ff57a971;
0x2b6538eb36991fc2429f8c38483f7d4ae728b7e105b4ac6bb449258eb89d3aa8;
0x82e7991093e92b53c575b9f51f8bb8d1d2a405bb94359544a3106e033b3f2a4;
0x288593b3cdd201b3f6ee7d9ff217e0badc9dde2bb6ca2a63359ceca59ed12d81;
0x2762b0c05f66a7d3a2c4b46f6da9e207194c32a91a15d0c8c7a8601874649bd0;
0x20851ccb233ef814435570f9435eaf7cd22baf2a89720b4b09d035dd42d0305;
0x1e17e4ac7afb5980903d9faaa355d2d4bc00f661cea435cd563a0c08d89f52d7;
0x11c64762f6e40528ef5f60c4905cd442e137348737ff11ef9fe186e85d88cc81;
0x135a7893f0df31bdb093e2f1936efde3bf6c80cded53bbf23842d5cfa739c10d;
0x670c942b19efe0e24ae667f88cf25482988d4fd289852b59c7400bb291fd22a;
0x2feb899196016827ef03dffaae29bd9f7df66f312f728ac0398d2be90a10c46d;
0x23bb8acfb809bdb5ed2b2306e5870465cd881e8517cf8d60b6eacb23993ec19d;
0xa2f66d3d56165a8357ad4ede386e8bd3d2c1a6a51ec4a928d02aa9cf2c94025;
0x2cb13179d6e8a4ad1b9fec37376253cf64386ad905e240575fca86539b272dc6;
0x2621d53d90f51a97a82455d448359f1f876b08ee77917e55298b4a4f7f2c80c3;
0x2e1713aa13a1ed2a7b57ece72d5599b6e239d5fa53866e407444290254f10515;
0xb0e3135b9a9bb3900a312bce8cbfaa6bf7176bf09974e9224d63f81eeb9cdde;
0x1b37ec261be552d7f9cacbdc0d0f22ebefd7c123cdcd54a0b493db30a65359fd;
0x100051565c2e4d9fed118b55fbef6f060608dfe4555e486a44e6971696042dd1;
0x298819bac61778b218142e4fb26533f0ab1f8f40c8d8070fe2f1d4170d93c58b;
0x2cbb90e508952c4b5ed26079f85f11f3bd728140e3b8cb91c1da9152c8a82560;
0x18e9de503cef0ae3f8901d7d9004170e4661e3792b464e8d7e1a7c7f8bb17091;
0x240a6c59aa72438261cb26070ca93ef35db217770a207e7cd9af3a4df60768af;
0x1c5c0274172befaeca201df876ee39b582fa848a0bc9454f6834b073c4ed7f73;
0x1dd2fcb227876523c5d075aeaad2df556ca76939be98462768f94940ca73028d;
0x1e0ebffd9567e4222b322bd16275af85e3a09c6db8f053a7027827bcfba8a0ce;
0x549e3fd2d8b4c8f5e1f6e5ada4adc3125ece6af1041e4f297d14cc80bd7a865;
0xa43a7e3ba83061b5379f61580f17fdb5068f57a18cf3d8f4431ef14a7fd8bbd;
0x2a8c713fa0bf5e002dbde544aff988ed8b347afe2b3641a08eab979bddd4d2c9;
0x307b423ad05a7c6c5a7feac041de1c236cf3db8e0da46368ab0a5113dcfd4d0;
0x1202dca5513d8609b3e911ffc3c1f8da4138f56287f2837bc1f8820469bd5839;
0xa109d2e7176796406f7fc25caf837f5c8d2306962baca62457fd49673b0e48d;
0x2158fe72a1672fc1b0aeb56bdeceff410de2a404c9f4d7a2e39c4cf0800264d3;
0x5e83a4f3ed30f863a148e66c1771a4634ed52e73dc1f9c35e479744dacb7c2e;
0x15146f0169d0dcb2e678a62443c00442cc342091a6d18a293a17882adaf6f146;
0xe27f3790482529695293a0defd1f44495f0adae815cdee0d3ce9f91512c1be5;
0x2cb13179d6e8a4ad1b9fec37376253cf64386ad905e240575fca86539b272dc6;
0x216bf6d0d240ce8a0b430f85259b74084cf9f998823dbf13091042a32b4ea56a;
0x177227662dcc7ef354ef41fdb3f234ad93e7b70a6550e09be2c947ea462597b0;
0x1864bb94cc95e4e33b7673809909ee3a156c892cea648f047f2864db12278e4a;
0x2eba9c8ba56d6b800654a1e805d403bbaf22af7ff1aad92ab7cf420c129a2616;
0x24133306f286c04d2c2e174c0cce34c64c21f81e0df67c2593de5b422dc1eb20;
0xa1aeba71ae73f2846cbd57f9dda3c3e24b82291d22108a6a05a9c06e002b8d5;
0xd2d0af3b16bd738a5e01bb7af549f842a2a9f847063845d36d7424e1d2bfeac;
0x8e4a4d4fb97473cfd880c9285028c2883d6d08164ae7db26e6900b532e848d5;
0x2b2ae02b9d6d53220998acbb749c29f4476c9f2cd34b74c66e4f2c4abaab6520;
0x1fd0ca0b29e63609c2f6a3150ef62616a5fe2160266382030e48b29806298756;
0x11e7f1f91826d815902e2d9d79e027c44e78197f4450cbf14128d704c2dd46d7;
0x25ae141d31ff22370a99693adb350858a307e1fcfb60fe175a3279d99879e2dc;
0x13047c24823af0bdf17ccaeda371552e8834990abeb7ee7a9a646aa7bb9f4753;
0x266358e11e5081dc2944990007644733445e90ddab20cd50912c06cf1388e92a;
0x1247a2077d577a1ef6f0aefe8a7a2df21828f69c44bb89b6ae70fe9c3ee1af91;
0x2c338524f33f321e6f2e5e420edd47f14caca5bfdb7d3e065073b7b20d2814fc;
0x2ced7c9cfc6cb9727179bfeaf0ffc028a759aa44e97257f72c3467f9a0974c26;
0xe633982a359333b017dc5b4e683bfa274e74153f4f99d639e48de02fe239c9c;
0x2ea0bf1ed70f15fc196a395ac836e6a579d4923fd13be32b1416d351a05afaf6;
0x238f38e3b7a1d517e00c666c6670c099cd2bd7d8418c55facd6e511ea37c64e0;
0x2da765692bbfefabcaeb0dab3ee18797ec0032c1feb257983ce753a8f286a75a;
0x2cab9bc1d925ca3f6473d56a4c57ec136f52fcf02c9ee0e25ad07fe24dc281d1;
0x2cb13179d6e8a4ad1b9fec37376253cf64386ad905e240575fca86539b272dc6;
0x1210303a7705212e81f926482699c6d6b6aa13ba342f4576c873ce976435efe;
0x2e1fe52ad49d5b2cf4c43c7fd551fd05bb0cad132226c92b47e4bd24bde2852b;
0x16e6198e30d06c12d5535709100d47d0ab174704e4953b696bdcb8318c78d80f;
0x11087fc4daf5c010f9ea8b66e2f01e9032597965c811afb9ca9c7004e01a7eb8;
0x268cc3c909fbb19b2d737b0feb4aaafd6a2c0f0da4f6b391ead88673c187e8bd;
0x1200152bacfbb5e21565b19d0e6b47ae2714cf2bd9ae7038fe9132879d4b4688;
0x28db252e756f0ffa83fd845fa7d06ebaa301d37edf474a3b71f60539a630f59b;
0x184e95906f85e4e36b0b77e9d862fc27a56ec38c3178f8904851700c703c9db5;
0x14d66e67decb7a7f74926f2d5ec6497b965b4de941bddbd77371a3da470e5d96;
0x12a5b346904fd63b6c52f603e8a0c351d2284ec345e50518492ba935b07ba7b9;
0x269094e291d79246bb735d3c4a3df2ec9fb60a6b2f2340e63c91cc6d5dfb083b;
0x13929b4087a818cd5f602ee40afecbc30ad8ecb2b7677530094d09309808ece0;
0x14f878c52f6d09cc1b32f3ceb6f2459a5fd6668860b945b74457d819a6d18757;
0x2d91fc38379e50d8addc35fdfb88d27e100837e513f329afc4fc9cbc6fa0140a;
0x27b4dd2629f029c1ec11bb5f235252371947313993a0111e4f5cd14d47b505b8;
0xfcf71b4f58f1e845394800f32015de09e4107ce8a7bc786810e3cabb67d5d5e;
0xdb4f212a8d9f8036174d995937618dc8074ca32f5ca1bb537fbab6898dc679c;
0xfa6cd0c9a74c1973656d44ae21323b5d29ee26065906f0747bc3364d9fa8ff9;
0x2f5d612a89e3ff0157b8c05eb81cdb030b3aa80728ee5f2b484e027e9d7b587;
0x12bc2f8ea309d0aae7cf1fd15767dbe97c288b2d72e1ea489a383169d7e5cf07;
0x20e5a78984a6e437e16aafd2e43f119233b4bb35cfb628aebcca0ab3b102b4c5;
0x155ec9570cd3e503fc1c73fabd38c4ae24d31e5a38bc56c992b5817c9a58c18d;
0x2cb13179d6e8a4ad1b9fec37376253cf64386ad905e240575fca86539b272dc6;
0x6a4859991b82108283b6091195b9244714a1997a97833c55c4e15c00747f5fa;
0x1a17c910b931d2fa7fbf8d41a1ce86a3496148f0a62cbb541a94310c3bb931d6;
0x13c27123ab15ac6f964022f94aefaa51f07391afc1095d7480acffec7e9cd6e1;
0x171c742bb0ca2a0282f5fd7628191e6ccaf3e32c38305a00f6593b4fd7527f9d;
0x16cf4b06cbdd21c5afd1ec787847f6956fc45cec34e95739af5ca67c27da7729;
0x11e51d4503b1aedbfe993befc9c8078b70d4db75556da4942846d22f217dc694;
0x8afd62076c7f946b4dd61967b32a6d09e794888c2702acfacead811a4fb4846;
0x4158c5f8f1b10efa12aab63546ffc8f065ade0bb494a31a58391c41f62fa841;
0x2f87837b6f5f2807659ec7565173893f91a4ac26b6c2e26e22d09a417309dd32;
0x7c728d2e8d95bc8842ddf8db4c76412aefae425c2774ebdba4317ea783345f5;
0x1455d8963d76e99083c896bf0f68f63db992b86a913f3b123a98889fd61a3b0d;
0x8b4bf22aa0e03b5f857a51c0e04b64565f59c87efb6859f8c7169dec09e2841;
0xed823b8b9d0f2e0b0c6aaaf3e5621308414d4be94ca3ccbc6c8aa0ce8e1b4b9;
0x1642b64b6547c137ea9d16920d1d4273ec49148369a457cd28f73cd9098ee6a2;
0xc9d91924e007af49ba20f16356373ae9cdd408bda9255583e41c1079c5c06ba;
0x2f1518b8bcf463362e1e927f733dedbe8817de8dff121a6a5527b33e70778ce5;
0x2114e089d96c5a4b64b2a6ad154fc6880bcad9eb3e8cd1d3ef980efda445281;
0x1abc25ed5c0fae93b3813bd8fda0cf773df41cced07a8ab762fb36b6564922f7;
0x2a5eddd216f0eadc4c50a2618f44a4dffd68ec6af8f7c0bce1a45894e6cbc010;
0x75e0d34b920790fbbd21418ecb62663464bcfa06db3581dbec635c8cf864ec9;
0x27b7beb430a31d0967dd287dea9fe9d0a16def46efb5518aba65fa025d82579b;
0x270bcb008b10d32d8b92753219422002494e30327ee71b2379b09d5a8e519b9a;
0x2cb13179d6e8a4ad1b9fec37376253cf64386ad905e240575fca86539b272dc6;
0x26c4a3b0ff9b7f29c97c01b4fdc65d8ed1a07717da9b297d3d2a855fda54bee0;
0x2c6dfb52d9648d18f5ff9db4e213c6c94f2fb8151aeddd80a1cf95df1ab4862e;
0x2f7b7e795fd4f392f9810877d44523a6fd9ca59bf9f6f15502f4449b6fda8c85;
0x5722aaa2080e70ce91c67932130feac2c7ce93eff67e453c4a10c7923d8282b;
0x305247769dc2fc18b8f32cff8b1a08ebe60b0ce5179bc0fef9e41893007050db;
0x25c0007547961e0f368c5bd7bcd2335c7d35c1dcd4e04b169ea6676a2713ebf;
0xaf75b019c88a07fb24d01cbbb2ea86e75ce904560f06eaabd617cc627ab0cec;
0x4707e08232d55d9c5a37b7378d94cfd74933b1f483a6db89a7f7cc83d17a228;
0x1cb2bc2b494b4a6f9e502992730dcc6b94aada6d0a04a350087b3c9866c448cc;
0x292295bf6257bde873af036dd6932b623fea12bb31928bdfc800d1a6bdb7dc5f;
0x235b612e67013ebf3b74fa41157682a4169a17315695f54c73f290afc4574a3a;
0x1f412dc0da42db6a648c19e9e9119b157483bdbc7ad3936efb9dcb3e72e12114;
0x1402bde219d915bbc5f2958edd28a107072ce6cbf62346462754c21d6d5c9d16;
0x265eef82382e05522d8c113ab42ab0b09da4c166e107b2fd0cfa47aaee5f4756;
0x2b329efeaf663ff307ee9a682f883da59ea63242aacb620b61ef85c0110fde26;
0x6004617ad663a46e41d79103d1de6e8364d2fa582271da3e8b39c01adc8aee2;
0x1a10c1c3bdcd43ffa6ea4d58f408cd7d0e74a5ea38656a1b6fa88e2013025d55;
0x9c705ca1ee96783e0530b69117d99337fa1aaf04c5fd26e5309c0118f4bdb32;
0x978aa5435db1ee6896c737ba36d79120681758793e1a1d56718f6cde533dc5a;
0x1934fc546cb215a23bef42d7124ceff70e1d469081c2cca343a9ebbcef1ffa60;
0x1ea452043466f1c5d8f26fa48267014833214842b2d204fb253b97c9b3deed6a;
0x876bcc65ef05f89d90f3a96070a57d48d6a2a09de2aaba161fd6b9e80cd6ccb;
0x2cb13179d6e8a4ad1b9fec37376253cf64386ad905e240575fca86539b272dc6;
0x1c9f9742d4bbbb6c9dec076b4b9c7ebec120c5740e04e3c62d0c786af006a303;
0x18d9f9aee0ce3ea08d9164a5473ac114ae755c25b4f9566aee1c90d0a06e7029;
0x22476bc02607cc745322595d63b98eb70db2782762e548e023837c9fb06021ac;
0x22d83381d8f8800abdb2cced36e1c1d1c2f552594bfd9990abe06d0757eacae2;
0x16382c1df41e7d0a3a4958656a42e3f1f314b21ff463c5f959b51d1a6c40118c;
0x9e76815d09daa33a324f5d1d2404b3ee419b8e9b8833db59110c8d38f1373cf;
0x1b0d5ae4cde6fed3fdef9312557d22f7da589e71e8712ba7d2986b4bdda6206d;
0x2940f972586e13b6af08d49b838fbcdf24fb2a8a03f069ba612b0535ef94bf6e;
0x19edcab2af3f18321eacf5fc4f3a933383d26aa37b1e3049d3c36c11c25f60e5;
0x2deca7587b2175d50de4645fb5601b2599f5eb15ffdca763f0a24dd1dd4e735d;
0x1f816bee20400357b01555222cbab8bdb2b5a6ff8aadc19f911042092e96a26a;
0x2e950640b9cb8d14e70f81b06a9dbd4f5e01b81c448cedf2c2ea0b753d550e9e;
0x6797a59fb805d4ccc041166d71d077763b50b1fac685126c84402f02f565179;
0xad20de820c01db5e4c800abd15e3239b53a390d4a4a60348efc2dec244f81d8;
0x174a6b87cea8f7dc3a7aea08317bcde182eb2aa39c927d46bb9b0dcd70954da3;
0x2cdb547394356c92605c7b43aba9aeed3ec33a6ad515e55d8df4e678487186df;
0x2d001f86169c7feec284389e39745c1a64345f978bdefa862e8c73f7fe610d98;
0x2e40bd1d9e8c6b483f91eeea0e7f4f210aa786503d225e1fcf41166735737b44;
0x149aa5d1015e9f2c509e36e547de312d41fa3d5d4a8062b05aacda70ea3923ce;
0x284295e910196398945ebc9090400de8e5c509dd18ab3f4743a5eb521bda7d66;
0x1a1f21bdf16296101dbcba94854f7c4b05d206a1d08b8796e6830077ddf99070;
0x257f8d5e69aeed2ff7e194f398daf84d053941bfc75fea450fbca498389b2218;
0x2cb13179d6e8a4ad1b9fec37376253cf64386ad905e240575fca86539b272dc6;
0x215c6089e0a9a6256c901e33e306ac9c415abc1875a49add4de6d0429fde8234;
0x2cbbb480fa68f33316f0d301f3cbcaa7eaea71e2784a0fabdccff2aeba9f718a;
0x143619ab2212d1911a586be0f6acb6b8381e47b5a3e34b91eed83ff54937a34d;
0x2385e3c9ae95a0459e974d29cf0e35f283144cb2ba13aa914b4e17ae5c988557;
0x2bbe7e909fde4390a7cd944e0f309103447e91f3fad40b752733063fcea07054;
0x24303758e4ea42a45a0419d88e426c95c68ca5811974c5b0c3abadd9c29d2b5;
0x260bb40c5f1b22fb87dedda1706c608f78fde0e5b9735ad1fde63459244d4674;
0x21f27302db4f5b28fe8845806f38ff1f0a04e28434a3e0043bcb57e65f6f75fc;
0x16c95bed15dfc954a1a4ba25327ee14c5b0dcf76fd8dcc529027230e9c4a0d97;
0x20996392773e30c8e64d792b010907d8848f28f691e8b2de13ea8226baea34d8;
0xe20275c14333df445b794b515bd07b8bf90bd8035cf43cfd845976af63519a0;
0x16422819af615c4a947afa3e272275b5d5bcd75d494042bdc81d84cec30f7f1a;
0x16329eed1887886307c5a94706efe31795136ede8e9511bc42c77ffbdf22276f;
0x1e9f59aa3535d598e32de9a4a370c6f4e5f8e6090a9efb2181560fea28519269;
0x303df7dae20bb862e852232d75fb4f6468ab85a1d36472c3dcf567cbb233dbe;
0x103c4294a67544648daeda2ec0a2bf81ec40e4c01d75d35be0a04fec32907b03;
0xd9fb810fe920a795ae2c3dc1b9bac0ec25aa7df2e3628241ace688bbf78fa7a;
0x235f2eded2c0024a03e1f050c1a32820b3c33f03445a830bd06bedc4654bd320;
0x27fe4a10ee48d2ced432a47a2a6dd4083e4fdb9d9cf44ce4889b9c7d581ba529;
0x5c97d4fec77f242636ebf0933f378eeb74467faab3477d6b8230966db1e9e56;
0x17b0b7d570dc76bdbf3cf5d3def37e0a005c9b4e0b39803490c012b453ed60b7;
0x4013b73ca35eb02837465c016ae8bd13994c335fa05de42835003ac53ce46c1;
0x2cb13179d6e8a4ad1b9fec37376253cf64386ad905e240575fca86539b272dc6;
0x4ed491d2af18388da53711df4d29318125bdaec68f9134c1b3f5e3bd7b831b9;
0x16e1f43d878d2cfc40e58b5e77386d360cd3937828d8630ac2e736de89b0d118;
0x45f7d97cd4d95f8e4e65c183869d4c15d354db95e5334ea1a5f3a0c34ad3bbb;
0x242af80de0ae9607f5aad4250667e1cd450995afaa5293ceb1f184cc97ef25e2;
0x2d149e6319f8dfea1e2c1893f5afd8325013eb9fe57e79b3655d626e748d931d;
0x78a606fb0fae37d1e1a6fe99977001472cb272a670901f0da8e5126b3ef0899;
0x1548a537c3810897af4f919f5e48b512eb727f3c47c53cd3ffcd5e3a559640df;
0x1e3e9d29194598291365b7b7deff55f05a137b343cdb74c00037051b96cdc202;
0x2ae46fd5b2a10a6908761a50c2f71e5f944abf11b568e0a070fb4a4cde0e9d74;
0x1d5dbbfd82c2f3704059a5e3bf3db7b7f4dcfe27bde2786ea26063cd0921cd0a;
0x221089932e5ffb0d72b8d896bb8243ce3d6adebcf7bae4ee56967e2b34a63946;
0x2a5ba9e0c62d377751d13b5fcf5d8e7ba1087e74cf277212405440b3a8fa55ab;
0x1ed96d07a94876906d0828524563f987414b2a45b4891092481659e053c7294c;
0x1619ca922cd3654f97cba5f102327d7d6a0695bb3af22e94e33607f545c24641;
0x93f881501a90112f530fd9185176fd85475f3427ec133cb5bccc6f277a16adb;
0x2417824b008ac5a7e819ea42ac2e1bf2becb58661528bdc20ef63cea2e355a7d;
0x1efb091123948573d0c0e6b95a628a617567971c5807c5d3e08bf566a3dc874a;
0x1f2fc25f030934b6115600b1453820c4c70f8b454da461bc03cf773d033c0fe4;
0x263a77c0aa2edd316947006fbbf4b3cebf660809da89166c7041c52169764b61;
0x15d37f58a9589edadb9923907f947842ef6fb4b61251f8373b973dd422a1b940;
0x76d6d847fcb997548c2b12beaa6a39876569f53e881ce861d85d9c41ce40820;
0x1e220162696cbe1575cc2f4dd2fed5117c116d52a9965b434ddd7913272c5c6;
0x2cb13179d6e8a4ad1b9fec37376253cf64386ad905e240575fca86539b272dc6;
0x12eedc290453cd77c01e543e57d4d7ae0f6e7a76b576e880e852ea8b8e98bdc6;
0xbdc3d78a5d0f3a92fd690b227d948ae6ca94d4342ece41593514efad7086439;
0x2207296649856f043e2d7158f68f5b758b354cd022cfc04e811e1bbb4d3468d0;
0x21430ade4c0144f819a79b2b6f849a968fb758f76a30f3e20b5f7999110f35f9;
0x1a70bdca6f11701536dbe4d9926b6bea87a08f6f0efa754b1132dd4e123f7c0b;
0x285d8e90abc1496915dfdb9e2a4c4d8c42126a3f15f4bcc1d8dc721fd813fae;
0xe57676068d4b4e3a856f2cb7b22531f5e51bf1c6f09e35a645aa8953bc45ede;
0x1053abdbffbfcdaabe5b794ee6bef5dfa367d198e7644962afc90f37590c025e;
0x11660d7d44db731012b02f55c5a19e4b1a10041e0085aff26ff088797f54a057;
0x2bbee9db0a412ba731979594cea45cdea2a1ea40c90bea1f3ace29d4df767920;
0x119c59a67e312da970edca383f4e1cc1752e7fec6bde83e437acd6136e4dd63c;
0x2a861198a0bdb354abc6d273b4f13854cd31d745e627c21ea107620242a8d233;
0x1a8ac82f57894230abc7f3d010003d5914170d820095f3bbd01e977142351f12;
0x3548b5e02d4f1f988144421ba37cf75fa0963b14c2ac961ac494828c1e655d0;
0x2cfe3bafce8aea2bcb3c145ae29dedeb9ec7123b4f3295bfa5d05681c366709;
0x274f38fbc034b51b94982df30832c69961d65637f808541c50a395c8e0dcd32f;
0x1154c2e042ce659dfe447ef58e09e4514726945cc5abde427500fc5411a8a365;
0x2b6203e305e19b7730ed2731f994303777fc1c2a52422d929ba6488c2c164c3;
0x51917b944afa399ea1e621ee2ad62ea629a35d29387be06c077b79b9569e2aa;
0x7cf3b4f4f274f711a4bba652eae5fcf6c950fcdaf92e77c118dddfb738d9ba7;
0x1184568d03c28368300bf5724d6958355470e629221f5221676f69e22b717352;
0x1857839c2d8b0d6d08c21279cb8a2cfe6138df1eaf6649888cf540965ab3c168;
0x2cb13179d6e8a4ad1b9fec37376253cf64386ad905e240575fca86539b272dc6;
0x26518ee75c590976af8e213b42e5988a7185438e593c9635a28ee89c60bac357;
0x23645455ddb929ee2b596cabbd5f40df59e219b4efd8c1fcd4fcb67ae42bb5b9;
0x16d0126c2df72ad69f419c74741165bf6e9f6c2abbe95a022efc903b62d25ebd;
0x195050200adcbdb5e72bd63ed3e1d4d3d54e4cffe5a5fecd932e9c5684021dde;
0x23c26b8f07749697bf6982f2e715c91f541b173fa0a3e8dfcb6bca01499134ce;
0xffacbd7cec2233ce5a4b911dbcc61f87d759ba6e46780179e75f91ae5a720e9;
0x231a2beac360f4917f433d7ea9eaf185e270778902e6e090ee5e207fbd0575a3;
0x208cee18da850a2625d1500f835a216ecce022c8b08235c387b8cb1865ed8a59;
0x2df938f310cedf2df8530cc3ea5ef1254ed966674bc08ab3f1ea148057b6c9;
0x5cc71f44f496cfe8d69850022a141852f7dac001fdecce67de6265b69dde3ef;
0x1e04cf375796f4714e6b51552107036d16f71fd0b77e357b61a2014449ef845b;
0x177060e5eea7e3b800aee099735b074d3bee92ac18918a1be042ad000f861c17;
0x27f7183ac04ef3b5307e450873f5a4cbd1ff709677de1a3de89476a7562127fa;
0x272c4143f3f48b711d9e78964d27fde0614c2844861b23c1ba5ef6321fe64877;
0x17c29df44b208e4d5b70aa3b57c92d0c65e0c4d780793000ab5b3ce79e90ac48;
0x8426585ef062b24b9c4de439e0dba038e9d539a54ae8c4fa6554924c0f6b03;
0xafaddc71d356bb01e344c03336f6c97fcf6c0ed9822cff5114e85b7fb18f3c3;
0x27de3d9113a625f578e74566a25e54bb1d311364887d455699d89e65379e11e5;
0xe8ae5a0eca1465645dc6b31f66d8356d6fcf434daf1cfba59ab08a91417e81d;
0x1e41011401e99e5e548f813eb6c091f1ed7d03c1005affd1984e0149a2e59836;
0x2fdde0adafb47ce46bd4e5d31bb8e840e8b2edded884c6c0522a0a323b078403;
0x6d047a14724da146ae1314d38a559303e53808f6ffa90af4f2db3c52d2946b2;
0x2cb13179d6e8a4ad1b9fec37376253cf64386ad905e240575fca86539b272dc6;
0x27e98739b0e44313ce32f7c5b552a0814abeb32da96cd82de769b4d0f5c94c25;
0x96c0e16b0dbf141e6bcfdbc0e2f49d013f35cac3e4235db39c5cb35f96a5e83;
0xa5a4adbd74977d24c7cee2d6421ee7cf5e0534388e5f9e09b811a0544d1ee3;
0x17939f4a2fe98de1c4f37b079b35e28f9fd918492317fe59311ee844fc3e773;
0x2fad1489f14f53e5380db86b119e1fc4ab02fa84ec4b0f283bc28cde6b738aa1;
0x2765769537137039a892f1c38aeb083dc07de1b728a580fff63f9bcaaf455bc1;
0x1e31bc0fe231bae89cdd1ee8c3df3d8b06da2f88825e635df9bc7ad5c128f2da;
0x1e516c3b9ae36f836ab9824f1c10b86a622b2f49f081cd7a50ae5192d296eabd;
0x47cc90a4be717883e0189e898fa7d9f1dc998f91d255553a394b6b798326043;
0x1c56d70a6472d972e35698eacd7ba8d40c9fe9fc9b04927d06404ae10ba35f53;
0x205c05088541f74e95a23f5c7ee1d9913978e98fa759b621d0d2e3b0d57c5807;
0x16874f1578735735add0540440cb042a966b8ddf3e51b4d812c673776bbc47c9;
0x240f602afd2d97888bf4b64b23d6e44cec734a2746cf4580c430f72e46feb453;
0x1abe8b11e0bfa0a5829568b66934e5da83b778ecfa452ee2a6b7140e191e7b98;
0xc276760c90c65c9f228140185e42f3a7806840c8825bce562d0766a06dacddc;
0xab7dd18d0804d394424f2b9e37439eb4bf3324198c44e7acc78d2e595d7dddf;
0x74abe46b34d1daba12f1e78e3cfbe69a30dcc2b090897c040564f023ef7b9e8;
0x2f240ffafdd27616a2eac36181dd8e9d9ff82f62b54537c48d497609858280bd;
0x1009c918f84e7180e4864c0e20912026c62699bd562ee5bb24a00fd69a30332e;
0x9e29496159b70b34f9707a8de9ec2cad82369b2d16885e98bada319d69e4512;
0x21afdfa37d1b9218daef0b7abbb26e4d623f8ee412934fe8ebca9d9fcc2c6672;
0x1ba7bae9ba2546ab2fa904877151066a9c5cdd44107d8aa829ba8ea0610b18b3;
0x2cb13179d6e8a4ad1b9fec37376253cf64386ad905e240575fca86539b272dc6;
0x2048256f57c9c8c24337bbfbd097c2627dcc0c2ae00ff560c3e82d32a55a4d4a;
0x882758c559a9a38ed60d1113da22600ac3de62a8cc88e904342dfbd81f58058;
0x54f6c1185a58025ca382d00657cea60c9667682c060fb5f2fad74f3d070d5a8;
0x18da33071f0ebc4b2962d4b061144009608aae89e8285a326c0ba8eb0c370153;
0x27102a58751c96a0afc1846801937ece25f59ff76675758d5388cce403ab4af3;
0x234028cc85b8345eda398be9f3fefbd6d59973ded29c6ee52fca866a07b1f7a8;
0xc3762675631dd7b529256732681b5b48ba5fad34019a65b1ef191b9211bbcc5;
0xdb907e69984fa1f803f9f19d603391ec580bb3dc8357d170e3d4dbd9c107e6e;
0x1c5a1126b94c62d06a2b2ec580e5e4a165deaa7cd1bfb0872440de9606900dfe;
0x2e3aa301ead4fdcb606e9aee72ba7a2cb90ddfd72162ad9478e94699f776f6c6;
0x279d20b786fb6a7ac5d4fc5d78faf9c47a3090bd561b2fa430c5db64a552396;
0xa951ccbe5d7d13404cce3fe60751477ce1088102dfa3732e323d055cf38340d;
0x26a8d4b18704a5aa8e41ea652ce2f60e7975c0b7eb478abc55ba0ccbaf8149e9;
0x787247335760468918257e7dbb38f97dfadb60256f603d51104f62e4e662953;
0xb0a7b524cb7c7519436167aeb4b5b185d16c110c2b36f162abfca872b3f489b;
0x1efceec837f27a592824f15644f3889165bb1bc56d5566179a951333b255398;
0x2ffa74a07ef6aa2579a1f68f1de64b58eec51380c7dce9b8966c789b4777fe01;
0x304582e03ea48dbf3043bbaf216ea5970d49e23aeae55b774ffc615ae80d1be3;
0x1fede6f02a4595564cd768fd400cb5eaa28b2ba191240030e1d757d6a019537d;
0x1e33187373750a7f284427194876c8ff05ee7aa94d5b3514f6083990d4ad0561;
0x1c5a22361e914dfae231d634ad2c502b20e84feda4d506a1b7955128e9b24bb7;
0x1310273c02734e60e3b1f4c7607a48961c3ab97ed9690c2b26c38e36cf56361b;
0x2cb13179d6e8a4ad1b9fec37376253cf64386ad905e240575fca86539b272dc6;
0x2eace5036bbf892b106d6ad25bf3acdc3c94834e60cd380a1815cc4620e79dcc;
0x2cf399b03624f2fe3ddbf48c2fa326e788f3b6e4b4469ef0d3e6c0cc241b7ba9;
0x22d41054830f4b29ce6882b49839e9942ae7a1ae84b6d366a98f42f7baf9e188;
0x15ae7d83075b047fd367659fb588806f23b6be3b4690cfc3ca92c61e71f5c765;
0x2825fd5f33d362703d2fc902578dab75ca7076ecbbf7cc916d4ed3dc43b3a0e6;
0x12d12504ba541ca2b28129a673acf96d4f246e340574ffcdf24dbad99bd572cd;
0x29653490a05368030d3690d4497e930fd4370b0c89d5996b75b420ec803189d6;
0x21188ecfc9b8a96b6dcf99b67bdf3866314046229ec07c8767cc26ac6d2bc169;
0x4ca521fed16e4c8271f4101514280093d189d84bb4129d2e54bbb1508b72908;
0x27d867a046afbb0c3cd2eebda088e476752b08c462fa1a91effa16d22403e4a8;
0x1e754e7744482f6d43e6990f631a35d9564f0485a116ab971d7c1ba0fc6ad629;
0x1dff12c679a235887e6c896304b46e3833f216398da1338be75ddfba2d77bcec;
0x1029ffd3ca881002e4f00872e7af3299d9ae979a0d9e0236d8bc4a6dc36dac09;
0x2099a9d66b52f0ff88a110bf3247146dc2a39777bc01bae0ca27f3b3ba3f1f5b;
0x212ed3e424ee90af48f2dfc1828a78e4c50fab366f51ce3fa716164c89787e85;
0x3fe48adcb5e56246e6cc8968bc0a62eba94984a1472b01f5a4475628aa38cca;
0x2d726e790f68ce53fee0841e1a8b8fe36b8a756b3a0444ea08af369ab6ff809e;
0x168de57f2f5a7a31b7b9c96ccb8fb7b33fc545cc19452cc7a5342b70cff74ba8;
0x1bcf256686de35f672d4e52cee81f74c552e08099b3ecb8c8e8348cd3f36f2e5;
0x6f7d1f39f8bc8fa314984d88fe0283e64b452e260d4745f9514a012c31cc946;
0x267158ac0a27dd2e94f422285ee979565877516c414630ca5911efee1a8e311;
0xc4d16ebd4cb046bf8e0e7fe3218a3f23551c79e8388e65b1c7a557e2034f957;
0x2cb13179d6e8a4ad1b9fec37376253cf64386ad905e240575fca86539b272dc6;
0x22e7f291772140723c33a8ebfe15373f0468e295d1b724f6e94d522abfd5f535;
0x2c5cfb9974cb2299069f8e21329d54e5ec4f6b837f1727daf66a21af858b56a8;
0x27a1b5dc716f8f70f18e6eef36ca15ba5df295f9b6023d0c8b860ff0948ae9cd;
0x1510814b5e9ea61f47e924bf9b21496b391e2efd97554b057bd9d6905eaf28f9;
0x21ce0a7da429a54515927fcc1791f25c658766ce48934cc1937dea204f64996e;
0x2e2617468ade83de353a5a7cf3ffb4aadad12b05bcb65cd570c7200059956b87;
0x284052fe9e822298ea89afab784617fd413448012b8a713d8b8db7db9d111f;
0x2f1299ecb664233c145d53e9ac62772c9f917ef5fd354f595fd151a739610f2;
0x2a89d81e36b4e71698dd2968fe86c8bf4acbeaec381985f3a5e67a5ea1318d1f;
0x1bd908426f44f80f02514742b4860a72c00ae90ded7aa472090e5c1062c3e764;
0x1a43e9dac11dc11ac20f3cf1edc5eb8a25dab4389d675d9322237a05cfc6b95c;
0x2692699c30d2cfceb23d589df2a5aed5a8219ba6c436d0d920033b2254ca6a28;
0x28857f7da86b117cefcc105f4e504eff5f11dc71e1e3718d7ab027ef6383aba9;
0xdb4febade50738b1ab87405bfd46d20cbd4a222a1f1f8627752cf1b9a76c6e3;
0x18724360a40cc50d7046eab1f3ccd6ded2edafc5cb4cbffdb9bf734c1dff33a1;
0x2187d4118b5f752636e205eb4982247b95dab037310349ddde471c782e60fb2d;
0x709ba7ecd374680134ef58e9403582339e3a55166f7f3943f281c57a275e588;
0x202fd3f05d2bd8e2dbcf6e44d3ee0db6cf72ed53b00b7f0785605d89d139ce0;
0x9a760b6af4b4eed3ab69ecb0498a75fc71b815b6bde4a569d39b6086096898d;
0x2218e6abd4e31c4e2c4e21dfc8a266e946c599fe44b9813f282ef3ac6d24ece1;
0x3fce74af211c178898a2bbbde84568bc09b8c2228481f7ad87e7b1dcde6bf8b;
0x2201d6ae9382dc02c5345b141db249c120b288860ec8f99d504eabe8e7f23573;
0x2cb13179d6e8a4ad1b9fec37376253cf64386ad905e240575fca86539b272dc6;
0x17b549a98305619700b722d1392e3f22f3515c947ca97bde2cd79a761dd9a7c;
0x1321911b787b6c29f58b50a53d66c5f436848103f333aaeba5589e43db1208e0;
0x9ba5765272979602f4c59c7d7ce1516f48137e61938e30460d262b22efe1fe2;
0x1705b7f07f5aabec51703713714785de6f86c899d97f3d89ab53459801ad77e6;
0x18ac4517cd9c3d9b13dd398e5ce614022042b3ccc82fc8bbabeae938af1e896a;
0x2d2dcf4a755c21bb49b4028fb3dd8bfb641a08f00d045285c0ca64180234a26f;
0x2420e764bc7ba63b706b6b39a10c092ade7b1873fc1ae1bcecb8374934383116;
0x10eaafb36f88f19fdaa78ae39af01dd9dd5c3126eb87df41aa55ac344e440b2c;
0x1adb582c6692385a8cefd33e6ed3c7f23a3252dbf4ce0ea80b2cb5d957844a53;
0x17b3f1bf0717764c2f01570716b665e2ab308ec61b511dd3e65d6bfca9030a1b;
0x27953c6c48de10d405e8225bbcc73ea9fbfdfcccaf0a3eda80ce4d7e5ec27214;
0x15e794fec75f7c4f7e63dec570cffae247d8bbb1d0114270d44bd7ddb5ab3c80;
0x40632b4454c59b282560f814afb01e9f60c4f24013cb1a8d450f2e23bce9d5f;
0x1e9c0e04247d8e1f43b71350d991413eefb67c273a3ada726e15d81737717a6a;
0x2f8dc731a366ddd2b76c0bd1418bc03b207d7065556f4796cb325b8dd1db30e;
0x24463e539fa612ef3028038bdadfcdade3c8475e0637fa4b1dd3ce10b0aacbbc;
0x28762b41feb35e6509ad33ea77bd88983e6fa85ca2f6738a1a1653d3bf54d52;
0x247c44be326d67af902022444d80ea90776936a81592baa6702002b27d6b0737;
0xa8ffb6524fac8a3820378ee0c9adb2345fea97112c2bdb9a57dd3b04be7f63f;
0x264d334f14801fe44177ccf924d22e91f3d98e1cdf5c6388b735d60fa32c7000;
0x1a96bd9bfc5432ea29a24ae3c46b126769d2d8f05cca70dbab11711117f2ed6f;
0x16542734a0c4983f8b8203a8e67f1c2290f7de67a02b2e4285bf5d1c3049eb14;
0x2cb13179d6e8a4ad1b9fec37376253cf64386ad905e240575fca86539b272dc6;
0x46208656464d4ae0a420f4aebf63b775d2974ee08535ef11014d4400cca822c;
0x15f6a9ef383741e16882272bbeb9ab135f295272ad7e45a26e063aaf656094ab;
0x40a8985a8323dd3b2ad3c285159f2f158db48b9fdef72c8c859a462d7f117f9;
0xb9b4c7ded97f1a7fbb1dbccb8fad09ada8183cfedb790e2f11c77074634a80e;
0x10700446bc61701c9dd17bc4354ad727247a997ec9e541ee42d9d0d2acc376e4;
0x98a404fdb1c37a38842752a31bb1d2bb5112fb422bab40a1b546b97c719d923;
0x1843b850d5cef8871bfd1e31525996416a8550b748cc9fd13fe42aa1f7193bf6;
0x279c28f81499a1d819fb67132c84220d124b668cc206dbdccefe9478358a97e;
0x1d6fa109f9d33d9e144c5b25fd5b2f189273545fdadf88af3c4a7ef1f7189e35;
0x1e89c2383d920c8a80837bcaabc2ae9060bba4a520fc7eaa7fa5dd3dfc18d5ec;
0x180670edb0cc070ca05eaa724cafb4ed020561150ba343ac5877fd8585edcdb;
0x44a14d1f731de503ecf2a6438ed17ff8a552a01d9fb66a36fbd08aee8a27a6b;
0x1391644b83aba3c7c86a81f240efb147fe4c1c53e08ae3d3b0aa02fc1033b02;
0x1a9373fa92867334ec17aedf833ef19fe6f67a68d031f7a088091730b2d5bc91;
0x1c5c46a6852eefafee39b8f31935c3325f450000caddbb35538f8dfa02b3feb;
0x185b3aa7a434a7225057c6bcc8e68180dd404e58e3f0a8733fe64a0c1d534102;
0xb562eca994127ec94b90e76255955551cc1d6e8412918f9aaed138e19cb903d;
0x1ab2db0ae479301dee234d231988298fd46bdcf3d1ad8cc11389ee780c0af1f4;
0x2ec8c3feb4e03afb11402d5929fbc332b5bb7109fe326a5af8613dabe9a6a94;
0x4dc3fb12329b17a70b760ae75d620133889283cbf88035505ffc97ce4641bc9;
0x1297d2ec92df98f1ac1a318dc100557237dd9c4a96685f1d58d0fb61ffc4c094;
0xa84c5d2f491a40654df4992df98f681f157bc9fb4a0a6ac1aad9e0e994cddf9;
0x2cb13179d6e8a4ad1b9fec37376253cf64386ad905e240575fca86539b272dc6;
0x1be6b03ffb55eaa0fcfa4ec007ad655c776ddcd62e7184dde03b1c90b1af001;
0x2910d31a4ab9e0aca79eddd220c56905bcaa2dbd29b6d7bf389a4c50666219a3;
0x2839abe3d67b01e69ced2af2ca20db9b2bf359230d7bf3c6bbb79232624a57f4;
0x2d0c50609fd4832ac428bc6ed4606dc5e5cc48e9965c600c81325a8d4ef87ae7;
0xa9180406884b203bb35bafbcf2f4abd0ffe90aa9e3e1a82ceaff556d2e22dcb;
0xd5e3761475ba3a3d55133eb45a945042ee26b747e3eb42a077749f4f3676e4d;
0x811919e5bf03ee004979e2164e244f1ec510eaf5fe6e5107e5e6f4bd123f77b;
0x23d92b35fed4accbdc074695f6d1393c5c2bf6f2167fe239b2029d56579405b0;
0x100576c563ad00ccd2b07afd817dd2f8dba2535b5c38de7bafd08691b04933e7;
0x24cd184d143196317be3f594f8ea091f3442abcf3647c50be545e510994dd90a;
0x128748993a58cefd65bafc84f486488896bcc8088006a3f7afacc28afd6fa380;
0x126980393d9f697cfeca3c8cf5aa466cf7699c7b24ed1fe2bcdcb3d98e01eda;
0x3d53b1b0659c95cef35a515696e13d67643790564a80ee3fbe3c5b2ff7dbb69;
0xb1cbc1218a01ccaf22711fcaff805b05bffc45d21458e41527f06dbf423fb10;
0x2d2b944d4f9dfd80472bab4f0ce520fca635f74c8b9f1e1ca0fd52ec8af49ee0;
0x286ea70600778faee3383939faead69a24821fb400920778c7529a1b1c90f54e;
0x1238e08378044550a836bcfb7129f0f0d6253eba654e96035de06513f6ee738d;
0x20d38b283f1f0abbbd99af81d226cc6503ad86ea1a2ea8e9419ef15a74f8ad57;
0x25f5d1c94a4423c994f81d1f5726c8133c5d2419fa58f226a94c09b61815c2cf;
0x1ba4948c72f33685df0f9eb2f6678fa6bdde0ee261faab0a63917fdc30f0973c;
0x2a306087a9453e96d0007ac70600c3f1e08b4fb5cef04232b64fe8c0598674cf;
0x9e528bcade9d9b1e99ed53a6ca87dd8dc46140d57d0699a8f120e0c77af65bd;
0x2cb13179d6e8a4ad1b9fec37376253cf64386ad905e240575fca86539b272dc6;
0x2a779727d7ab06dbd553a840294589296f3aabb6a314afb5b083f650e39db967;
0x11aa7127dce97c6f4beee5dbdde1d5c7de812e27376e249f41a52171c108324c;
0x2e6df565cac73a4a04c2cb1fe541d9e3df002054622c790a6c8c778e484da06b;
0x224c4dec007432ecea73e548cabf60846d0e6b72ed2f4c907dd9e03dcb381e92;
0x2095194e2ecab4e0e731ec6e1cbb0aefb3bf646f6e6c804be5971167ebc58f76;
0x2ef057063be57233d59137db76c7252f1d2cbf5f3c4c6c8ccb22203c98d6e2c7;
0x15185ba1b9b8060768c5af0f70636dc62fc29ca5100d76fd4f9c4767e8f87fb4;
0x1ba274d2184bfef2d0be986fc2d41617f43d29a30b328b6ce3fe41a406669532;
0x27528f734c66543901cb1afad7414892ae14cdb75ed5fc59fedcfaa399fe74c0;
0x1185229ce9c183d7dce8a64999623a469392ca6d2e4f72bc2b6c4772a6b04896;
0xb36b20c33f83d20c1c49c00c65ba85deee8345f8563df448993a99bebbef6d6;
0x1ee843386b3aa0c38471fe7c60b638218ef9266b542a9b1526deb8dc9aa3c559;
0x107972f77e0382e5d3cff5b6858e85fe6ca29cfe95b60159a9dba68cf55ea21;
0x2fc46021b9841db9dd3cde3ce58785eb5f5b9600c8d5c0f4086130cbfb261f5c;
0x22b8c705b7b675b691343c7f19f68e23745e55aedf5eb931c37bd89563f14a8f;
0x1db0aae1de8a581770c890de5e66c763301cc6d522ae042db366f330e87013cf;
0x2b17c19b2ff64a3d9a5bd5cd0d4a21cae7b7d7c899228050f593b2da46652d3;
0x1e3a4c2c9686927495d6cc3c6e90b519deff0b55ee3124d69ce5161c91119baa;
0x384603dcc8e7748739a4f85462cee5fbc25345e02db231f40e50a851758452d;
0xe842866ee1599809910ecde3d7ca9f1d867f96459985ba119b51066866224aa;
0x19c09d8567e90a622516fd1973ce27ad5fcb66aba8b248d06de9ea306a6fb2c0;
0x134176d3a40f1bcad9f536bb92b8aeb9a4c3d424b14cdec9beed77bffbe754cd;
0x2cb13179d6e8a4ad1b9fec37376253cf64386ad905e240575fca86539b272dc6;
0x1918c06693a26c41f0025c99e93ab46213ddac227215fbe5d1972dcdb6265afa;
0x2c2d3ad00fcce75da6a5f510d5952918f446016a8fb4b1dc41af9321803468f2;
0x18ff4731631733dd9f048503b481b9b7abd2ad7dde5a002d8e0ffc425f574c09;
0xd14a3159cb458b4c5d65765b15c56653be2cde202d8b285f5c2cac7e01d57eb;
0xaf7d40dbf6a9d2e138095f1499e6505c326422282f1bd30fe98d19590298e96;
0x1f728b62200f84d56fd916f1033868066c5ff9eaf81726ac8f43f08f311bd806;
0x2f1509a804a1e612847578f49ef3d4cf0067adf3c3575dbab3632f6e6e3dd5c;
0x41c67e015b3770721ce4b96ae6219e6813ccffb152dbfa13fd37d25ba812f06;
0xc336783fc41679f67e808e2eed1be9cda3fcee2b04394812df95f9febd467a2;
0x1e34badeb3d92a88aa84decc7b70ea344c8852c9a17d3e0dcfcfd49f9d103548;
0x2539fed64ca5f8bbd4016404921a292c7652ee3a7fba314d675e02ef29f01095;
0xa83942d60d14f46c3c9cdaa90390faccc4fcd2e9c3ec8cc06604cd51ac820d6;
0x2724f8dfd70e0094d613f65f6b48d42e22a961d06f589ca1a64b74e0ba9af8a5;
0x226e101fcd7f365ac33c608817ee6a4c143504927affab95f4d7f95da55983c5;
0x295d81ade71715f0c9071986b3771fa8621bf634006463df3b53dee9bf37b189;
0x14aaf0e78ca5884fbdd6282dc2a2008a1b6165adffa6e9160a9e36190eb81afb;
0x2652e6b66e323877eacdc4e0f32dc9f72d692ae7501d7fed6c96154529f45a39;
0xfaa22bf6ee7ed51ebb087c35bd33ed34bd4474073349a80e9c9654883091a95;
0x12bd1d8d922cb20e1d0e02d066b120f26a1979f4374bf0fae43cdcc0e5a366f3;
0x158c1a5307ed0d18b58986c274968b23e404084a78aba5687e2e2c4f009606e6;
0x28b5ba99540925c874c6b815bd7303dfbf774c5e1012ef2b305ca47559f597b3;
0x2b845d95e442fcc4bb8a49be773609957b578e19ee28baa880226e3f911d26ef;
0x2cb13179d6e8a4ad1b9fec37376253cf64386ad905e240575fca86539b272dc6;
0x1b66e79c663bec66bf23b5cbbcbe9bac308c47817c3f242d3f66b6d565be3b9b;
0x79f775f411c9c90149e59e6a34d6f6f47947db4337d9d3c18bc4b51d4cad270;
0x3009d6cbb50dc688b7404cf82d589fbad43d0742333927bc049e48da6913e606;
0x1fc70661054fdb2111e49907222387ad311058d73c0befd6314478175e356942;
0x1ee04e8ba0265fce330585518894029b62d9bd50c9d0a6f87f1280e82859e9fe;
0x644f526b432da58421456fd00e0e29291e8d0df2ed27626c42d503c62e4fc9;
0x27e99dd0f8fe2ca6883ea897815b333de616c56c483c0c9e45283067dff3c4b8;
0x581ac976cadd2b1dfc14d8b3cc604f1e8e79dcfef24b8f67032c18b90c17e9c;
0x6750f648570d1eea536bc3842e8a9673cc564c9784e57793475bcdb399457fd;
0x15822b758ce9dd864fa21222839e7eea4132d1b800819ea095a6465d9ce6044f;
0xd9ee290eeb8ccad8fc7bd054d7e10ff3eb0e3615f770151fe6a276d53da7738;
0x2aff79aa26d195d6001c0805b35a8c05a08b59a0e819c7689f176ab29deb33fe;
0x237fa4d9fa2fa84b58ea68d75927afee778a5e476073a9b30d6328ad62f2d807;
0x5d20936e308b6eb8373a899e602831ae0cb091abea22cf044de6f0cbfe6723c;
0x20470a9f2d2a3cad5d2f92c333444b429333625d0e07e064fde8454fbee764af;
0x2e5ee062393b836f391171b5c738e5d731de49e833031ce97055486def2d6a1b;
0x15066a745e56deeb113b9dfa9e92ec1fc4003f8dacebb4f2f0a591e9491a96fc;
0x15af3f3747ee7d63738b4b137be08c44f0c90448307d1d2d97788fdcaf30238a;
0xa9db2ebd67bcfd0c5c2e2baf93fa206537a0be5e295da9334c19515018d4dec;
0x9d819663eeedf9ce5b97d71abcaa195f6ac0ffca2e4a99d89510bd29da37cc8;
0x43e45a7ab55e8ed770c8bb140c5cf98a079f0a286c76abd11486adec2b9a69a;
0x267390f339be917c18588ec7f9b53eddda42bbad0e44351d1cd46421389b06d7;
0x2cb13179d6e8a4ad1b9fec37376253cf64386ad905e240575fca86539b272dc6;
0xdd2adfb2aa3b4128b087b5250d5e754672ef02ca8495a5b8f9c2e51d12fe27f;
0xe44bb76a256740fe47a818596b6dcf40b9db85c744d3701bfb808a00f7ccbe1;
0x68a25d2e27da4305caea7b47ed35d9712720f654d72d094e4d9b3796ce88a27;
0xa6624b2e2d3551843723976c9168b1acd3ff196804a6cfe61555ed0048c3554;
0x2830c3937da98493bda628849823e656aea96f309f417ee6a4907009a4957fe3;
0x1dbfab542ad1a8d1b064c18f2da82b6e5320e8285d33d524229aed44da0fcfcf;
0x12f049967453bf43dacf198aaac17d184f44850bf49820b37f36df953e57b08b;
0x2ff0b4f794179f6cd4d0431d7aeca0e320270aa3b0e3f63d832f1830ced770f3;
0x287045969073b1ba8007b65f351ee152d9bbb0e68c75fcf8a3a3e0dc9cb9935d;
0x88750a390f67a5b19a63ee69e6055949015e796d41a2150f8b83f58c1086b4e;
0x2a1b684b9357c3b9b675c9a56d3690d3b101ff4c50d5b7f97d68d6a247ad6e3f;
0x924a953beb10fdabf6088068bc42d18c47a292d33fb12b1dd11c0942051a5f6;
0x5fb81ee2e1ac5e198c62ea767270d3b52af1e24d4d6857f82c2ef4b94f39740;
0x1afe1a783a2d68ce8f79cacb2bc57502c6c5ec9ac0bbe35f55b34bd4d944e15a;
0x128e66b9d177d588af9f9a10ebd195f03030cb2806560ccec1c0469ece8ab9b9;
0x2a89bbfccffb647312f31a2b0b68d731f65279273447021b716f8d7d1b9eddbf;
0x2d2c1cc8346008effbe81b219d8dbec37bbf2a6f6dfeeac3b979b761663404ed;
0x2a10df4948ebb56a6d1edf6b2d7bc7d7bc3b3a6085565a90bccaf53739093eb6;
0x29f0a91579b0418cddeb5fe403d13c929178124713655833284ce4386673625d;
0x2d60032c705ab2c8e457ee0d225acb206a5cabbd75b088d97656de6df83db165;
0x1adc61e3889546408f21d1e1cd9533415a7cc177598464799da86e31778ea854;
0x15d24ec281355e28a085dd996ea0c90aac7efb5d87f9bd70a2a6b9db6b50b7ba;
0x2cb13179d6e8a4ad1b9fec37376253cf64386ad905e240575fca86539b272dc6;
0x1be40669c4305af08dd9cfeb05bc7fcfa40b998bc74ffe11302c4f5b0553a38b;
0xde0e333621fcd0fb11e36805f9722b7d5b53bc39cec2c63a02ff853f30c04fa;
0x20f0930ce2a982f6372e84ab5310be3beae1b0b7f90b8e562c26c2e757702d47;
0x299a425dac7d3a4c877808a7459597fda5984c422b6a994d81e195f30385f8dc;
0x2f3b6c085ecf99a58b7507dde8971a225c511bd6f802ee3a6cacc0530e8a33d2;
0x1dbfd1be6281a5c77b4fb2c7dc937a25dece301dd371ff67769ec907ff76c72;
0x2057718828a717820912bf7aabe85d74d0e759d3357db223cfa111b82ef48f32;
0x2634e710d328db82ab3d5c000a6e16e4cab4cf0b5c10975bf684488df5d7767;
0x1508d73e31efd2a02b601a7151ca176fc79f3721fa686f737d66b4a43c1597d3;
0xab1c757a2930fe704ad42fd54b19104397077d5e52947a92f810b0ef5d87871;
0x9da497dd64c5e3273900635d09193df06c1d2426a0fd73d7dddc99c18daddf2;
0x2381572e35bbe9d3fbdb3bb1f1963bdccc535817b1d3c077e51d7fa9cd9a6cab;
0x1435a49f928494a49e2a67e4028810e23b7f26843d1e22e2d737b40f01da11ac;
0xa41cdb54589156aab59180023dd35374103e5a4bbe746ed8f2fc3ddb26f8e25;
0x14c484fdbe36491934a1eda09b63b86d803e7059cd8e3314e8d774b7910a7cfc;
0x2a77a4002da2b4e2ab43232ac86e8fab1586b84ef60705d4f5aef26aa5421749;
0xf63b8eebf3c4535bda0b094c007bec3bf0ebb888ceeb957858bfd41e3b33a49;
0x1277d3fe5619089508669b1a53372f2f10ea0acfd07e684219b7526be3566d69;
0x242bed90744413a413be2f93566487aecf7ed35f2f6886e79b95fced93648d2f;
0x2f421f7536d6fe02069b4a2be1adef885983ef7ff87af5bdbb73904f96cc7044;
0xdcb8d37d53a5df0f9ff37d9f8e111e005d70c93bc23557f6041711a167e62a4;
0x2b8d52018de42ae27a896a6100b02cbb428bcef7fc95c21e0631a0edd273ecf8;
0x2cb13179d6e8a4ad1b9fec37376253cf64386ad905e240575fca86539b272dc6;
0x20ffc046123c9e7c161ec2fc0033671938b1bdbbb51504bb48a6bb7691f867c4;
0x37fff4149f4439e438ce162d27ada4858d0292fdd5cba6ad88b72e73e552b2d;
0x1de8c8e615fa608fe89f596053f7f2aa3b21158cf1116eb6bf12e98bdc5cd339;
0xbe3251cdac6825fe72f5f701c19215869c21db3e146faec1b7d83e291deea6e;
0x25cc68e0156fb406fe6a1d01bf926214705937bbb2dd5af7d2feb70cda04b273;
0x1e6d41a49f875455a20e395c2f5466ac44d906c5b77e21cab176934d6ec92fc5;
0x2e67c91faaf0d61303858bdce074a2f61220d62977a4d6963640808413273f31;
0xd12fb42faa45cee5774d38145639dc1393ec43ceec5d54b8d81f8ce3d74cb49;
0x23e70a4146133f0a77a4e1d743720692125531e4b83edaf6cac156afc870df9c;
0x2df6f710ec27c2d652198613afc234f4c6d65ce1cf6b5488b3984e0976f75cb6;
0x195ce59e69ed9141b51479ba07aebb50eda0d40c16335c1dc3371581b006b9d8;
0x210f8fd97f1707c4ff9610daf5bece6fd2a7e0b4c61801662ba3aa177decc92c;
0x25f1b7680e11f44ff74657d2d3bd43aab044798def28b435e75686606d12aa67;
0xb2c75ac5a5fb6d2b4fd51256d3aa84daf97cd4611e54b1ce9aec26e298bbf88;
0x78398cda47317311211740262c08710b86d61c54ae55636a4d15220da5b85e4;
0x166af5abc6ac2210fc2e48e17a3426b597bdcaf849cfb535d3a4a83a16fabd84;
0x27194ca79ac4773ec964accb35e09bfaf60f65fec69f6c53a45ab6a7720410d6;
0x10c46d3c254d57f49a985c74732f27a402232da4419eee8d59c39fe0d25674ff;
0x1621881967985ae3b969ef554ded7e95027c80a3fd24ac8233b7204c46b67b15;
0x28e893994343597be2f4993da693ab68a1b6530fa187e0708e6dddd65e19f65d;
0x5b240574850357b93cf99c2a4fa39529f34cd568be5b51fd6bbac19d66a13ce;
0x2a3e91c0f5583245a4519e6d5fd37530ea97eabdcd9e0d2655ac4709a88e6b58;
0x2cb13179d6e8a4ad1b9fec37376253cf64386ad905e240575fca86539b272dc6;
0xbc9156ea781bb2f4a48a6971a1463c341447af7640c0dca22fee678aaafa67f;
0x216532d67a620605bc236aa3d9967bba132c18ed4dc9fb1c7d0b6e414b69ed68;
0x22ddb91daa4a4545901d12772b1442f5ba4e85eee6a77637fc31bf513fb116ed;
0x2683cdb3a1a277aef9c2b9cc42d9835ac8731f42ee8c1d97c91843e330cc797e;
0x2be49377140f55de27dd9605e7ae0438bea87e1027be1ccbd27547bb1882a71e;
0x3aca5d3892e4e23a82e32970ae06cf7944979744108cd4014495820f3f3cafb;
0x67c57ee42c925a4fd7f0b70805e871b1dea5c0c64eecf286f01a7f82496d0e;
0xae7cee32928e8bb4b2e5428f6ed56733a955dbb415961e58bda4537603370eb;
0x270c6be726a888900c325fce8361fee0766b4178288e29892e43ac4bc5a7a53b;
0x2dc8ef31b5b489de3a0218cca5215bcd23860891d4be8eae01bd6b6a9fd89e0e;
0x19643edd20d71982a49a09cb1e0db7d981d928413f5aed74a20b339a45cb3a1a;
0xcac86cfd70c7bd0f964e2186efa830356866dad5402655391b164da07230607;
0x1e28a98366dc2b5a1dd651c8cc239f7d6a65784260e4f99d5f22d3acbf089df3;
0x65e579467ee3caf9abf6427ee70e3f04350efd4f240a721ecd614bf510a6d15;
0x625a0ed5662a51dd09f1b361ee979a3d90999de6544dd012e0a3d0ca7f54290;
0x14ca160eca3dcf16f63e65745c1fc7da76bd228af16cf74d2a322a02c2e63e9a;
0x174e5a80b5654227609644c29b2ae1f7346475075b95bcf09781b29dca6da8b5;
0x159f373903a0a9fa1b30f1e77887b7f4a13c034eee827f0bdce9efc244d50300;
0x1e6a451f0965435e18b8c68ed523a5f5700731fee946b446a4a56d697a65e136;
0x292002d89878ccb5914c5d7951b45952eb8a48c0d4b8ca78af9db15c0fffd2b0;
0xcc6c8b2dc526673c038b258a850a754ad3da11b01690ed359b1073e37ace2ba;
0x2abfd63285e9ac80fb865ff2fda5da230f278f9020001f8172727bd6f257059a;
0x2cb13179d6e8a4ad1b9fec37376253cf64386ad905e240575fca86539b272dc6;
0x2854b5984bd6b9e733809dfce1d7fe5ba63fa8d58d57e4cd9f540c2368db0dd3;
0x2e88865414f2b4557548e383c7f525f471c9fe0d8d64f0b8001e630ea88ae41e;
0x23790eec3f5a240f8398eca3719dd949c4e1b4c483a16aeb268afaebdda79a0e;
0x2fcc8669dfcf04fa06c75b022b77b84d090df3b822dbbaad1fb8e3ee948e86ee;
0x67fef650a45711037a1f204eac29045803fa922ccf8ad518334c03a29178838;
0x248f8c46bb3f0bd3aaf83f0c410c0e56d9dec620820ae91d41c03c288c0d998d;
0xd3b6a0004a85b63a85061b171d87480cb262b1fe4ccdb71be2114f4a8b13fa0;
0x7b065a9ccab6b970669bc32838db4c48147f0661f53929f561a7a835fb9d567;
0xe02b6d12d48362677df07056afc1bf5eee55cdeea65044de0648a0c7c0a7894;
0x2fab90c9d26772010fe914e4b88a71e32f5563f4d4a138855f7ab4247252b84e;
0x1989c2e54741cdcb6cd94407dc6ed84e7817384af807ba6ef8b85d4bcd313c5d;
0x28de889080866bde3f19d84b253477607071c34e59569f2fb0aa180b44df1418;
0x2804b79f457cbb808d034036efba0011bd3ab0419c39b094a7341eed26a322e4;
0x24eb9b802012e11386b4ed5ac52da70957cefac5d3911ec1f042917e479bfa80;
0x1666ca210112c32bb19b256acbacc96f58cc0fb7dd93874d50021fbc631b80c9;
0x20799de358137dbfbc623c6e4acadc25845bd214d4073f52b8024ca43d99cd34;
0x1bc10c44525f82f98f44fe8951d669c8bd1087ec8fb25d08c5da11ef1117e052;
0x1d8dd037d73544d78d4811ce0d6b48264449172217cfcf67186eee425e18cbd8;
0x2fbb2fcd6bbca136c183d5f94582c61f194aab068f915bfe0d85cc5d4b82bc08;
0x1eeaaa5f7e1834a19655d80bf2daa1d2cf50d73d18e1973e6a74c487030474e2;
0x1f7eb06d961fede066bfc2773ce8f36dd7aa35a727a60780719f0b9a627f56fe;
0x2981fa5e6672d977bb169d70e070e73ab9d7c3f20950b3242e9295b45390f46f;
0x2cb13179d6e8a4ad1b9fec37376253cf64386ad905e240575fca86539b272dc6;
0x28776c75f54ae00f3190d1e711194bc03ff39d248d96027523b166f942920a86;
0xa4ab73336b833957012f0e7bcc36899849b2db78f8fd707b692578e14b80328;
0x21ebae99beab3aff541833d68c75fe506d857d8919a97e07e3902b919d3e143b;
0x3029aa9bc55b8d1ae128f45ba368cfb20896feeabf39b966d0c12742bbd28bd7;
0x239128973757a7e9c8d29d5336d1a53b277387b48afa946628f45d03eba49de;
0x10a0435f8e32fcd6cd5d8ceb3a3c078227b5cbb69966a76d7f1d751e594479d6;
0x2f5d49c2ab9c95d09cb160a6ddf47a0763fe11fc3504478e45d1d07e641ab29a;
0x1181af9db194b4bdd65f61e51a4f7d562307f5745522e265198b320ae649556c;
0x1b9d2c4a0df2bc6d9d56c76317180d89b9660b0e3ac54e2e7ee83868ac39a621;
0x1f5c2501487912b1ef65f072a108f1e6cd640b1eeb0dc7dc0d579032000b8570;
0x72c3f6dc95aebfeabd7b79bff8d0073670c5fca43b5b067caa4828e67bfee02;
0x2328cc21742ae15efdbbba3067e95d0134f49ca25303ae9872315e29eaaf3d1e;
0x1a2d67aba6dedc8f6838af4f2318ef7575a0de251cd8bd4b9944c0a96d703b20;
0x2eaf6ca068bbcffdf36dbd475ae928d10a2055dc10da29f77ccff5204c506876;
0x233188598d95df9ea9c86b38db0027051e6a4bbf4bf27711ed16489783187d5a;
0x7b462ddad87175e51fe8bad7cb756973ce7763ea732b3f64dfa38a0a0cbde51;
0x14bbd08ca052562716a460cd30d0c3d20a21db0742da1e4021feaac3a8da738c;
0x17bab12d3266540f45d4ee8beb4e4f01267e296fc291ed54d0f4181a87e0a53a;
0x2a168a263170030f88743436b706dfe82da391914f492e7c48a2f62d56cc9d40;
0x233927efe170a047d3d309380bcdd2d2c7bba7541dac277c6cfcf3d1bb16571d;
0x10b9e5f24f1f4ef89886d8ad3f571f8f3e8633eb6a3ce7a00551d123a1de0548;
0x2767b7f7b872770da90c9b9fa57bbcd766b878f7bf6db0a1249ef4dab08c56d8;
0x2cb13179d6e8a4ad1b9fec37376253cf64386ad905e240575fca86539b272dc6;
0xded85a7aa57678558da049aadb3f84b88357510e6424702731b6f39e9824eb5;
0x66bffbba5403655a7eff0286ea82797fb1b78ad448612d5e5ffdd513979fe8d;
0x2be44851213461736ad1c62746a446b9b9ea157f592c1d54f3bdbca0e81b1d28;
0x13c7aff223c351a0136cd825f10e41da937896c3eb153e712cabbdc0dafd01a9;
0x1e1295fede0148bb32d784c659938de19d63cd8f070b793f4af6987d4b0a2ca1;
0x108e731bd672ffd58f3bfb3d66c3281da9a79214ff667756c3193331f15ec2ca;
0x28ee2087caa404a7b9c88d871ea969073c05aa2d7f8c8afaa372fbbd29fec908;
0x1929e70c3df9677a16e6bc3ca6c8f45435f1781bc7d3fab5c2d9f21836bca492;
0xb328f15c14da87621bf2b7b1482557b0e1e4b62ed771ef0b5c0dc2839391a9b;
0x2463924e854fc278f78d41ac3ba4c82e9ae33933c1f673d8fb988f5257ea48cb;
0x206b2c50fbd93e4ab16f20b5e1dd4e31b40b410bbba02146d1a7e7120a0bde78;
0x22a8169f4dc83f66b725c9db0aeaf6944c49f7f59e084741b74dc75f17a2d582;
0x131beaf6c38d2a148c91b01285e728d83c5b40309f89f2ee1d69ccac916cf9cd;
0x1f2f76bc23a46c9ed5441b8e0e91058e2eb16165ae943eba8b61f7629f38708e;
0x350963d2c0aa84941005b7fc8747fc61365ae03a600af938753c62384223d64;
0x1f43a719acb173edf3cef4ff57b3e3b54434997e03bca2ac3164d6d206298ce3;
0x2ff2c8be1964373563d96804dcba6db4f2004109e4d73abe431271981c9c8004;
0xc8aa745ddf7f419258d9f829ce7abbde1f5be1343ff89d90a597b8101cf3317;
0x8ec029d60cddffc7b81dc89586a6afc233826c1641ccad7dce7da7a0d552002;
0xaf6f27d2211b12aee10a405ba1959fba32e4da7012c94dfa822b683857685e1;
0x23cc9f4ca99d30fe0d7780397d7281775e7359c3be70471bc6482193ca3b318c;
0x5de7e88f631488d23cddebbab25e128f8cdfb524acbbfeaa7d2d0bf47c2e7f3;
0x2cb13179d6e8a4ad1b9fec37376253cf64386ad905e240575fca86539b272dc6;
0x2ef97e821dcfca90bccc266cd3b7cfe86037c961414b970511a845251204cdf9;
0x1e74c0e015eedebe75a4d569561ce744107d8f4f5406e65685a60f97c00c0c77;
0xb9e7e57a6287f13cbf8760fcbd1bfb988e1dea2f70bb4352fe9acfc560d3a4a;
0x1daceec3e24e703f54a27a8804d960d841af5a0a10b4ed8f2d5aca46b61ebdb4;
0x14add4559507a7ff29e4e915a30bcbc79787408a6cc31c071199e81f03ed1b12;
0x214af846405e33b9747a25b176edcd7c1934c101d36a2abb81c958a8be7c06d7;
0x8f62c1e4c1e9fb62f1ffa5b262df316e32b769414445444c4e345b6e6a8e3d1;
0x281cfbcfd9fe3fba3329b1e3d6da6ac72e3d401483efa9946cab0ab530342c59;
0xc4930b204d10bf30ac793f21dd5cf84cf084aff28fbea40474f34056c4b81b8;
0x75717917a0d4e210ed37f81df652af88c78224d99d13d46dad5a3d040907c65;
0x10236e639476d565e1de655b0f816e859b5b3b38897ffea9ccdc9d95580dd0fa;
0x16535568d792d43083a2c8a155e09645cb214c088e40b70589a610675f2b9bdf;
0x209b82d2cbe5617f7cf4b7ca05f0bb1dd80dc2a652b50a23e68de856334edd78;
0x10d0843c37e9ffcc0692fe6018d480df45f96e2ad41bf9539197ebb12ae5dcb5;
0x175f7935e1d6d289b963b039c85cb1a3ffcba2f681cb27a6364566acf5ff2d1b;
0x12f9631f7d9cba5b34733142a23a76a4e9bd76fc838bbb865a72aec17a3ba09e;
0xa27aaf6ad1953f49c5240425b509144c9998735a59e27906e98518f7bcbcdf6;
0x339c108d3ddd07caeedccf45ba3a1729cec3387338d45fb0b7b896faf618118;
0x1c7eb764b1b6372c8a7f18549edb2dec9e713ec618365f169f0633181ed21da1;
0x2d06b5cc446ac8715cd21b1c8889728aab4d3b5e7f4eed7faef3530fe3766440;
0x183445f90535b07b08b20073ba06950f500eff3d0962ef609a221fc0df504b0b;
0xe05fc0656468b85eab718ee19bcd04d0154edc633843570adc6e7d10592445b;
0x2cb13179d6e8a4ad1b9fec37376253cf64386ad905e240575fca86539b272dc6;
0x6941082d94398eebb54a701966a9cc45b303a0989725381645fbd0ff97d9d66;
0x22ea9d22606530112502f8e40f9277e1a334e8eeb307a03e3924ab8c6701f186;
0x16ce67e884bfd1782872fcd65b18b3f27af8c1edfc8ddefcda53f3669651df33;
0x11fc35853f485f0ae0902c650b9749b481e336c553fdd90f9767d8bfd52c63a9;
0xf04c0f3525c56f533b23a4dd4deeb7b31938dfb1531863ef1c2066e8758dde0;
0x2e15668ff3beca65235e7912fed8b7ccad0928136db06090fb6938ace207f363;
0x2fafbe916d3af6fd0924cd2973e1e2474b10be1db252cf038fc32e732484bf7f;
0x9749b2bb5e6668839c8be56fa468598f7292780e294e47b155c12322e34a0be;
0xc81643458c5af368b81dcb405aaeb3000b4c0ba29c376855470cfbf2c35e3dd;
0x2f7745d6f815dd3cbe2c529c63f07d4a646015842c6678456406a248252d0f78;
0x2540261ae5b2a3becfe0ccde660cf756cfdfbe8fce0713c061da7eae6e5bffcd;
0x1af533c9109087f14eaf413f798f4f0e8d9453e7cba136d9f5b2e680e80ac911;
0x27115fa52689f8b86f2966af42504d25dcb23d541dd6a1f5d328b37b9f982352;
0x1f955bcb282c2c0e74b4169a61a510d4fa506ec8a905051cd4fbdc9ef1130654;
0xf13fc20a68d983add2992ef921aa7d9294e574b8a0c697c5d56622a585ef6b6;
0xe480c1fd8e61a5ed800036d9110caa9a55309bc46a4fb1d7756b7e96ebd2768;
0x208a8b0cabc7890d78e18028768a0a37120ff1e0d81cb9541bbd781d3fb5a679;
0xa4bd40c175726b644c3dad0e29d158fa1b1753a4a59a1606738c57026eac391;
0x859bd87fb95504fae2c58816724777f1c93a172de0b231da82c08935a950dfb;
0x1572f4f0f2f44e7ab54f3d0ee208d13bd9f4a16a2be71600d10651b35483ccc4;
0x2595802b887ba581a6463dc3dd4e29be1b0977c87a724078d84fa16da9b8adad;
0x28290084f5f35de74591e06a61e7a1d696a79b2fb8db90d5a3deebdccd483987;
0x2cb13179d6e8a4ad1b9fec37376253cf64386ad905e240575fca86539b272dc6;
0xdd61a5489d4bb7be05223e75e80040cffa4469bbc1d2ecee02d0d5d99412e85;
0x6c52f4f90d713744ace66a17d3171c6d83f5abea58367a3aec7d538736ae17e;
0x284ce8cd77c9caeb5222618bc77d4c3d299b41cc74812489591bb1f23a5e8a14;
0x1e914c2446466051f961f69baa9b00c56f018232a1cae8c6933a1a54efdcf1aa;
0x1f9f1d5d61c22831aa9647a5b81bc92666882640968d63c03a338173c0fc392;
0x1381629462428cc21dea769021a08fb83f68960303ac1368cba88b871865f06a;
0xb272b9552f9201b03d7ebe1a1887c7f8271ebab08e81ed125a70c8f7764e1e9;
0x7b4d12c7e949d4ee6e2e0ea93dc105afbfa277b9373af2d12a6ff64e45356a6;
0x1b38520ba1c4589fd42014d6e8049acbe95daf2c4c2d910c44ab141a86e21ac8;
0x1f9ad110bf1bbcba3edb9173790599a653793009ec8ab285cb9567a868e41952;
0x2e5b599ea8d25fc97e621eae08d130909178d450803edf6e853584304f3bb0ed;
0x1b15f498744dd45c644224cbc078e921f7c1b3e1af764a8467257d6c069fa18f;
0x1d4cec7d699719620437c0a48f205caa856cbfee94146fb0d1d8dc66c465f4a4;
0x173543ba0e2d1b252191c8b9392abd96810103fa3057903aa1697429a9bb9185;
0x1b9df3514d0b3177ea22b6d61bbba61e6ecc5ef8766404333fcf6f91da0127cb;
0x2befa98a6a5c83888ab8f22f9504c9db9faee563278a894ce253b34980873ec8;
0x295db1d483a66191171deb6a0b95d08b843827b02f5e691aaedb0845baa64d77;
0x16fce7e0da0af20b730d87e50ff3b8153e377304d9d262bc3c1e2b4438d0e189;
0x1660401c207ebb47773a099e512b117987bc8d102a2ca0a7cff9947e2f2cbd4;
0x1bde105e9ebf2795607de216e544e9638fb23ef1f598ccc6066a5b1acbbdc1db;
0x5ff2966cc2aeebb42f6cabc2aff4ba67881a3653168b1da8919ea64188d4a4c;
0x1de18595180cdece76bc7a389c725303f8114625785e4f8e7cb987366b7d8b50;
0x2cb13179d6e8a4ad1b9fec37376253cf64386ad905e240575fca86539b272dc6;
0xb75306c52e9faa2532157457ca751484e5de2cbea41a357481e6be641c4feb1;
0x4c7855c4b3a6e6db0595c294ad58c4c3a41ab7a671608e04eadf389a77d5dcf;
0x2596ff7a33d026067f427e76dee78cb0cc93819ab599c3bdf93191bb9797a3c8;
0x8aa0063dc5903d4aee032268c89e865b3269d7545ddb1084af2479f55225ade;
0x1548a8bb67459d26258983882563f449a56c01e3df7a608d086eaab22f93708e;
0xd5ce47fb827e13d9eafa9befefd32eb089ccf1c0275c85946e2dfe1f43e8cc9;
0x1b5f4423b16a0cb4af1f7bcbdcaffdf51b021924dfab1be7fd33a56647a51999;
0x18d535b7160e89968c9633cc71fb2d97df3139814c12fdadc1e5a6f7622a7c00;
0x16a0d6cd63bb6b5ff4c2808707201602da7d6b0f44b701e8393f98db43c24fc7;
0x232c12d6ce6ac0ab8eaf31cf01f9f8d2cf50d24b18ed216c6292672c8d5b490e;
0x27fb96c5c58c40aaf14a9cef49cef5a5c0b60471fca8e907c4d56c092d8ba385;
0x21ad1bddeb6296215e8e20714f3c301769cbb0436139ebe0db55fb961cf97738;
0x19b16870babade7b8ac30c9e62817064ae98a876c93675b2398533783343e63;
0x16fdcef57ba6577e0c963d013271e70215c8a3bf9e4a0d6f93be6a4e9faf2d00;
0x830ce701a93a0d7f92677aa65d53ff28af57c823098c256fc1470b3005f546e;
0x2295d7c8b14f2ad4cbb0f762a54c58383fb6a8feaf9d4e9bde35b95fe58ca05f;
0x9b1e43bce3e52d112b238e8f72d93493f41a8620de6e4dc9b52cb5a2a1f3dbf;
0x87c2f1fe382f705024d1bdcb8fe8adb33b82361d8cb931ddee3f9fafca2e4a2;
0xb17d752334a51d02c091a68034489d30b3b4c7e7659422e50b32d07a17a10a6;
0x18d4520269ba2bb7428758e1c74bdbcedf8f058f696da3bd8fafddc3f2543e88;
0x6d0e15f1f1c2b037bfdcaf6b1e724b26ef28d76640e68110d50e426cafe5688;
0x29b7bc033acd92ae8a6df93def58d498b79d1de519f6aed8de984fa296d8d9f3;
0x2cb13179d6e8a4ad1b9fec37376253cf64386ad905e240575fca86539b272dc6;
0x186d603bc6d93626732b1f85ea4ccac141cc8f45799dd48af4123a4f2e7a13ed;
0x1e9fb44d51ec4915ed9a5809c50dd0bfe11b4edc69e99befd9ec30604445abc5;
0xb48f62bf60c1124bd7be4e0b9ee6c66a642918a465fa1a50e1ab500d677cf85;
0x247318154581bff6dc6333cbc14ae74202b1d419241b047dc891c0f60e68abe3;
0xb26cbe5ceca89934bce5543f84e42bc739f25f298e556225742d987b0e6c269;
0xc60ad9c62b74abf92a69f3f0c2559630ac51bc8f84c426130401b7890278a30;
0x1b0470a9e3485e6cae2769f6a9b7aa5e3b56f101d7be6bb7c91178d594560e44;
0x264d68f9e933b7f8263a465260aa839011aaa117eb02358945fcce72e0c93e2f;
0xd93de8429c70415df7229fa233e610689e3145d5346511eaf5b8de2543517d6;
0x24a99012c1ed7a1245f507ad4a9c8534658a4d1ae47ad653903dfccf66b4403e;
0x7da99b57c2bfc56693da809691737e832191a765a51a276971f167c3a82ccb6;
0x1cea1b13af00acb6c1f1596831afbd4be16fc313d954baa221204eb1035a8a1e;
0x123bfb0630e8aaf56cd3744661919b2a88c0dff13bb0a571aab5253f98bb4762;
0x1af132231252bfc602eb9d982d46f7981470c1f81d33bc2d50764daa4d0c33d4;
0x2dba0bc37236d5b612363efeec5db5c4b8dabe365af1de7eabc4307d5d13a0e0;
0x221ca65c9a1d3b45b69170b26e5a64921485f342c9d1796042a9d691dfa2b626;
0x497f939c6b45ccc29d57e1291021d7fe4186becb765967766b7ef50e5f2af6f;
0x20b8117d0bc5b325f5a6985deb0ea6c119add748d4432aaf52f1f18100c4c4cf;
0x1fa73e129c14d72a4e3d45e1044b4e0237b38cd5f7a44284bc0e35fdce08e666;
0x19f24a1c686e20b06039e60a1d522f8d521491a40698ea48a43219d401615c11;
0x21f4738cd989617c3e28dfb8072f349b44fadd5bde90f169420bec4a0a89655e;
0x14d1cea4227f6d369bc6015328bec36f0dd3cf1d9d2d088b5fe413ea7faef3a2;
0x2cb13179d6e8a4ad1b9fec37376253cf64386ad905e240575fca86539b272dc6;
0x985ccba651570f4575a0ed92fc815c4d262c6bf7b880a4a2e9a6f062e0539b7;
0x21370081514ca3496f035319fa817e42c182855c938b09f5737bd5e0b040d387;
0x28d51de160b191dfe5213005f019a3873bb60f2b9679a3df65617502d21538d4;
0x1ccdc75e435b8deeaa4b0c8b715f0831dc225c7538266e90609f6a6285a2bd48;
0x15ed8a603516e1f5617875a6146dc9c8d511cd100f9ee41a1fbdfd5810408c6b;
0x1cc5e7a4d7ecbf4bcd15e2c0d54532f2c6f367980d5afe4e148b7bd8137373a4;
0x2289679ed75bf564bd924ff42f14a4f63663e95822eba74b35f6c58d6ff54ecf;
0x28a844dce08ee0b8fb55e7df9630e357928dbef92ee9be0c0163b51cd555503a;
0x2521735424459701359a4c27c2cd0d55baa5380e4f4a06ef897b2ca89bdec56d;
0x225abd618e11689670409cdb1a66ab70d077cdc0f5efc2b387258f280a24c36c;
0x4d7a23e3eb7a46679ac5fc1d8a13d1670dbb5f00343cbb20893fc5576120b65;
0x166f7e2b14c9b1776ef74e4dea3147b014234f58ad5ca5a41f5cc40775185157;
0x12681987c944d15c132a93d6dfecbe502b5b7ae4daced230eafdb89d3e8d4ee6;
0xaa7558052b83cea0ddba30060b4b443b3a4f00ef388d98aa6081641e7ab58e3;
0x2c817b2fd2e5ec32c6bc84f11b3c63197aa4ae8c2f372952bd016162c5d71cb0;
0x11962159a017e25334049df13f2bd013d77cf18b3decc7f66ff81041dcf354a5;
0x1d63c9e5c4b133a0511c8624795f54474b2e6e465afd90330f50a44eee9e57b9;
0x2d82e29c044d1096b8c16734a6f9c726ac5c5b47a199dbd7b1aa0792a16141e2;
0x1b28d232a19693543110917b0ac82983b78b48fad53f25fa007748f630d524af;
0x147ba0f7c38d875d1eeee53ee9112b75fb0ae91010332de8f9325aeb85e2e22a;
0x1ccf269bf476fecbc12491a10b7a031a43c6df180a74fd76340546abe205a7a1;
0xfe407a56ba91ac174fd49efbb61e8730a4397e8df24abef0666c46e1696f27a;
0x2cb13179d6e8a4ad1b9fec37376253cf64386ad905e240575fca86539b272dc6;
0x53ab7883a6bb37977a9f6c04b7430e1f23259c71bb63dbe2bf0fc296793b2b2;
0xe791a7097b6e2ee5dc314d57432975400f92d69d4ffa60d7c9a004e8a8326c;
0x4074d5f47b8529c9d8c79f8869dd7e53944046be065d4cf1d9e400cd30e005a;
0x105b47899898ce40b7b74ce948c42b1a7f1c064c17a5588cab02b9f593b55744;
0x2514168dc134c9550d7d4c5dd03dd3b6fa0f4c10fc363137f17a1cb71b8dc451;
0xaf1d61be25cc6a191184e77234542f4946de687cbb08aa8cea91a61ada0548f;
0x1dd5bea55d34b381ebdc842200ecaa4ffb28b9edc96025a7025da4d28af0c053;
0x1c39e9f8a25300f88afc1d5aeca648517719f5c2f8977865deddc3da451f739f;
0x3adf474709643e45b573ffe296c0cf64b0bce9705b91f83fc1092121474942;
0x2e2bd30c5a414e196095e3e2e7acdf0762c6a54ea74dd82ded60f8e6343c44ef;
0x2b53a13cc27545adbed481418cbf2bc4db7ac6aecda56492735ea2e9c828e876;
0xd90f7595963d4c470a559f222fa2b6e9588660c9ab42474fbd3502b14cffc96;
0x263b73e3488bf2c208876b22bee8e28aefac9d3a4b76768e9ec0b8395d2fcedb;
0x2a0dbef5edad1d5b0146a0630de8e8588c6e9f8e343ceaeb1e90f1163e93e477;
0x18c06136a1e2c542dd4cabafbb9232a98301c91bdb294072cef62ea4944b1f78;
0x1652c71884fab33b816d894c62c6c773cc63179ee35cb7e73a568533547d323e;
0x24c895fe21900e49b6c1e90825ecacb474a9e919a9d3451e170ef22189f5ab17;
0xdf80fd4f963e8fec47fd44bc51d94d1a0489477b2963ea46739a99a3ebe343;
0x1f03fdd86ee29e48309c79e90e0c1225a1ffb47ba0ca25e4e261e17e82567266;
0x27ce3b368152a24912d9493bd7f75d54666d1633a7f95ad94ef9cb63b72b73ad;
0x75d95500a93ba86bb52fde581cbbbd7ae1d288b85e9862fdb6a8460cd9a4d04;
0x2987891ed79215bfdb0513344a736a5faef636e4dc1aafb953a27e60763bff4f;
0x2cb13179d6e8a4ad1b9fec37376253cf64386ad905e240575fca86539b272dc6;
0x2fcf686a3213ddf2ab8630b29d271f1c038040c01d6d40917e7665f59c0f411a;
0x261ea88ea2119c8ee660600c1c26964559b0345f3360be71685620821638be7a;
0xfe04a27aa636785c583c247067d0fe0328b8732b173b20171573497967d8a02;
0x2cf0912ac2237a5091ec27db0a7d5284f13bd4630fb6b58f221a68f5f4fe3232;
0x3041569dd972c73b88e73eccc715d7043f36ce79412db0df57ed902957facf9c;
0x2a4f9b5c59b09834c07365f58f63ed64038366bd9d17c7016f04505abb878b3c;
0x1fc17fccc2b1f4d051595c0e4151406c29d2eb02537696aebfb7b85e98371718;
0x16fc002eaeadbc610d53818fb1a72c47f07e7834b9433e0276eedf4e0cc779c;
0x2fe0f6bc3242cdc940d4ad67a40328a51da22100cea8628892a20d3680e6d9dc;
0x43423406385c4db5ea885da5766246096064fc77dda460fe8d8deb97d34ba44;
0x90ee6fd231f2b7fa73ff9baf6db0a47a0057e62664ddfd9355924242d050e02;
0x3005c2f73ab58a8cadfadc4dda1e3422d7c0f6ad0fe7a752045ac72001c6d445;
0xef228d7667c66faed8d7e3c7bbe5925a55d7451df7f51a6afa3bbe0747c1ba9;
0x2161f7618113ba7d7842db94ad2ef24f21f8a31b4c1124688a2e4dfac810f01;
0x20f085669bf228d7ba11d93866cb3c268b2e031ddb9697d80cf62628686938e;
0x294372804d6e2359003c9cdd1677565423edf025a9933d0b25faae3947171bc7;
0x15d37890f0af5bba4b3abb37bfa5d5e115ef5a4e805505e2cd021c4807ac901b;
0x287ef1d880b317586e978d5fc8ea277aaa451ee6be1bbb8de5cb447b7db251cd;
0x5d0ffe0d01c752afbfbc3e2c49f0d34d35ee5198603300d727a11b8e7eed593;
0x42e5fb819552fb66da7667d664838b4bf65a50c422ab1e9a85b1ff6e92d30d8;
0x1fce9b344a773117d21974d9c3a070368065377845171e46936cb95a3d38051c;
0x217e2377d39a2d534ef281f973ae22fe8ec4f87500899431cece3c75c410248;
0x2cb13179d6e8a4ad1b9fec37376253cf64386ad905e240575fca86539b272dc6;
0x30073c53bd5375c642148a247e4260a05b56613dcdce4a093e85e10d296999e7;
0x237c0bac139ca6595c3dbe7f8130d399906ec0710818ff44c05774b479d54fd8;
0x1f2e23fcd2259faa7cb33a243bd212e89baaead143a7edbe6c6b1c295690db9c;
0x2ec7439229a284f2c48edbe15599d462b1d073b3a6037e8f7c8020777f26ee4f;
0x23c268b84e8c118733c2adb6b3b0935ff631f3b47843b112e80cd9ec5b5acc5e;
0x136b39ab04af56cfda16f3f99411b1c3cbd3ef198b5f056e65718f52fabc7c9;
0x29358a02315a9f5180f23577b3336be58d4039e6ce4fa251c4cf8618a955d9a4;
0x29139674f1ed5967476c8dd777624e49bc90890a5c99750922a4725c81105775;
0x2fce35cabeac14beb49bab9ade7e3811bba9f32b99a78e3ad655b77c473aa32e;
0x2d0fbcf9cb5fb78fa20bd878ee7e6bdccc2eab0eb7d232741932c0e785301f0c;
0x2ca38f6f88d6a37b8e126f72a82237850d9f26edc5b577558da58c2e55b0767b;
0x19e38d09cdb939e187bfb8822e5c2297a897da1f16555a191157bb8a5af115a0;
0xf61a58b977b2fd7323b48941cc010140e9b7da31271dbf3e4691b767dee7f9;
0x22b5299787050ae04bf9fb86cfde9589253870bed1a0213b143b33eba1153df4;
0x2becfc510eced53a873daa537c21d79a1d5071aa734f60553ee809520a9e22a6;
0x14d5be5c690883ea5b406c10b0120725bf1e4c5de2177267d9e38e9c792bba8b;
0xdcdc68aaff548dcc7842f194b1b30b604e4df04bca89830c0bc367e7703ddf8;
0x1b0aa07f9f3f5aedc37e1f7266bdb1ade79a62db3714cdb833d1af86cb89d9d5;
0x1e7b9c8adc9bee22f859972a13e0213314d43e1829f4f99fbf019de8ef79f3a2;
0x3d090fdc48ebc009b4cc7ed3546d69ec87dedbc67970dcea6052642e517fe39;
0x2fedb8119885c38398860a6e6c5db18431e4f0d981a2fa274a36d5c31f9cefaa;
0xfa5fa0299ea7aeff8d357bd332f13abd6935460588e15adcd0ec76c8dd6750e;
0x2cb13179d6e8a4ad1b9fec37376253cf64386ad905e240575fca86539b272dc6;
0x12342a1391a6b59ff25a5c84f352a01a24422046622625d79588a43c40f4ea8f;
0xe21849b6b4969714a121558331c18a2a8969004cd750c3fec6bdda6384f5a30;
0x143fa84e95c7893e11c17306bcb7c7a64e395e3fd9f1f4f086ce3594728931d2;
0x216b7f99cfbd8ab9e124fd7ff4b172c853cf23a2ac95cb41b3a42190f035b144;
0x18bad0594a462f033d2be7d2151cddabc6cf21ed59510c1e56d080872fb95490;
0x2c5b49fce206c612947ff5f4a12cf1e4763a3a1f7b9407c328e30b3497d69f3a;
0x13fbbb66309924fea1153a649786a33fcd8dfb3e4222a3d59393b40ccb39b9a5;
0x3b44f905e3c8a2b3e7487e0ff0e1277d5abe5e1301c165ed1c9258829622f7c;
0x56c2fe32c1944e7c9400d0a6ec21aa54cc056562006c48458386c8d92f565ea;
0x29c47e53143446f7bfc43afb3ee84548b5caa25f4987796415d68e318889ab19;
0x2e43c52d27448282177163200168574de40c584fe61d4fae5dcae495890217d;
0x2fcce12507cd0630f06a2992a515f45c2b469f2742e328e07555d22c75e51e40;
0x1d2e6d9c5e8c220f9402b82ba4ebf641b2173e94ae76eaf7ee5559d43dec7611;
0xb1d1a4591f233e710a8f245cff5cf759fe0b4e55f46307bbbbf5d4573a860f9;
0x163aeadf9697fd15898344233a5a30236499b728c6fe54b2534c7c9fc648bb99;
0x2e3345617de88523b5d09b27c9669fdcb2472c6cc832ae304ff960c0d4a5a348;
0x1859a9bfd50b4bf8d40885c992654775ce35ec41a77b896206df0ef2281efc08;
0x1232a777b5141ee4296798cb37ffeca708d0eab3142357e4e917b65e424ec478;
0x10c4ce967cef015fa466bcf69079f8f23bb2826cfea14c78a3b4509ab2aebd8c;
0xb980e8a923bd3a2a9d5e9192337f070f18c11a16c809440f426126ac390b7c6;
0x2b1d91f4222d2984db754e4133fd4060d12c1dbe6158eb34fc1c1fd0f6327b99;
0x19ca1b4e01a1671c771897b741b03ca691c2df986c339c6f2c6b24663fae3129;
0x2cb13179d6e8a4ad1b9fec37376253cf64386ad905e240575fca86539b272dc6;
0x15e4fc48c95a30a9b34e39c7e2e5b23cf96e72dca78d25cbf1d07f6bd1f35269;
0x2d23fdc4c0c81c5cd12440066758541d7e4b9c6bc29cabaa7bb3217fe5580c65;
0x1e1db0902c0b9743d3e60f71c53bdbccbb995466f39a9e044074a32086f519a1;
0x24b7c98c30ccfbd3b3c87479bccd71122f3a41e0eac0c5a82916ad9e1c77ae80;
0x22ac75fca4d3bb5bf0f9f25bee0293c50901c2d45f4c2e1d19d7433b2771cf91;
0x2d0777b0c575fc2be9b13118b4bac03bdc856c03c9b7236f61670dac5da95b1b;
0x2252fa35e811593e627c8d6ffedaa4503728b6d6d9676f2e3270545cd190be5b;
0x20b37b4ed7445a96acb5891bfe84d9a5b96e8c5a67dd111cc4dcaa8269f4f0a8;
0x2347986652295db79f804ba06d9551d3e2a6b5a1ae358d94a1d71c34f36fe0c5;
0x19384ebe245dce94d5e68070e3114b1c5be9123e2a3728ac3af9d340058a35e7;
0x1fc74a00232310ce6af9e233a4934550b0f3ef063f221a3dab64c2d907138a35;
0x104721a9a6568d9e67db56ecc61ee18623e89e26a47b9e9e44f8977da8a7c16c;
0x16d9fd4e5dcf75863f3ab7971dd72de63e09cf77787931b0868a5c15be47c163;
0x392be8203347a51c9157a219aaa6787f54494b61e62c54e1c91bd995addd474;
0x1728a3905a9130b0f570af0165bd2d00dea61d61f7d103ff7c13172b179099c7;
0x145f03cb3abe12eb5f0cac73c11dba2bbcf94c72f2e30e22193a33906507934;
0x87ae2a368db5f3d666730029fa0ae971b6f50432881c9c0d86f5f3aa716b842;
0xe386543bef330d6c3cc14294ad86e2408894da265fcc041225196ab8064c737;
0x1faaf3ab79da2b30406f111cd42aa6fcf187b19448b18f4617712bb95aea6ab2;
0x1c68410bc6f75d9d773c5cc57af29ab138e98480e1a0de15195e64afdec8c525;
0x5b529d09da83d895ddf1aaa9849f98955d81280eb9f4b71cb7694b2a21ecc0b;
0x5b8ef58138e7c3284d9afc4541e7f291d87b2e26b50b7feeb75cd859e3ddcc7;
0x2cb13179d6e8a4ad1b9fec37376253cf64386ad905e240575fca86539b272dc6;
0xd2abe6bb0c097deeeb3f2162b41f9e969035ad6ca31e71eaaebaa590edae407;
0x1909ae6f86d6d43332fd32caf83152de39aac3f2701441302012d3b4349c458;
0x2f0ee3a8676b72e7e5ef4794aedc88051f0911ae43d036449d7c07fcf2f5dfe1;
0x1e378a1fb4fb0b0e168121f86be8de342265f0d9443de37ff6e24a8f31c63003;
0x2583b1b0912cdf162a046daec4856ba80ec6df1f1fa080101ccfd225176a0e8b;
0x11d9e38aabbe2391dcb7dd17706edc894dea224f6cbccef182edae298800e746;
0x1d486e5b90e3f3c789830bee968e6d544b54031477fdc8c9d002d6f9cefd598f;
0x234434965f05028a4f5330a590ab06619914476348aeb87a1ebbafa1e568eb18;
0x3eb55944fa1e36fd16239f7b3ddf108ff5f27955e2f386139493ea05c1bf509;
0x22d683ecc91253d08e6e535a4b62627738c2cb877d2b125aa9b190b3ed2ed9a;
0xff142864b0e14d2734c2ed0642a474fc1f0116d7e1c5dec18bdceacb2721958;
0x1f930557a284998225f5f4e4dfbcf5ac211f1b12d91b0562ed3d63285d7a714a;
0x18e8222f6907da5745eeb9cd4a9e62f28b8b710aa85fe729f9ea73a3ef0099d;
0x180e924d757d0be4066feb146ed56212e38acf9df4957432653f370f905b8b07;
0x2f7d0715d1391190e7b14a1242b6799eac3142e21f08ca02c21755eae77a55bc;
0x2283ed8d5e6f9470b3f4f49a771061e4a4fc7dac683defcc0348a8862c6ce71;
0x21f60efb132b62909990b9f994f381a9c02abc3ccb54c5c8e8c9c5664c6913d6;
0x1cde82acee60b84424e9bcee49a5464ee05d1cf0b70469208a675635ac715495;
0x118a24510a2153f818f0a996c87de913587805f16cdb1939d9406941f958e8e1;
0x164567b0de16b7a5550fca229bac7cb0779524325e4ca5e78a86078881660264;
0x188ff303194112a7034527cc9dd0b4deb0960c9c106ce115178dd7087e4e8c02;
0x83d832adf9bb4a25f686abeda9f16ebf53263dcf9ef4311781d09920d094ead].
Definition tabC_13 : list Z :=
[0x1373c771cdf15121a224f330d84b6688ef9fe0038a3bc26a28e3196578a0000d;
0x29f9fbda3c999836017f76e121af3aca5ce78bb48fa867a6a95e5b9db387533a;
0x1c7eb5116a20075c169b786d9dc86a24ee7a2525b565bbc262209a8cda490528;
0x21a549eb554f0f859f61d68f1b6bbe9aa3449a6238546bbdf2a1c308c9cc52e6;
0xb53fff701347d1b9df98b46175800e0d3250ac6d4a1afa71a349ed195873508;
0x2129ac4742415c020db2473999b34dfdbabba3cad4713718f95e6346e1583b7;
0x1d28f305e8b0ec88da37c8251b0c8d230b68bea9401a15f5124d64c5454bc29;
0x1ed301e02e3fc930999fce6d3744c23596700c03720705939d61cee451faff93;
0x2edb1832966e34eaeee0903858afedb13dbba9f7c802c83ee628530d0e26ae1b;
0x123daaddc930c65fc67bc77ca8bf4123fe81fbd0501e8f89ac31a698756d87d9;
0x2bcc36362c90210acf67d5fe21d53104e9d5478d057141d3b17259fed8e4a8fc;
0x1fa928cab5938207e898e61d99c7d616269144f7900815b17095f7ff76e3c9d5;
0x29c2f1cfa72a0fb8f53a631e84cfdf5cc18fb426c254f5a905fd3e831fc7c837;
0x2da58609f78b29ae6889f95ea2e8ef01a6a6c2814ed02317ae9e7142a29d301;
0x2bef1f45efbae1a4f77721631df4f6982555d05ac5f5ed215dd25939af5c1b06;
0x69266bb89813e77b00e34743aee026a873b7e31fc6f64ed57da189c460142f7;
0x2b7198b043ff31d915deb9d5fdd0338e5bd8028992cdc033eefb9cebf92c9f55;
0x20ff6cb38e8d9501add93d1684e5420d1bba60394e7c02787a8deb9573878000;
0x16afd4f19d312cc4b2568dda85d89dd7c834b05b4d8ffabf4410f15c22b77cbc;
0x2bc96c4bd9eb8f09c17483aa57c5c05f002c6a21aeae2201e882335bedf4f1fa;
0x1827a11b658414b98b8f76dd10bd5e0fec96568c2fe059f71999ecafbab0a00a;
0x202d1bece537583634b6e1e70659a1bcf1afe1c7775c478c00648b437578d9a9;
0x218b5b58b3333e735ce7c88a6e2f179e907322150a7833fb841325bde83845;
0x117267f052b39319c4ce34bc8a543b13e80784662c208ce378ad6118fdb0ace5;
0x2979bc493ae1eb3e0df74316cf12fdef6dd1674174a00ae9ef908b3a2df98ab5;
0x1925313243795f90651c448c814b13f2fa988cfc8895c9a2bfa8551164461a47;
0x309b8bc3b0ab07525a643105acedd0ae664e53332f89a185ed3d7f1da80203;
0x2c514d1803b41345f96cadcf983dcef5551b7ebe8ff78f23ecde23ebd5a36831;
0x23d56ffd6d38c9ba909730fbe6443cb5b4cf9a9702efdd98696652c3f2d1775d;
0x1eb7ae2f9df6ed33760e51a351cfaa3f4aaeba7c854b85bc6e2b63cc3f2a3dc6;
0xb3a63736983f365880bedfae6fb8fe5eea0f32e0b398e16d610d62a82407957;
0x249f511f31c4ddeb74d919cda9133fdbc1cf2d9b66288c9ad13e02c719c39612;
0x121d3b76e65bd665f5f5d2908435c2571441546a9504370a0f0c33de6fd7e738;
0x1e1fd57e79cf042b1b3b883d4f4265f15f08839a8b5c3f1802ab7b62d55eb238;
0x16fefbda0580e528dbf2648ec82d6acc114c3c1b720d56af01c542ed6d656b22;
0x83a8b8f4854d599ee237fbea3239f9090e06c223b77d130f591036be8209dbf;
0x2a521323dfe7e7e2cd622674f46cc5d64123113e3423406966ed06f2e7d37935;
0x10fad028a543b9445ee6841a44434121317b9a163e423a7bd6c0852ec521e965;
0x274bdd049a73b6677e0ff3e64a8d76d34009e467760819a9b0189a94ff14f79a;
0x2669e29b8bd468aa3991639947dfe76fc166111d6ff1b24139d2ffff1e1259ee;
0x12f59494b5695acd76123fec001dd777e40278b7342b34863e61dab94779831f;
0xe45ac1f353f45ff384658f34bad47b3b03da93784b770b607d22ee036c8ff62;
0x270d5a7fc5af9d4ffbc6edc57c91594348c60f3ca8a794d141f57c7aea7b0e20;
0x1c57c847fdb709bfd38776164af9aae7175005861f6cce68e7179dc8eb8d59da;
0x97bd4c74c9ef8617f364e87d90a2e4f461c57f2e7b42dc48b245973a25f8198;
0x9399dcf5fdabe6afe6c02a3fa831bf0a4f92cce46654d7aeb4aab80067863e6;
0xa11daa6724ecf2f75d8e368d31ed437dff1bba0acd32ba12288d4428ab66d9;
0x95ca5b00386b675738ee39827f9ae5a43ce09cd2b7a708c526c9d478f650906;
0x1161eb2d96d8f5e199a01fb1712c5f4b29ebc97d5de98e644474aaa34391f75f;
0x27ca09bcc614752905359dc489829b9ca0755de8b9efc1ccc6d83477db1bd60a;
0x2f2ddd101005b0d76d47f4440b2de8d982ffcb26416bd7acd5b1218327097968;
0x226bb0d31a8e961ff7925de0e07d33ae63c3e806ff19f375e8e96b150ac2eb9c;
0x1e50f8ce5e8e48a47693351bc4c95fffc274e75aad2fe7e6d607d8061e08da17;
0x17e98bdc10062dcab33e194593186fd29f06a5a3cd95a6bf373e314047ea75da;
0x7e6d38b28db0d587b13ac7ca4056fe27cc6e51467253b9e1b9318b181f61ad9;
0x7a06dd6230750e3f59b57edf6b3fdd71a4a1485e2b9765bc85402de6c539e15;
0x224bcbf9e7ad9eb63bdaa8e679c0ba67c594e4c8bebd2e06f1d736c4fa5b9c19;
0x14e43b10484fd331ef027a94de953dd133c14e823656e2a3f7580376d90b778a;
0x21c2c69e30546f53363e24e6032202627228f2d32c61924ff4f64b7b3e93a8c8;
0x3fe37796dedfc13fa0160d2da3998890a3f20e8c3522c4fa717e10796f40715;
0x2bd5b2e11cda485bef53bb4c2c654c39bebb5814b06134902858ba1c79fe0883;
0x1db6d06d30d62c08ffc1c2249d3297734c08dc141e9ad9abcc251bf4605b3b63;
0x350d5175824d117a97a0c758ffad0d3d23df500f097a25f8e061d79dd42aeed;
0xf46d145eace6b1dc1bb7f218431ae9af0c9278ac2912ca102627a656be2fad3;
0xfbd2953a1cdb40ce84ca589f711a8aae5e75c745c5ca4826f65dd2bb50813d2;
0x2e6fee6ff51b2abf66db3ce9c23271ba35caed4e6893762161bf7283e0c27982;
0xeb4c21214c0ce434010f1fe4733a327820e1afe53ba7233312df51615d5897;
0x149a01e3644a9aea475d77e728a2e9826f6b935ccb5de9f060c0a05d8904a470;
0x3051abcbd422db239b04ed4beacd3b4db8bd045b8d4ab36a872454e362f82b22;
0x138a0119816ee4ac8015badfe5abb7114820f161375b6074205af54887e788e7;
0x16c8e1464970e0d76c1e3c4073e63fb2e514b25858bf46adef59b1751480f452;
0x179ae599e009a3f1027b559b07961307ef54673d52e8bf8c4f87ac5f999a9ac2;
0x13b3518cb4a884686be5ef802fe3c9a0761950f2e5f66a469df47c4980fbdbce;
0x52a354e6f8a8c482b9ca8fa51e4732763bda214a65fe575ff12c954a433e27b;
0x30348154b1407f9bb3b3d8fe8decc41c770cce188d64ba7b0218515b3622fe7e;
0x22493fbdd06dc2accec415de98a9d411e393393e648cdf86ad3efb60373da4dc;
0x2bd33c38d67da9e28ff22b4ae3b6e0ea68c6c8b275d64408cd7c0bc7f3c20746;
0x18ca35802730ebd5aabf25fc7cd352283442bbfa6e925e66e8344345932ec3a0;
0x123a15b31db64480736ee720631ab0088a24167d1460be4dd420f7cd40acf2e5;
0x1ba31fb49dbfe083d1f4210e344596a9c61e6f4bccbfeddd88f3beb168921b07;
0x10c73167a97d9141097672c848cf3ee8116d380e6f1301778533933a078f2a27;
0x12b2f0963b677d68900fbe2500bdfd4b532085e5cafe9db9c2e636a8ab0c98cc;
0x1feee9a8c818254bec43c0bfea4e01ce2a7e6faa9a4dd01208770a6f0bbe7c35;
0x2388c6a47ec73b9c198bf0ad3d5922e3598457cbca82d0b1d2cdbcacf56ae36d;
0x1bd9b76b67a672ec982cdbaeb55e14628a4db0792bc0f52451c475cab0ecf3dd;
0xb2ee64ddecd3f26acc1c6c44ef1643b8eb6e589d0304fea3b7b7e1e91c2f534;
0x107f80d883fd761322467565a99dc8786e69ac197fbedb7636432ec5cfcb2678;
0x19f0a831e164772368d5365a0107d0ae264ba97bd5160bee069f1e2b459babc4;
0x99ab87e7b852429782bcaff58bd19649ea26b24e493b243c71d411b48e36375;
0x18db42f8cb42180422587e68173a24cd0dd62f6b17009897541f16263a405746;
0x2a22132453db2d68d388b700545cde863d652bdbc5f733c692a1863754fc7294;
0x2e3f81e949bbe1a2e8a06b70e21d433a1036aa684bf39b7e933839973867ea3c;
0x2c21f85518cc932c232aafbca1e4eccaf6d7375a80b1542828e1aff7ad8d8442;
0x21c0239127fe8b2965a32cc7ee8d063eb792ff468703c54cdde10092fa9d922d;
0x201c6b5b791d42b85000a1011ac52b25bad5309ef4f482e26110310001bccb4e;
0x2db1d234cd755ea9599fe56001866bb4b711ed049227d67ddb35c03bdb8c6df3;
0x18498b6b4ebea39d429c25e5aab1b5fc97ec880e736331814a3cdf799bfea718;
0x1e5d12fcc0c680824e0934a64153a1dedd491ec29effb629e35a45d889028343;
0x1ddc4b9d3159354a45944b963b54081d3584448192659625d3f06fa98181f43a;
0x11fc72e4994e6b2e99f8b58773a5eb8ab282dd06ef0607051371bada7b80c40a;
0x21bc7461e5160f2dc86d270fbc2c8f91605a49e5c75ac57c7ae3481bf1f4bb4f;
0x2d16510a22095aee95dac7335895a70e0ec56a9a9b33201d94b5f7cb6fc626b7;
0x2fdfb1134a1f54ad7dd904be3991e086e1b8e0c4d5c0eb80420da5c0fe4b0944;
0x28646d4e0061355d5cd936c08f7e8419701d959482990a46d4cbe164badafb26;
0x1dbb1b476c0fdd507664a1c03624038c2cf2232c87bea9e711fd32dc9150622;
0x81dbd4fdc8779da9472fc7c3dc8b35418c3f670643b4ec8e878c256f6cc22a4;
0x886cdaa0b431c97d8463419ac5651ff457a7c15673fb88916e94fa55f584d31;
0x2838331687e032e9ba3fff6492c1c547f685ebd7609536770c09dbd7ec3cd2de;
0x2621bc61696ec99cf22f64501b131655f498c95fed719edc34691e18154354e5;
0x2549d455daeaa01b7b52782493fe1b0b7c14dfb77087c9151b4ca36f15306ac9;
0xa4c236eb53846ff3488a5bcf59fe22252f78a20e953516f22c88b4c06e7f4a7;
0x10c077e94f0d3852b3e3c2b14eecba18c27b52cefd6fb1a1ff6a26ef95e41815;
0x2eb187c8e8b5d69de44971a4b370ae917ecdd0286b75560c1d3036ecc54b196b;
0xb395bd209a15083fb3a580abaa376a1fa397c54f91cf8a0c141ec7b4d7c1e97;
0x2a1aa4e24d835d8a3f9ead7881aa391fa930752f8c9c1a448d53307ff930d8bc;
0x1a3959bfaa6e5ec9fa45a9939b47676ed773b545d372e5f8403ce000528605ad;
0x31eea5b773a9e18aa6a29863ff6c51130f4e76974071207bbca7f238e4910e9;
0x109a8a86778d80cfdf86b4d6bbb1e57e218ab8fd8495f1fe051b576ff2e77c98;
0x361d334bf2e907948c05b6252bff7903afddc738f2952a0dc893b09fb034ecf;
0x11f636b7d7ee19603bd7eda90e668b7ecb2399750d002d9cd2978364b632ea0b;
0x23af2f1d6a7dbe734d6006377fe06a202a5482cdf7cf324bff2c3eef417e8d9e;
0x20057e0887d089856cd5bcdebb9e75b12474add58e57e3a77a26cb6cc36bb61c;
0x2657371dbdb26288e4a31975410dd5772003e2255a15e5419f11e97da00aa5e2;
0x149681e3e7671ece7381c6981fcfb46ec93264cc242f9a6140b3344aa641758d;
0x4483482a502545fce490d73674becc29dec91db3a6721869a92856252f5ebe3;
0x1afb1e247f5795105296f8f075ebc831ede8b5128e378bfc374343ee6f93197e;
0x23140be54f97f6d1cc5ba00847848e4fc973656baa56ab3e1b754cc12a296bbe;
0xae6ffce46e6c0bc0ce6341f9d308c792436f0a07142988a937db3fd8a333539;
0x129231c0dfad986f9c0c2f9868b00c22b314e22b24b55a438770b320ef193ea7;
0x1d62b56618a967c7d128e45a28062fe7f0bce6dc55083b58374ab6806e01573a;
0x17e3794052d48c4aa936c5e189fde01b8bb4607fd478b67fdbbcad3e8aa9166b;
0x24af4f43a91c5c51c6b2f3f44eca59bdc79ac86b06ca092cff9fc7d9c4691fb3;
0x215075ce41bd685be3c97d2bc28bec174421398024a8bbe4d9122008e6e027c1;
0x10ff29fe3e761d9f78518eb60b2a1daeb394753487490c9f5ef937df3b87699b;
0x160ff9e43a764ba2280d5ff675a9db049a29e7924f5ba24583b1d6d90caa0324;
0xad301157c28a1200715676e5ab5b2469fa39559c1a847f7787abf487d828055;
0x3409e3a83bbf52d16fef10fbbeebbb40ba299ef770e3640651a48602f13d108;
0xb1232364d87cdbc709442909811d0a0241d0d8b7933b59471799d6b30a58da4;
0x195dcc72dd9f2629db85af3e0c9a3ff52fed868038cb27103d9f30c8c70e1fbc;
0x192d2d9e31fb65b409ab273e7e2b050c1bff596ae56ca4687ff8e86ba8bc27af;
0x2ad9eedb67e8bf182bb967045b906afce866e00258a320380a709b818521bf3b;
0x2ddfe92956df2e751715ede80573cfa5308b46be5fd0f77def8a519f113a4107;
0x1ef0dac6020d7b376e6f0fa82187820a0a4d8be7a8effda342f7f8806565f2a8;
0xe4d6efe23c1496d8275f8a4dd536bf988a2c8ba2d2beba328f28606a4ca0f91;
0x185b30ee2d3a166f2f59a03c7ee9f206411f74f777873b92045b6c128ff84202;
0x19ea7d6275a6dd167757942770dac2861057e16a988d2e93e4f61849d8427aa4;
0x23c3b4f5e49e16ae69e639b956d48ad6ba696f243a669aab13ab2c2855e1187f;
0x29037d64b549d1c9ec4524ebbedb8069cb23218bef3cda811134b36d3551ddc7;
0x2ea8637b89b798a2f731d98f2ab89ae9814f18deaa7effcc9633fe829a9d109b;
0x2bb4bf36b15be77b7374a026352644b8e70b1ac9516eb87eba7672ecd03f1202;
0x1006f07533b6e5f33d613b89b858bb6616c18f8478f225af2f4e3d726780cea8;
0x1749f416df7b4f43257d9b8555e540bb0ad0d7c8ab0a4ae1296021da0d90ec59;
0x26c86b58437b04557a96cc74b511dbda00e9c4c57bb86c15d49bce318da8b592;
0x2679dc5e56ae1f6a54d38287c7ed606d0d9505a5cad5a0699b09041571c4560a;
0x133eab2d7a718f3f741eb10e973bc5e29a021e83f6442418a832b091bc2d6136;
0x1684a4b71cd72ec3cbee67151c638d5588e3705820c468c289c52e73d69a8fa0;
0x17cb936bca97a37f63732c01e6c40f6807360cdb73f62d792eb910e034b4041f;
0x1bf4b473f0c77aa5ac94a46972216b339d99c933a8f5034044b4b535adc388a7;
0x2c6b76a42a2fd9fc8105378de5176d60c2f8129cdcca89fa0b00f3edc64e079b;
0x2893d0cb426295edce9b5506b56a2b867eaf48b08c5242888ef79766f8d9aed2;
0x192d74bf58f3dfad901612983c6bcc753902e2241a371f9880e351150e68292b;
0x1bf69bb66db73ef6a0e04689e9698896ebed84d97966838113f5df5f5710736d;
0x1f8201a8020ba29e8521a1a0cd3bff50603daafaf084f0373f2edb68fee7308d;
0x2fc51d7afa548b449f40ee7c48386655db021f9e34e143c51b1382399bbf6e4c;
0x1f4e909114c65d62e1a1e466d4968ba9f6fa612578d474e25cc1ea13888f360f;
0x2957f8aa51d126b9961950fd72e1c7224668a359da4e5c0bf761d49913d147ec;
0x1a80f9577c8384aeb8889b63361078284ef552c62d2cc0880667e85f01d0333e;
0x1de416e08ad386d654b37fd2b61eadb5b555e0fec1b7b09d8435bee97e57b0e1;
0x1ba2ce3d6e352d0643b2d3c5c7c023b6d1777f246278cfe6e1654e9e5413b535].
Definition tabM_13 : list (list Z) :=
[[0xd064dee824928d39f2a8be7d2fa583223c33995784d228839adde2559592592;
0x2d8c70035731ad9efba92821a88119f6b8183a362be641729a93d6a327c03809;
0x7b620c8a78e09e49ce547aa783aa78f3e4594c49ab3dd6f602bc6c0351d823f;
0x231996b592528575567d39d00645a83b13929093bbfa00d6a661e4a690351d0f;
0x4e47a72e49b9c5aa3f69f6af22fa0ab640c93fc524dd3c508486d66f079852a;
0xa8cb4b2bf3f0c5da671e48f83e5c1b3018f0d31200a6f19fd5195db22eef7f4;
0x18bbb002b46f2e5fec2b120faf87822ca8e77ace94e03aab5c16c4b931739dc8;
0x2bfae1b054ef2e924d75a8a01283da29103c57bad129ec8396ce274ba4524df;
0x6d101b19477d1627b9542581bf0cdfab38b05cdefdcb81965c5be00d780f192;
0x18af61f6184ff85f104c2bef179b3ec5a5d242dfbebe8e27a2918f620e8a5be8;
0x11e3a7c2d5f74371beb188c6e3d7a14b33128af8ee3287546d12d7777cef70cb;
0x2de5d6a7a27343dd0422ac71b8d409b43ccb0b672e978f8fdfd214f4d7866404;
0x227cb43b9818924f2a2588964a0ad7ddfa3df62284b4b3b10199a501ed970622];
[0x2b2ff5f27531b6f3d6a85d75e3e08f3a2f0dac3680a6c26d55ecbf803ca80569;
0x9ef3492ad19dd1d0bfbeb191330a880ee7933c9d3b36bb5fa02283bae5d605e;
0x27d6bd18703d7ca92aa24076d3187b6c0028d0b6213d9e5d2c66115237a19051;
0x193f32a3f839f76049c9cbf2414590698a2118e83658327c4338aa3648d8f7d7;
0x235d0e71a350f1f23d9bb5182ac44ec9e4615e77801e5aadcab8336aadb1712c;
0x1df5c9ef694afe61bc253ae908a8f6af0a08cdb9e78a9f322c22388322f16c2a;
0x1db2021eca3a3624a7d45bb16cf4a44e2af4fae0dc280030e7ebe55394f69d8c;
0x1a46a26691841c26109a32ae07eb584a6b8af657273cdc4d8a112dea0bcc85cf;
0xcae80cc05aedb66d6e649b057dbc5ae9759da5d7b43d5e25a400e1f92e9d1aa;
0x195057af1319e24df1b905c6e2eb2957003cfc34b001c0e54b9dcf2ea5df6be9;
0x2d4d35acd9f28a3e6bfd601472948293c1e4f084c714ddb1a075f2eae9ce21b3;
0x25eb2ed84c520aba164e33f0353b5131886c0fbd18e55695541512dec563a0c;
0x16c7c5c6161eda32c65bb347655acaa80bcc98bfc023f4ab12f5b2a899f37e3d];
[0xb658849ce620bbeeff233b7d12258015ea9f87a5390f5614981eb6e4cb4a5fa;
0x1458de516a534190c5550c6a1bed3af535c38b242eb9291373096ec60e39c1f1;
0x2969eb5016f24b31accf173ca204668dc2229845bf6446cea007c113349bd4d7;
0xa5da659b6fcb1a4273e1b7e3b544d2cbd362cac497afd004b8ea920fdb04bff;
0x1219740c424743dbbf896996f0ee7a4076ba960a57e8d7679b828479218570d1;
0x134431128e5ffc0ab60136c5d851a11dcdd63cdcf17ad64fd77517701de675f8;
0x97c6133aea8fe48f3a5fc416bdf5e46d05de0723bc49e53b9fb5e83d350c295;
0x107da0784dfb314d82859be44d37b4d2b6345c174b91651c65c98449682a5204;
0x12256b3b99d31d8a372986f95d66cc139dd23e935487da26b3e249ea7cbf91ae;
0x1d952ebffcbedd26036c54a1e8a2828fe320adf07a286e7f2c211b47f6c3ee86;
0x26309b52cb55f6ea5a9030b01378f65d2e6b7a9619926d9b1b1e21cba01fa7e1;
0xa12525f0781322371fd70b0928cce6e2eaaa67b8970dcdf319df25e8019a6de;
0x27e37c68a01530f092cd37c4a26dece2737868dc2c3519435e1f2cb88f07b62c];
[0x118132fbc1cd83f95167cb4473d54c6bd2c417e2782e5efea16e72d47b48b70f;
0x136ef2515955ff6619498fac59424816189f896ac0ed69b59854d105df47c4b4;
0x29c67bce04bfd020f4ff7eacab6cbde034b22fb86334675a361f059e50395311;
0x2a832ceed3837e742196e09491fe23e3f6e51126eab9acec96e71953102ef24;
0x2b501f1003e27aa809dc9e5cd84976a3b8c169c1e9c63977d7823f80d3f823be;
0x3ea4e2bffe02da5977ced1f1a6e852e921abe2e015f35b36ce4bd0246c2cd89;
0x150ef9e932a74b8debf670080641339b12684ff5a303b2fb7c1d8d56f56ab61f;
0x2b45b3be2674fd820516acd6cc6183c4fae0f7edfa9afcd02dfeeccd02bfed46;
0x238965d658967afa2bce50ff18cbbe535327c65b0b76e50da30739ded25eb492;
0x370b757ac6cdd46610eec0c22d43a543d5e0482577bbdc14e71090307b5f69a;
0x2aa84c1ef9e848a64f748b80e279ddcff871e9c4c3e2fafaaf79159b0b4e4018;
0x1bbf43ddb5a0b0d2845923b1ce128292359cbb313c5876fbb52f5e6b1fcb7031;
0x19dd1c6d45298248ad499531f33ce002505458d76178eca26298e39a62fb9501];
[0xb5944768d61c1b3562a5749f4f06c4dd085bb562b838d7e2ef14a21fdf524c0;
0x18cbfde0cd21c183797a2f089594a81cd828f3b0742371ed02eb83fb0064dd43;
0x124474b08829d9b717c50884bc895cd3f81d519859d21235d7a74450d0a9427b;
0x98bb2c4c6334dfea474d04cb2e9761861f6b18a8058a52b619d6227a26228a8;
0xf34db93ea8d2ad7d1eff86db5820cc7ada47bdcd8c82d01821f5c21a3ea2325;
0x6e03ca1146705522bb5e9dc73560eeee6b9b4bf51d48f953fbd1f006d758a75;
0x1237f44f036b2da0067a94947334e3afa2ac4cf1009896766f5b191cde284972;
0x2082e9103cc45245924289111527312860f6e7ee94578f0118f4a920d0f8d525;
0x23a6e143284e8f238c4b632ad78ace5b0dcd94a897cb05d1e297b4880e7433b2;
0x22e076a3aa6ebfe996ba068bf5bffb17fa724338cd67f67ea25330195c628172;
0x2fe31b0df04f276a525b619acc4a5ba3eb58d8c321c62390febab05ecdbc798d;
0x23e8c3606aee818d2afa8c4465d5ecb9c45bde78dd819c0f35a620593c1f42e6;
0x215f5563464e2df6a8daa8c34476a465e4ee9fa0ad01fc4399b649b2e07d1679];
[0x2b04d6ffbaf7144012d92c5c6212803c0b5bcc0d7b1950b889d1fa6f3e56445a;
0x22757da9e822345297bd060a3f71bb1e70ce977049c393235035677e84357314;
0x2c7e28f59fe8a8a3bb2fa2b2b1e114ce283fe22a978a3df9f62a171cb1d65e4e;
0x101749f9dd2605191c1963f25694ae267f6b44bfe2d1af34fefcb65e958784b0;
0x4d02ab05826fa50bcc5f9af9e396477e68542d076b683ee61b85869d4535893;
0x14c499ee51925b231da17ee7b55a75f96f462e431675ee36c7be4e9b069e260;
0x2d9ea99d2d237328266d59dd7e018bbd6bcc7941d9ff5f07a17baf0099f614d2;
0x303a9e22855d95d07e8172f3a0536d4b95142f962b006a8ab09e7bb6335e8487;
0x24e13a38f04d5e0fc0b6b6e0f782a6a523a8b3b0127224b8e23751b9cb9f8960;
0x126851f3eadc0183288a750153910a41e074b3544f0610a51273ad3698be0cb9;
0x27c1b406bd19ed13d533550b8b621186b1fd47f671e6604680317e6638b091e1;
0x158880f5adb96dd1398128b9ff339f3d827da6463891cca129c012c06b16b321;
0xf36d166e99139b9bfc1ac3270a3d98c4afa81bf97436076f57383da50436a5];
[0x29be2a42834ae32de3320fb0ee46b4c102a3d1ae44c5dce152fdeab5450c9c44;
0x1622805125ddf344c18e351d11e82291618b975822ad0c903efbeada5a51d44f;
0x165c0b978b4bb646a9ff225ac4900521292be54c879882d3f11eaa3103341487;
0xc7b5e09343db5c63c110d3175d01bb498290d971b1e6dc0e9a0e9e7158356b1;
0x2bcc82e75391be4ea9cd0f8a505f9e4f684778fc7a9b1bceb7868bb299cd2072;
0x611ecd1f379a0062b05c4aedb100bc015244c6a88f1631a456cc2acca8930cc;
0x477f951e19f531b8434ad755b6783d61b679efbb87fd956e394db9c434e2352;
0x2963514313f046f844f950ffea80f5e5b424b707f16599662e5a2e3668cbe5fb;
0x9010d73677620aae1b0fa8023ff1c812313ae9c3bf43066ea60bc1ab477a7f8;
0x361f4082b75a6ebd23f9a6e7309d8c4e7520159da23441edd631a6ac14c20cd;
0xcebcf30975b37267aedf521ee2bc753c3424dc4b6edf3984fb02ae1ead44daf;
0x23a1ac07351946a974c8841e92092a4ffc6aefc7fa988e3c1f7e7c87e1512a90;
0x1edd7c7deaf249e0fd3f5768aa92e9dad64118b491bcce12340c46f210b07ced];
[0x1946fe9de0a943d5a716eac08561cd91f9031fec82da9ab72883c7b218b11eb7;
0x29765d8cf77619a580658d127fb6faa44d6c70a0f4d65dbaa960754b4195d9fe;
0x2066134bb299d9e359cb82a8380feb63b60e4b9859d9b9872edaf9152f92d4f;
0x116a313d00cf99dc18e21f93a5bb198018bbea4b7cdced3e4d210971dd0a681b;
0xfe29b5bead54c5bbf426bb12844a2920884ac447906101cea9888986a030b11;
0x22af37c0e4a88deae9f7fad83819910735cb4b49311e0aae11cb7534d0bcee6e;
0x1d8b8ba772c4cda72e8ef9b19c424d55d57251b247c632bea255271afcfc70b6;
0x4b7f8d1d5ec8bf689adf12d656b94e15b0b229c1638c9c4757faf0d18fa6433;
0xa41e5a4421defd5ed7acfd48401395a409a67c3edf4c168ce3368ed944212d7;
0x1abe8badb2d12353b9bb98152086a9421b7cee17761730e25ac284d6b1ed7b37;
0x291c0da731c016c0d6c4c75387030a962bf7a2eb35e15aac02fadf530278a3d1;
0x34c460fff28862ef7a509a1750a26ed1e5960fcb58c4f48c7d267c77e58dd66;
0x8e1741a97f6348ed6d68f4b7bc6ec8b2dbf03f426769cc779ceee4ba1beb03f];
[0x1af3ca6240a55aba55df8e49835b92fa17e39ad5701ef70f8144109f894bf1d0;
0x2bb0b6b08fc1bd11070edc42f23e807b82e8b88ef70355dfc74e096a7ff381cb;
0x9372ed18ba1a774eafe1bff6deec4bc0814b0899c6196fa15a7acd15ecc5ca2;
0x404c0fa1bd1f7e059054cbb87f6b5c69d11457e59f90419ce4bd10bb8a803df;
0x1bb2091870a4fac03682fe5b1e2eb56b14ad6e48f4676fe41454bfeeb0ffd4d9;
0x299ef95aed8c75494db82e8679fbc6d5a3d2e29aecdcf6979a9b272a607dd5df;
0x206aa2f36e32b2b06d6be48ad493d354ca7468753f526e6bd82549fc36cd4109;
0x259547168b64b2a228941a542f394a2699c081c149463dc2c3d21fd8b2e4f31c;
0x2fc7d17f3a9afc1de289ad0f94126aeec834498120629cc87c4586c627780075;
0x15a7e64a5a46f5973e4e82a263ef905ed64f182b2041baa00a1359e7e9c5eda7;
0x1216f05607e032e49038ac1458100e89ac8519a5a3cee4545b08850d8bf160e0;
0x223db18f31c85e98e1dd7b7245dddda0ff8e319bd7d1a67fdbc7eef56d667818;
0x2f4aa8641ea4135031f4d97a7a2f679a8cbca562ba6aa54eae7d32ff7d04dbd2];
[0x81f58a91a4e0d100e0369fdd81a190035342fd0677ee1bf5215e47f8e58c2c3;
0x4951e747b7ae6b99d9250108c5d2b70181a93ff1d4bf723781e1b938029827c;
0x1e3a130e8caff9b5e563e8aaf84b2fc73668e351cfd28cf66f5012de61345b58;
0xc1c216af33054c497ef04381f58582298b54335f632bd62add29e08067a59d9;
0xf54c9c522a5c74e0d4e0c63611a7502657575b7a963c0e786d2a761c4e845bb;
0x103cc8384be1be1087b9bb47c0eb6049f85e0413f7b408f1dc2fa1e6fc4af91b;
0x28da9309acca103ecf19df72a722134d530bae6c660db3c364d0ebb200c2aeaa;
0x27919dd2f9d3dc9fcbda1a23b95cf23e3630e6fd5210faca6acf4629b88e5ff1;
0x1f86e3e9d147ed604c71e1fb6ef8459cfc40001bb4fc5ccc2661669b155abeba;
0xe154ebd50db3c2864dbe1ed72b0816210851b86c353692d1744cb3372bfa72d;
0x19ae65945a1dbed3965f2de3a39ff2d54ab1dee0f333b88fb49edb3fc9ac7899;
0x99b97c878ce35c957d01b43dab07f8003e2c379b41ca61a6e56a9204fb16bc;
0x21a0a43c88ce26effbf8b9ad668056b5b0362e5009f3d80033db473228fb7fc8];
[0x22a852af90680a8ca9688b71ed27c157d02b406bd6c7fd8121d7c7793ad2305d;
0x17780b9469e81ca70c7cbb4347e7fb40c63ef68f3dde51d04cb47b3b83fc299e;
0x255543a314afc5a2991413228c75eae398b90576b23b6cd86128665cc3bd9478;
0x11cb20544f43437a688a7dcb573a7da4f8c7b4437349eedf3fce432a6f3c1653;
0x160f5ac0b2481f8019e95e0b26445ba64dc03a4be8a15461496247e6ac29002a;
0x206cf4290ac984434fa774bb0f8901a233905632b793c80b1d59966e96a73832;
0x1b9435855d6cc4339240e9fa3819c2ff420980d6cf14721b75e4cb1fe57e118;
0x2b9237e5941e1657efa507b892c3b8dd57fc8d52876ecb599dd5e1052b6b1f2f;
0x182d8f91ee2a9a26215b35f3c0eecf8ec5cc360124cf6b903e70ca83126975dc;
0x25528d5d31dbd77cfa6e7b1847f8e84c81c1ed5bae2a51c9e403cc754c54bb55;
0x2f996ae620d00a3d4e55ef7a6ce0b681388f1b7ff3875b725aea6eb9039d8b25;
0x2c2b1e7c70fec2f58ca01bef5ac37cbb9471ae7914bf08df7e47dd8e3bc3ce93;
0x31b369d011f219e4a8fb21df9352878d93ff8035bcda834c3dcc41c3c2df85d];
[0xb27ba82a0ffb98368981736ae927a227828985c00c3e5df8c1276b1001089a1;
0x1913d51d9c71d042bfbf649d9e6e6ea5fdd82b4fd3173ff2fe02b85582528912;
0x76547449fa03845f185e61578a5a8f2683a19733fc04c73ac6a0b89bebb8453;
0x186f160ae866e10c4be0ea7d204cd64e57337c60c40b34c3a371d753f2ff001a;
0x2f3d6b8e2361166089501b9147e84ab6b09792ac17a5f080d75b3e320affc86c;
0xdd85dcf08fd38d22f316d91d812cb2a884308775afa9f667c6ca80954397c86;
0x238832e643158e96689b5803b0b77601b59bdfb4926113a3455f1ff4df6e2b46;
0x202e38e669883619ecbc6a6a45368b9b9a3e9ab67efef50f896dfe48b78d3dac;
0x67d2b612d75f4f974312d04ae0fef43a35b60ef054c0f475302c55fc10bdab0;
0x21f0c6b896fb14220d811441629c78f8e8e27746026220e331cceb89a0ee89a3;
0x2c825ee561c4ab6a22331177999c89806fbc34518387e807c20c359739ba9eb6;
0x4625f2258edf0262ba0647cae426a486fc801dc0b59d20ec0f4d0af8cbd23ce;
0x20a72083579059cb659952d3f2a01ed90d21002275b5ea11f209c763baa8457];
[0x4b46526207edc70a0d23c8438bc49a365635552dee240661a2cdeef966f20f6;
0x2a9e342a56c8b6466d3fe533b89f1ab441b62dff3153d3ae6500c2c3be6365e8;
0x2f98bf081e0eb78f8025c03ee9c199f2e838c51e5a0aefd333e9f7cfb38f534b;
0x1e1d5920edcfe9d6b2d0ddb2f6f741afb06590340fc07b182ea7c3ebbd933931;
0x1b59bb60e986194987fcea070498bcc7c93dd561ce8af5fade754ceac07b1705;
0x24ce0acb522da527d3eab72865cf073d954babbed3cd1706aa69d767e9afe7cd;
0xb43b8facc43cfc067b5513abcce846504b9395cdc14df96861a528a52ae2ec5;
0x262758fb3e076936995ff3140ef7d1b0a1e0fe4240a50747e2c3c120d977f3ac;
0xeab3f26417e6b53c532072de92d4aa78ccdf1da91660a461abb0f9fd7bdcd7f;
0x20addeb2afd20e752a39d2f21ebddc2772773b062922dc8dd3ba068836dba464;
0x754947436c3cded29a60c9e898237c2183a49db7e70e7eb73aefb4b5c693246;
0x239ca61a6ef7e501810aa89ab4996dbea8fbd47fd2f7a2c96a818e93a3c38c89;
0x19f11771049b5be81b43ca81e3611f4108a4b9dc30cd122441f74319c3adcde9]].
Definition tabP_13 : list (list Z) :=
[[0xd064dee824928d39f2a8be7d2fa583223c33995784d228839adde2559592592;
0x5da987f17a176320a821339189d24ff783be07f5a6adba84ea72fa0d7faa9a1;
0x142b410fdf81d2489b47702708422b35a9c6c3580144e7f3e94b971bf079585e;
0xb98437a312150d8171b81b1891f3cfc75b9d14473319a77c7043d8d2ec320bf;
0x2f88cac82b777c1c7b751129e0bc1d038481129c546e80007a6a6b73c52c7f4;
0x2b37af1db29d45113ebe8892bd41ba43e82d045eeefca95390f4a7f816639416;
0xe0fcfee5bd6119ea196992bc58dfcffba632cb20e07d9bd7f1f4c0738edf767;
0x1f801f49cc72b3cb1ad6d83474b3e98cc9ab427ac9d1807de151ff591c2d98f9;
0x5aba81d049688ec509fbf12aa240297e0a4cfbeb91c87e4d1d72bac8acb33ae;
0x1efaed0a28bad9712571c0f7200ed332ec1342c08a9270774ed84817ffe8943d;
0x2765f7a0abe74654c9182787a7d252f964c3e38c946a1f459579923b061b206f;
0x540383aee2f7779742ca518ed4d4d752980f2b5dff48339c128acb79daf88e1;
0x198d160f1f80e78fd1e93c5244d636d72185966e93e62dcd0fa8cad1b772f781];
[0x2b2ff5f27531b6f3d6a85d75e3e08f3a2f0dac3680a6c26d55ecbf803ca80569;
0x20dcb39566362206d4b38ed042277d966f03092b6910f3a05e5b1c3071f4a070;
0x2e3c5d5b931ba49c99edded32e4f404eebef7eb08ca9668d82c912cb5d428585;
0x11c900f3b1c7732081074d0a58091de7f826a4f106a930899d3798c6b02d7735;
0x2cfc4c4f3575a5f8bf5f2ef6b518a47fac9fe853558d584ede340b5e32eff61c;
0x7ba6d2ece419d75b37c87da9b00fd277259b4232542eaac3d6c7d85c8677a21;
0x2ad1869717ab4c539dac1f950998c537d101504b008b46b47d239eed0702f8a9;
0x6b21b6e86693de4b43f26771aa347307be78fc9585a91fc28b6f0f802850576;
0x1e54ea10d6b7cf0607b5224797eafc3b651b492aa74c92ae9a70a692a1965e2;
0x23b47244bbd00be19b1c8046145626bac795b4ba22beb692810bdff4794ae97;
0x16ba1b0ff54dacc9d88f85fa6bb69988a0633a3998eff403bd55f352a195192c;
0x2fca163547569280e953a94133047f3f9281b220b0c6334645e432143edbaa4;
0x262cc29dc7439873e862e94b1948eaef1068da52d8bd493fe44a9e48b47b88de];
[0xb658849ce620bbeeff233b7d12258015ea9f87a5390f5614981eb6e4cb4a5fa;
0x2816fae6fcd39053c09df75bc62f75875e635472e790e295aaee0c8158961174;
0x5849562006496b3a32966a1a53d29f1c667a80e69e44993133184456ecc57a3;
0x23bdb40dc2a5072c7d0cde89e1baca83c53b963f4129487c1a68ffa36cfc46db;
0x2283767ef21ee3be90dac5aa35e2d5c39f7bdae014bd63b63039d19b042fb575;
0x1a2dc35b3c29c763895e67b7ca3ebb9c34484431cd2d1080544cee9d03194c13;
0xdf23b54c9ee2fd50b58ae1043cc7e0dc3a11f183ee0f815fe9a97caf186033;
0x160a65dbda0b6f118906dc50e0d5a8e64ce7765f4327700e11e753d7386e7392;
0x24b39cab2a81551d5d529ed57986b8ecded02a7650eedf67925eb9efad60dc20;
0x226f8e8bfff7dcdcd1980eed6f88a2566cd997d4f7bec484ef25bf8ee86eba7b;
0x2aaa2c1202b74f2dab3f58dbdc95eafd2ea49d5e3abb47f3b33cbd4ea13474c6;
0xfaa06fba9421c021c6133baf90169f65dcb46cc47ee532989d5ced54155f34f;
0x17af1f8b71c3656ec7d3262406399866d91470e4b912040132b923f891e63720];
[0x118132fbc1cd83f95167cb4473d54c6bd2c417e2782e5efea16e72d47b48b70f;
0x1df6a4c43bc5c69763183d36c26b6b37fbd5e4252de4b5c3c0da6b81d2bc00e9;
0x2fcd5953b4af9a49fd90b23229198d09fc8fc8ceafdbb53599b133d01023ef76;
0x24c66b7856c9a5d78819772b35eef0de88ae882c19af36039f785a48a75f450b;
0x1692394c144aece305a7f02749a63a355ed6fe024be532af2152a0d53d590a30;
0x2e0f2af806c4c37a9cee0b9d31be62616a7dc6eba5e51ed9854c1be1d9ebb9ed;
0xfda8fed741c4382c69bc3f63c48c052ef784b8f67ad573451a418f2f6401127;
0x1734a0338c0a652d147ea6c26feaa378580ac91d0c8801b3b06a4f50b580d01;
0x239102aa73485d2a291639612b53c10c8a729f09dbf45984e80688332199990d;
0x15c8103fc31eaee1fdcceaf57ff198cea6eeba5237969b036135084cd15e1b57;
0x1ce8ba9e5353bc50ec8a7cada1fb238a643d6d1c03449a5ad1b6826807821747;
0x13cc546736c859756b596bacedfd88344e4cfe16abcd44dfabf1234df19fb7e0;
0x1dcecb2dc57bd3cb8ed9aeae4fbae4f40e7ffc8dedb72e34c84a9318d9863678];
[0xb5944768d61c1b3562a5749f4f06c4dd085bb562b838d7e2ef14a21fdf524c0;
0x251e1806f1951c2a33eb6ae39afdf9be6b971da924ae9920246d98bc435d9c59;
0x2995212cf7dab0d9fe609ab9e441218c5181d91e3e2f6c5b6a07800c8698fede;
0x23f10d62357467c7e71eaccb73ec7cd5c44d69abfb91849559009504f81aa57f;
0xd435e4564d33704bb176ee01b59499df851abc0dd5bbd64b3ebdf9635ca39a5;
0xffb4165b1b9e112cd77c00ea81f751e9a2d46e3071e5bd3007fc3a987e842e;
0xc55394f0fbacf892378bbfcf44b8e9475af7e5d7e2373b65c205da9b1b8188d;
0x1563ed24f45a7e60b65a0379df8dc871aaab1b5cbdb24f9f675daeb6fa138423;
0x270dd42f73034ebbfbce9182a6e41fb80cdaa78c06605db3c342c0edcc22e577;
0x11293baf366c075e3cf66c9f14a4899e1d9807460f30af948e44c06d43d37653;
0xdbe92f1d5f635e182354a066756bc119c14060543e78a467507983a74f9707a;
0x22b8d93d76a89bc36f0b5d6a1ec3c6053510622713e2b833499ba773dcc0c217;
0x23b478d2e4e21e478ea7c859da3dfa7229f6a2fa20a2ef1f406d9fb0a7f62f28];
[0x2b04d6ffbaf7144012d92c5c6212803c0b5bcc0d7b1950b889d1fa6f3e56445a;
0xfdaef081ffa41b2a3c6f8f4c23a5980f85b3301bfc3c342c938199cf71aeb64;
0x33a135f38b760028fbd4b2270791912b0e3008c2007a89b30621086f994879d;
0x2e1eb1ea7a1684486cfcfcffff8c926be2670f226bd883d11591addbea75adda;
0x28bf473bec9d8842b84cdf474a435da4108204b09ca3512d6ef73c19d0be40b3;
0x2edb397ae478291b9f48edd50660fbc1b5d7d906947fdddc255ba787d02b0366;
0xfa157820a600d4a78390b8beac81aaf6e8d1607d7f4eab0afa5d7ee6abc605b;
0x283fa69d06b072eb8b27c7c655b71caec057124aa1669240971c1d04fa881c3a;
0xeaf5ba40262c5feb646c4f32ebe7cd2a1ae38a83c48a04e0c1d452730d63058;
0x2306577578a3acb6a7c070ef0649b6eb67c58224662895d470542fff984f5570;
0x2f204614994166d0a9fabf6bf5db5fc3daf0bc16645f0f202989de9df97c1161;
0x2a93e968eafe2ef56b6e5ef823e29d96b551221e994f08806f148c8d318e7920;
0x2f4f684d1f698b3aef34a939ddab2b80696f2246a13250f8978d597a6a20e202];
[0x29be2a42834ae32de3320fb0ee46b4c102a3d1ae44c5dce152fdeab5450c9c44;
0x2ec317d402fd363380a63c205dd966e0a9fdadd78b8b9485273b6902b17ed49;
0x1ac21ee4c3af5f8d60fb78d0c764adcfe0c20463b3d0abcd3b602409f2770743;
0x882e85d15875eca350c4e7c4e59a820e47a8381321dc5c7f8f78aa3e1aa68c5;
0x290075bb9d48ea0db89e805f26952bcdb6f96b1507580b45cf56e18c21871cb6;
0xdc29c413aa32c2199a2de5e9605e1129b1e681163b80f82cf846ec5f54377fd;
0x2dced935f82c932e7a2a837e2816cac70bf50da3aadafb7f8136bf973b0d3987;
0x104de5f8e59f98489ffa42926a8aa9701c422e4f13abe90507106f2a5a60f0eb;
0x23b7b05c996c963eaec7c5817eae6d0bfc78c01d9c5da84ef4acde5204c4997d;
0x177a7ae9bc58e64a1b3baa1975c6824cc81d32302740709b0c6fac0ed9fc1958;
0x1552bf00f696b1ec39debdba504f79ea16c9ac75458588eb8a879908c80c22c7;
0xbc4a8170c368a03c40fdb65123bcaacdec1f9ab057747d5a2562d28f4785ccf;
0x2593132f444b3731469755f9a76b92bb29f2e89e264ceb1e2881a4aeeec2751e];
[0x1946fe9de0a943d5a716eac08561cd91f9031fec82da9ab72883c7b218b11eb7;
0xb5cfc2a2895a6f9f5ce97bf05bcd5fac012d6737d93be00df14f91d0e6e8d44;
0x1176eb406c82709b00e6c8aeb7437aee20d0e14b34c91b6d4759d425cea472f1;
0x151f15179f562e6fb43c853c9030c7d95da9bbcc9350b40862350b4339f74320;
0x1d83dbd5511b6cd9e553e82ebce5a91dd9f423bc9e311a211d6509e37e3c8283;
0x62edb4cec259e007c26a95be576fc925088cd487260bcb67fe88dbba993160a;
0xa390e27ae606a3530759c877186ef25fda97764052ade30cb5533f0ae878927;
0x17a961c4c7f021105e4facce2011ba1f6f7e4c18c6522a8879b371bc53eec16f;
0xfba90a3180e89f49b981d7f2d369f14b354f586ca695d5be51d562bb24f01f;
0x1b17b06f9727550affa91416dca65e6940ae6266c426f46a5b2a72201c9bf48f;
0x24aab8dff690a59f7a16863d2987edff9d240c46885a5fe39ce1400c1c6638e5;
0x48ed2132edee472d9b39de6eddaa2ecd7c1259af7c64ea368e66882d3cecb15;
0x3ee389275c64f648e0ef79dd7ef8d7c4034d8b0ff91a834705ad383278f1f7d];
[0x1af3ca6240a55aba55df8e49835b92fa17e39ad5701ef70f8144109f894bf1d0;
0x2566dbba85110cc708700743aaa5c7061b174365a8efb5938b4bcd82ea79929a;
0x205197098d6814100ccf6c908eb3792b0294290afe47949c85b0cc054a60bed7;
0xcced1f9a364f77fe44b306c4539575f8b1ca45758c4fcbfee234e8dcd973ba6;
0x305e20ea1b93c0fc73307f4825e80471da211c98323f23b727919b63e42501e2;
0x1e473b357377aeb6c9eeca4adacf0ebbe72df720bb533055f056eb9f2c13d536;
0x56d703af2f1982a482cc560c2f4f2da32ef0356c73ce35f7b667b8f825b2451;
0x46beadefd1c7353469794eb81f574d38910f72d81431159d4c532eecc18d67;
0x2ad6ce3498864f0ae788665262f8b99756997eccbe50d70338ecd68dd1e92522;
0x8b39764e398e29ffe39a83c045a1218036653fe8071ecd3779cc6e79e643fe7;
0xffb07a9dd49578818cf9781beaf8940764dcd2f07aab4123f4c9f030513f622;
0x2e7b46afef5262f60443669d526b99983678236c8f5433cd130defb06a39023a;
0x13c717906e68279fd9e57e6419986ee2cfdf96b20d200e4adb31353b19a91470];
[0x81f58a91a4e0d100e0369fdd81a190035342fd0677ee1bf5215e47f8e58c2c3;
0xd94283e58978ce187d463c50a7277cd3c80e044e15729a6f8ec0422f2ef8b84;
0x440a6e12fefc1ebdb82b5e69c461e3e332fbd297474c18a65390fc8649a3d55;
0x12146efb02498c13aceac7fed685b0dd88fbefe8f5993c0cb21b0b4bb85b11b7;
0x64b0712fa159104820ac07e0d2723a3bbc1d1295ab39a108e2eee8230131f6a;
0x1e0f62f785734194e76cfced2e91600716eb46fa4d9235f28e47e366110af98d;
0x8204690216d1d2ef851dee5e4edd9fbfe66f098fb61c231a0e89bbbd9e9475e;
0x20bac589a995937086cb727fc2561ed052489eefb58cfcc260eefd58502b1ac6;
0x1f4bd25093fafea78a9db91966e6145c46472a4ed46af710826accac2034fe71;
0x278c85ceea23e4c040b66e41ad9cd09a7d0ac6d3457a6e596df14505f071de2e;
0x45ee69f0bcde13dcc97f5910d8228124b16945cbdf38db33cfd3933d2c15c97;
0x5ef0c0803ce631e81fcf86a7c270ded90e8127485d424abfcfa7c4a9da7d8f2;
0x12b584469f8cb8b5c200bd721bb2c299c5e63422d730a3baa52274093f9fc085];
[0x22a852af90680a8ca9688b71ed27c157d02b406bd6c7fd8121d7c7793ad2305d;
0x239a362ac4f07cd888facdc5e32f0b42e7ce6485e9697d14fb4089bb6074ead1;
0x101185b0a8c7d142bb221c50fc9840e9c5a0bf1110e9dc717b354f100b514422;
0x2719aa9c388ab97e084241110f428722c8f72de23a6ee33f7040c781fa5ae476;
0x18aacbd4af9ddb42418648314a53accac4af473cb54e3dad906a0210b98bcdf7;
0x28d0ac11170cf9ad662a2f31d00633af17b9f0e345889ce997829747120aef6;
0x1c76cca8e7372edc737fe1755f75986a465863a66539143a5f21f8ff9b0f8970;
0xafa7a7f02200447c0e943dd60c468ea6d1cd1e001505ce16ebbcc97297d6cd0;
0x28efb92a44b7e421bca73b274bc28bcf74f94c7212d72ab6913c1709386c5e3f;
0x1a03af000cdc46ccc12067c560bbda2a98119041bf9ad3ccd9053222fd2eb4c2;
0x2409f6c3cc378966ffae28eb4adef67f8c282d8a902db3ba471d9540c0039451;
0xad59025aa1e7d4a026d1f819695b3f7890b3d9631dd06f7da00abd0ecd94ab6;
0x7591d69aa28fbfb5b65dbb6f4420106f0b0906151307b976f6baeccffe2c488];
[0xb27ba82a0ffb98368981736ae927a227828985c00c3e5df8c1276b1001089a1;
0x2ceb1780957827f9d4fac39214a4e82e89a82a760a9fdd85393b285dedbd8114;
0x18259272125382f107a04abdc0d968efee527d2242e263015e121fc4b090b582;
0x10c97f58b9ca58426bd89a59173ce8493d2ea8d3c6cc827ece2453ef193bedae;
0xfdb0710ff8ec599e7ad5086a29d53a9d1834e1a4c71f0b6846849eb0dfc47bc;
0x2008c67e2365d2e73a882fe3ffe416e8e0edf4a3c490dbb05d6daf56b4da0546;
0x874dbfdc6d7035655981f935798b58b755c7a9d82876352cd26244518d67062;
0x29d294ae7d02f2371a16b483b2102e0055080956b53331aa171f50de5d9799cb;
0x2aa10edd36798bf46c3cb7bd749017867c029a54e0ead556e2f15cfeffb4d9dd;
0x2b457a5ddfc105f203eaeaaff9af5149e02c6cf80a9327ed502b29f4c3602704;
0x29ccc8e6be785237b8d99009dffe037979c7da79ab22fb062d6fc1f59d48a708;
0xd829ea3c10abe53f0153b4446f6e2a250dbd79f9ef7c45745572826549109e8;
0xcb3680ad25a34e351089474c8ae39b6091e553be4b67c2bd1fc7a62a04287e5];
[0x4b46526207edc70a0d23c8438bc49a365635552dee240661a2cdeef966f20f6;
0x1ce71edf5b935a231b0ea60402ba756a4bb45d65120cc0845f6c2ee2ba32e7ab;
0xea85373234c815ce2693a734fe28705dc6fd3fb29cacd0b9f4edb694c15672c;
0x10e60b02e5c0abb8dae47efa17b0582df94a3baebc52bcce8820f858341d7188;
0x67ac96b7ae162e5d0b43715f4c24b9031c082baa68ac7638a00f8594bc3b127;
0x293dc450b0e5c560a15853129e238b046a419ac6f0c8ec19a69bf8c409a73cab;
0x7a2dcd14fb017674965e82174a35decdaad75e42acf3d5ac1a1e235257d1fb9;
0x5cf8b0f380d29befa5eb75a0c032b7b7eafa895d98e0bc0e86f03ed066c9876;
0x2d00dde97b4150107fd9bd859c5832844e6be0d5a99cc6752d97585b560c4b2c;
0x6f2b210733fa0605a0cd753fb6ac80a0d893b2bef2d5453e5f6cfcbc6a14302;
0x1588e892f9f2d3c6a7dce89f132b3dbec142bf485e2142ae05db7fb5d7ce211d;
0x14c92dfaa3a1f830b20150093fa670dbef3c0c807f52321e5fcd28807179cca6;
0x1bb4555d8c5f8bbb268361d5e1c22f9555f7c9f4fabaa24355c963edc263af6a]].
Definition tabS_13 : list Z :=
[0xd064dee824928d39f2a8be7d2fa583223c33995784d228839adde2559592592;
0x235ce940dbc6ae2af119016151581b3928bbf5dc663dc5f4b6cbf02305a440a5;
0x1f41f49e23f371de6ee0539e873506283ef7303dcf1d6171a47311e9fabc25fe;
0x2761de8796f7e0b5915f56fdff180ddd4f22001dfbf15bfc83fb8b76c2ed95a2;
0x2030fa119e7ea727117fa18d61bebfdc5945b9ccfeb4173b77b373a88362544d;
0x16fade125075ec0ee8bfb5acc676076d14b76e79b2daa5acd76fe6719476c017;
0x154054c752e6e827543db8d8d6baafb02726fd7cdcb71489510e89dd2faf5d5d;
0x1b492c6aa52f42a57aa6d9e9680c14875ca28a129fddb2fedbeebccb5c83cb4a;
0x23d1d1bcdf6c2c14376e6619ef855a718aebf7d9918f578b59025e9808936311;
0x1e509e854698b837ae62db6eae7730006480f64ecabc6189a6e923708d4aa5c1;
0x104a16aecc2dade9539007d7a631cb12e7ea1ab9fa18e4c8d158941e13322bfa;
0x167e341698c1e47880a08b21374178b7e318714eeb40b54504aea93443249f9d;
0x16ff745c57280b832126534f65a36e051fcf161483d1a9ac4d2a882d55c4b3d7;
0x16556da3145b12699852213b53eddd1859bf0c06464a69887a6ef1319cfe3dc;
0x1f52e72aec02c1085861bec46d3c952a7b17e3b859e1e119e29f9d55b00a9d20;
0x1439235c136533951e994a422857fcf8fd137963c823113e777cca92d5772330;
0xa70ec5c87c2873d1927e525972dfef236ff91f79962eac7db98fec13c3ca6b;
0x85c4d1ec109d4fe0daa8548c7b641d62bdcad7b01f0257ea54f9e6371d00550;
0x2f4b2580ce56a2b5941abee8b7f98ae4b89e652a005b6d378edca751823992b8;
0x134520116944cb30a05c694e90ccfe26376a23acdf44719d5e94a40c0cb4eba3;
0x2c6f46236b3de631bb23dded37fe4349e986b9c26a99382a28125b2123e9612a;
0xba54fa736725c45c9aa2edb10e2d160ee499707fc5d3fad092c6f6e60830363;
0x9fec55075da3b0d949af21227dff641435e920034b8f3a054f6ceee03f8bbd6;
0x2123de2c4d9657466e2c0994fc75161b658fccebcadb25d03e1005480ff65dbf;
0x15190bff5104801efbac26fe09882fa5d5aa2bfa702efcd1b9e8ae4aca9f2ee1;
0xd064dee824928d39f2a8be7d2fa583223c33995784d228839adde2559592592;
0xebeb78e24789d13e315aed03d6f9a7503f8027ac8c07bb31cab7d9f7c867273;
0x1a7408d356b546b06ff9e11e706fe10311eddeb564d15f77e406c4a17eda0fae;
0x7b909e9b3d766c0562bf5eae630eb1eaa3f486b67385e9f15840dcc75a4695c;
0x2fbfae64d96df063622736669771b3763fe4d7e32a253b2e9a432fd404a5a1d7;
0x2e8bae55338b9e7a202278022d1f4f1641e8dfedcb10173f8ffa47a394a792d3;
0x95cf55bf75f13b6986a1d8dc6e23ef27c6e20049be69d275cca08a95c4fafd;
0x590c80761bacb1996152bdc843ee9bc8d9e1106d6b44143cac61a582c93c707;
0x2e2c9e1b232536be64e82e3fe38c9f83cc1e2ec77eb98d690ed88972c55d4dc1;
0x2a0bdd075038ef925104da5f80d436819a8896b46194b795f9ede6451882f668;
0x25e3f54e8788cc765abcbecddd2326c7ae8720dffc3df2e7cefb06bf572b019c;
0x2c4e38ce29ded57148964df0816fa57324061c515ed02d9f5ca4cb4231e72d9f;
0x17816a3115471f4af63e353a891e5c63a1de21b079324c7376c7fb778162d597;
0x16b1e612a7910bdbb55b44174b22b72b63ccf452f485aadb834a8883f7a1129f;
0x1cdbce6ec5631b7df36d7fbb1734c066329559906cf4c9cc7023b75445f2cdbf;
0x8527bb0455abf9205319b4178ac91c89d27d73af39ca3eb5e267b407dc122bb;
0x295a5be07d3fad3d9622f92a52742786741d19fa1f85424e6bb0383b2b3184df;
0x1d10e15e892ef5c67b06061e9230a13aef08e3a2422e59ce6a7de3bdfced494b;
0xa1cd7913f731a263b47880b483792d1eafe766bd397d6a37f9b03bff649ad97;
0xaef18db0541091f4d0a8c6c0e04bb191c3b3eca9abfe91b336f37688f82381;
0x2c240c1f57384c0eb11da2fefef668be130079616fbe953378ca4cee358ae80b;
0x1ef04e55dbb7768b7ed264223a560b7462d131ac387b0e06e091075b036c2903;
0x19df6cfa53448857b40764ac927e45c59a4ae69088b7bfec231217fb49bde976;
0x1b794d61ed2a335a1b6ca4fb2df93b5de924f51c742c97eb1f45262f4cee3ddf;
0x62906482824c01daf001d0b01e1558d7a2e921bc124099fa704a167305b0432;
0xd064dee824928d39f2a8be7d2fa583223c33995784d228839adde2559592592;
0x1ee5e91ba44d3919a02a4c05a704d15dbd6665d3a0caa7534f062cb702e12ea3;
0x124e5670301689bd1d21125260ac980aa77f9927abfaf6625cfc4aea0542c38b;
0x17f39c51b4f9aba0b50cf36cdb63d6485b3f79e0f4c56fcdeb1668eab22d2ee4;
0x1e47876883221f61f5a85cbcf916e4255c146208100bdd75df2550b7f23d9ab4;
0xf6cfbc348d0c46f2b4514fa4aec63685b7b4a77cc187f39f90352aeed2d4196;
0x1ec916f0f8ab3534a45fb8b6fd52a0db612345f94a7d1047b9cb15bc4354d259;
0x2299e8cfa278c8ff8acb571283f8d58b07285fd3db093f52816286f8059d745e;
0xe63ae084d4165ef23463637d3c6c962642acba1dad62f5df322c00aaba6788b;
0x2c652dbc12391bab6e6b1642278935adc57f028d75ae594e23e869dcd807a04b;
0x23cca3a96c87c09a758f977f1e8e382898bdcc82debfae4df05bc7c16e74aab;
0x2f5c19ae2b06aa09ff617a2dad69858ae545b8a63f5c730d50312ca740d538f6;
0x185c013083f0dc7b1eecce3045555f593a1516f7c0486900029a21537acf8e03;
0x2e4ded90ce2c40cad391f536718a6f107838719e6cf002f2e914ee1db3fda861;
0xba3626706fae4da22a59bfc7d0b7c3cfff221ed8a6984553a6b605fb7ce4cae;
0x228687cdc81f4bd727891f41911dfbfe24107d60dda4ea79b5b094886e89c4cf;
0xc1a4374bc29963f2c4e68c51518e098dbe906d9c3a664e24938a403009ee28e;
0xb49ed175ec0cb65d9fb76b9dda5859af6f7eb12e0a4895c3de51228e33662a4;
0x26be812425de5be3e6f4fe6694d8b883ad156e67ebb1aacb6cb64fd41d64b19e;
0x17cd4b4c75b978ac369c026e0e34885bab4c745ef05c471d7975300eff003dbf;
0x28ecb3b468e0867e4dbe29f05490b90f6210108a30624715634e3cd6144085f6;
0x2ad2a688d5e1fc7a853d17ff8e29487e6a9fe8e234b6423425afc192fd6926aa;
0x177b3225d90e7c43f46ea85579f408bb2394983faa33d3eea7b7847e10b71a09;
0x18c733d3fc6d5c4ed730650c512b0b2922fa4ede0e4281279df25cb57faf1749;
0x25c287190fdd3f0fe552c72c747c521b8e47f042dee30f90c88cc49c425e2269;
0xd064dee824928d39f2a8be7d2fa583223c33995784d228839adde2559592592;
0x17223e88c5afdce6f98c3d3096fdaeb74fa99a0bf6237bb328466b843b5b481d;
0x17edf7bb609e24ab634349d03bbac5d92a99f1f54571cdac8e155a3767946556;
0x16384369e8e866d47b74c849496796fe485290080acb6d05a78b399906654ec8;
0x38414054cab9daa6484886487f9b1491a0424c75dcfd6e69c00f88391963260;
0x2add2a9f58afb253d9e9729b8510c6ded8cac2647871b4b2daf92c1ed8026670;
0x2f59f831ed16663ae1e72b27df74f8878583b088726e2f77e2a9b71bd5eb4e8d;
0x2c8563397614e4c977762b73467f74812d61eb6c921df0b18bf84dae0a448cda;
0x10844b6d701b264d333ea6d5496ee62b7f99b0f3e81e4774f271acd4e6dfc452;
0xd90e1221b226621bab0f84164c6bd657cedf457c1691c6492548cb503962f2c;
0x675d5268e859d734fadfe6aa6a58f5bd47e9d9bcbf7311d928562f772a44312;
0x231539abaa71d18f3c100449d2dbb5a78c8c6eca61debcf495670ab6881cdda7;
0xc5e674c55e57e981b8de7f89d00aa088f47c5b01c39bce85ede170519bceb81;
0x2e6b1e65cf7069fca7f5ffbf0760e5d2c6acec8da85ff34f2c3cd55f744c8446;
0x348474ad39c09ecfa686a8710a7737acd19917fb66e90a3df84d110b5b26048;
0x22380985f6c92bddd7a02d0187c845fb834c9b7e3664e1b064ec580536d1192;
0x215293044ac2044e97d2d06e714e937bb16844b2c4e834bc3555633a31ce1d33;
0x1076db0b38f462a6a9829ed423572f05d1658c390fca109dc6a5baeadb39ec85;
0xe0b3b39e33b5f0f7689976066d5aca89f070fb078152378bbe4cbf608330e0c;
0x1decd713548d0f04ca0fc3af31ef53eb04fafa773cc696bd5d7959d5b8781f3a;
0x8eea1ae2e1dbabf4e3969bfba914a7a5be05a672d16aee9029c3477ad75c0b7;
0xa3c813f669fd0550005be2ed025fd263f496cfc0c88708c5723fb6d4783090d;
0x1482b39a31e48749f37e6cd63f9fd7498b70623637fae3183f1805deb488df4a;
0x92c09a074272c56f7611ae231544253242fb998f1faf5a04032c897705cc180;
0x218cae97227d24e5501a8c68d0f9b298d102b5bb4870acec8ceb068b219c5de7;
0xd064dee824928d39f2a8be7d2fa583223c33995784d228839adde2559592592;
0x19fd38d0a9fcfe44eab81a88bf83e966f625dccfb8c8e663c92783d2f36f435a;
0x105b69e0c16b67fb448ce467efb92c03c0a03d0ee652aa1d3f57276bcda15b48;
0x25d1fb19588b96b835cf451788b64356dae74ac4b1dd04105f4ff71ee538e69;
0x1a3d3f0584d9937628708ae5bc1a677ca0d9734ba13f9f9bafd4d40ed09efd2;
0xda29cb284f0b19e45ddd3688a097cd2fa147726da98e7d7565480753c3d69ff;
0xbb245a4fe17933f1a323de946e9c79ecaefe27cb72746f02dd7f8a12fb97465;
0x12968abc1e49e916dbfd8d32c99add0f2522613fdfa603384acad50adb3c93d4;
0xb72090055db8eaed15c53223be0d59f134b6e2bc190ff8aa145de2bc81fd905;
0x2ec92e332d64bf0a6d53aab3202f16e8f931b0b3a19d08397981e4d67f7e6149;
0x10875e45751b9f7e6d229bcb6035a0f64d2fc266087bb15b46ed8dbac225a875;
0x20a28d7e7bf2393dbf1e8fd1b5957d6696a586df80ea755679bc922b32214f06;
0x2dbcb5a066131fe70e1035acecb96d60a3c48394ef025f9469318ae141b59474;
0x5d382b11621ce81dfa3b2a5b9fce537f18f3e1a3c11b744c44b7daee0f539a4;
0x2aa1cbda3b7224be26b553b60967d1e49a79cc1fcea1e28dcceae95257195fa5;
0x119d098ff4fcd15606264dca209fa31b8f90d343d73408afd99cbc60bf31b38c;
0x2d6a5ec1decfd860f606bb717c2d6fe04d5da0a512677bfb3b88c6eb828ccaa4;
0x1d44cdd7e0f9ff30fa262b991bbd4b25b9798c52b5475288dda93773873b70f1;
0x1a52bfe42c699db0584e9908947654007f895244c01b0827637fff73ee586351;
0x26bc0e722f88daf0ae3100dd3603409108756c81c2d2526d432135867248f06c;
0x2151d6544b541cbe98b57b17bcc32174691b7dede6da01a85964ff4d03c63ed0;
0x1dc401101c1f1df1931569efaa9db035fb7eb1f94ae9ce86cd6dc0540b1a1fff;
0x219d8e0b575d09e774acf4018fb6302ac990e13959c8bef55814abe703d0a4fe;
0x7107aac0c5aff7df10b39501354acdd1ab5dc0091d0166c55cd063c3a3100e7;
0x1541846836b18159c10af51567f8cbd22556df4f20dd74ed1cee58b3144fb464;
0xd064dee824928d39f2a8be7d2fa583223c33995784d228839adde2559592592;
0x1a21b2733e57ce5cc36d9770c7eff1ae09c59af2a97deb649f35e034173963f8;
0xaa74005a1aba9f35de88f256300d0f55c9a568a0a3f962547fff0a2ffcf3faa;
0x302cc36dbcf39b2bb8f4ff9da06a95c8a904275eb4ef75a5b82fb7cb80133143;
0x1ba8fadf54ff193f90ce70d81d068ef1caff816cf4298a9e9c359b78c7b3c77c;
0x177e25961a6d2d2538623d70bd43b86651ec63b0ab29b1e706308224a0b7f68a;
0x29ade22a14cb16e95939ac85e6c50f089d187069df8659609634290249efc500;
0xc3cbc360d3cc87126d6dc733e8c0276e1b576ca318d256669a2777f70d89308;
0x138a5c75420e198be86010c147c10fb0b6c882ec10683dfab0ef1b8cc023639c;
0xa350052193a49d3255030214d15b36a10e7b2561890a4c851128603b6a5f092;
0x1002580094079011e6c17ea867b391cfe05b5e73c6de87869cf2545c10084594;
0x8c06521680fa7df05e7c8fb8a3a2ffdc0526051a59411a0cdd29e5f993e8f47;
0x2a3a540122300f3070651e9198f9d5bb0fb52546c35ae90a4deafd9baf4e65a;
0x1416a8824238910444767922e320d38b543cca200ea6c5591db9092e224be615;
0x507def96242fbb9a1ab87fef1da1a03f4c3349723ec4ae6de894e171a1b4af5;
0x2d03148012d730729390a74fec2d3e7ba9fd23f45e801657fc5e2a49b43744d;
0x19446791471a6f03c3e0e557ea0d4b24bbd2930669ed23dd286e81b7fe17abe5;
0x23c198ae993dfc34a55d2cb02226db49afdaa1b8cfb934a05ca594e616f43f35;
0x49ebd2c1b2507a1399a21690d0e6a900184d15280bda27f5b53099933aafe5a;
0x28eb35a44903f387f0b17a692fc99cc80826f9f36eb1b9576e2c5c4c48ccec56;
0x2e217b29bc22f5d1772b5bc1fadc11af5afbe87b223fd501b1b63ec28a77435e;
0x5d617f4148cb5ad818ca83e3e25d1aac33119f4862592430498b6c044ae087d;
0x196ddf78908da3e629df88726541e8f3dc6bf7b3434a93b25434b2773b546eff;
0x19f43813c7b1361c536509de373c74ebd978b0f3613d0457e59295ccb3447940;
0x1dac98a00317e1ad75b44dfd710de43a70e1a99afd151dec478a8d0b4ebd67dd;
0xd064dee824928d39f2a8be7d2fa583223c33995784d228839adde2559592592;
0x248389b6c1215ae80412361e031f9d19e83e305fade25b5151787bac24151f30;
0x1d6245849595c3f2e658dff1f825202f744288c73d5b6fe3e47be01c85231a63;
0x2828197fc5ec3d0b61e3cd35b39ff7ca0582844ea9893e47575ac698fe0fab44;
0x5f98baa94403cbee299a7c38bca231773951a9b5ec47809445687c1fbfcae21;
0x21c21725d982bf880516bdd009e9c82289429fd8470ee4f009281b6d610f86d7;
0x25161628bb96c434fcdfed33abfb03d4492060f9c12e5d6e11a30da401f65624;
0x98dfc41ac8db685ac12e9fcb277ab8b38fa0b4b943b5f5863189e57a4ec1726;
0x20e5160dbc32bb70dd2b667ff122aac9c9a209830d177d065eedaa37c238b6d3;
0x2282b92a3302808cdc7032e874419ad5b9445a5e6948c67e35af7b59647e6072;
0x19183560ff143e5d855665e03136bd60d6e627117857e45ce3b170d335d19805;
0x1cb1080ee04da98e9a546b1eafbfac68d7bbd31acd6602818742e1dbd035345;
0x2e08e6eb7f7299ddbf4e83adb2f544c8e2bf1733140eae2a24ca09e8e190ba93;
0x17313eb73d301839abcd85bcb243a96c662a9225d70e923f4966024ff3fea376;
0x115a8fa0b0211dcf5a0625e77bf00d4eec93b313811c61441d04e2e927f99a1d;
0x10671e260167bb4a73650275e517b30cb040d62e5d8bc65a23e2bab6fc0927bf;
0x697b10896487efb0a81d149a959b22c8edd1b130e18ab45dd5e4f287fc567cf;
0xe23561be0a6b6e5616ff582cba30e707dfb2d85aff42daeeebab0a41fdd2a9c;
0xe6c17540a1832e4aa8682e0c1ca4471e2ad131c70a6abd6333268f39568dc32;
0x77e8a2a9d0da541d9357eb1b603ee9410d49eda3140ba9abbe1b6cfbf8d4e36;
0x1ef5a47f9491310e04e85c853bc42a12227721bc8ef99acf866256c6f0ac2b05;
0x2d756bd8508664fdb9623bee29f62db368e7e9fb8c2f8cf806a2028a34a54ed8;
0xb6440027e32df5bd12e4075461952f0c0a169f47e498833a0338776f3cfee4e;
0x103b3141b18d49495ce38d5e0ab2a691e78193978da5888e36604c51eb757e96;
0x4502bc324657c18c59a6bcadcc0735e706677a556f0ab33468abf64bd434649;
0xd064dee824928d39f2a8be7d2fa583223c33995784d228839adde2559592592;
0x226880584a57a7c552da325ea532bf382c67482108870675bac5d3d9b6a71abc;
0x178d0b7b044c806c180b95dfbe188f99e7dad714554fae1365264f33b5204d38;
0x110cbd05beed208043ab1cba8a604abe596258c516ea0c68b804d2e262989e28;
0x2b4f9ba6e2d2e31078ed70f6a147e329d1c4b83c76119951dc7bcc6d2a944cd0;
0x1712edcd1662f4dab78bdb08c5d2208e096d26aea6d8b5a2f1ea1a575dc29dbb;
0x20e7ac1985805214842f811423601b3f18c8634e87b1433382bdf397b28b7e21;
0x5e6b0e267ea884c7a767266b614d9f23883f297a9c40b2be9daf6af85f31fd6;
0x15adb275543fbb0e083a10e1ec448b8eebf82185f0a99a06bca805737f0d7db1;
0x23f2e8816906f5fc349e99c8241230167b50d8db22c5e752d640fc319c7354e1;
0x8a8a0eb412422e0ff3bef4e8f9e98d0937293d8bd96c9ed823de14c7a60fe44;
0x147392d188c52fe487d5e14652ff175b37253bd5fb04ec9e316de4cf5100500b;
0x1a1a69d5bda4c559702d87b8ffbab347d61d5d5ffba016055b540409e90d050c;
0x26265b87f8fac4c16383d9763460242746a0fbfc7fc375a251a39e5cb12c8ae;
0x562af273c7d6798ad1772d383417f8baab7feffa3f8fe1b5061e695a63ea362;
0x2277d743f99daccb8223eee9ed2647e6bc22c5f00a0dc9b45c26898227530c02;
0x2ab7551e6b4731a0b2c00c1a1c57ad9dd66b2239a2754f64328d4023249f331c;
0x67e6bb5600490688a67ca30a941a68f15dc97eb418f8cecceeb1d1f49af1cd9;
0x299b048827a0cc67b44e53fb5897f27c57c448ed25d4be88b1b81b22186c0017;
0x4ce6cdf689338f7df3c3ba84e7ef35ef59adce460340ea0d161a45123c4051f;
0x17631e8c563356367e1607096074fcd220d0256a60e1e6d145bd243c5475cf9a;
0x25be84baaea86bb16bc3de4e5578c796e1888ac898d37f1f835ea87f1aabcc04;
0x7fd81c59493a306dec9f05c012a96c113a950a44cea7de572af401db8804f2d;
0x2d71abfab45aa0b3d4689b2518ae16f87cb60b0fd9d40c3567e5dea122815ae4;
0xbf1dacc9ee49263420b6b40b061e1de77884556be4629a011bb73c3cf8fd282;
0xd064dee824928d39f2a8be7d2fa583223c33995784d228839adde2559592592;
0x207e38309d97a6bf02d2c9071fb8c0243a8f6570c15c1dea211dcc2cbf45ea49;
0x96401efc3b429395ea5c187ccef5c551ed99043ce3abe10e0b2f6c0fa0d29f1;
0x25e2fb13f405f8cdc60da80af2df8f7aaea21aa8c5ea1b80edc22261c424810f;
0x14f942438d0b6308e88366af640e59b35e7b90dafb9949cd395fb9edb36e57a;
0x1a732391895868212d93a33c0c4de589333631c8260c991f7885b916d0037272;
0x1e29088ed2ebabe07ada9617c87d6ae3eea384cca222ea5983550c9d25bb0648;
0x5ee285acce6181041543d01d650e8314690f337372341336b4fb1b27dc1bdb2;
0x252b8b5dff5e6788b2389b2e55c939e69871912bbcde09be55a0baf9f8c7a67f;
0x5198e4ac3158c2f1f30e9c7333b8f185372db43467e884f9961396b75f7d60a;
0x245a5fd31eed8204f89bceedefb467b89e3cf7fe91d24a33a3207bb6f083e19a;
0x57bc812c85f04480fe94410a106b281d8f3e2d54b39e4fb45e0a5ead0910dfc;
0x1afeecd7c598ce3f7281378c2e514c5be72109df6efe311497dbe12a819e406a;
0x2fb8c6d1000b2bf11eac94956464fcdfb9633a271fa8b070f4b63efd7b5007b8;
0x32899458487c72b4c48dc1f717a0b2aa3ce53b6a4b38558b7737ed21cafe78e;
0x662f06913258bafb5bdf1aa929332c7c97d4c4490c6fbc8e798335ff76e126b;
0x1584478d313986eb0ae24f5d342d3ec738138d749b5071e839c1693af46f3a3;
0x2dba025efcaba3d1c4cf07885e8fbc1f11c012bcdc009087f306a399a7645111;
0x9883180be89d40f292405a2d44f5b9bba1c37613ddf84bf28c4fe593fcf06ee;
0x1ba2bca86f0f3a73f392649f65c1eeabb57e3527588289b4820a391a46475dcd;
0x148b95dab3a784e6f57042365a46a01e5880f17e09f3141bf99c53ee8a1ff06;
0x209b90e92015a18f13bd1343a34d905fca3ed55b88bf1eeabd3e542987a08628;
0xb50cbb98c4c16293795735e6cad9a458e2d37f1c02af95b15272aeadee5307b;
0x28f083282c1dc347bb8049f59580fc82bebfaae2fd4d5c3198eab42357656c01;
0x1e3cfa063b3cd467a69c8a628a627faf26187744a879ed796956bc1e3b1ba00c;
0xd064dee824928d39f2a8be7d2fa583223c33995784d228839adde2559592592;
0x22063e51a25b5a045914651b3b3fbb41a432a2cd49fafa1a6da1f1b3abac6b39;
0xed1ee65d2b2cb52e5c72dc18084cdaffdc8eed2dbf45309a9b31afa3239e0c5;
0x9f1f1407a395396be8efd490907e71b2a1e1a761f5599060b1ddf9babe3ec3;
0x24e22c3cd40dd01dea8ca00b4ac1dc8cf2fe8ec7404f09decdb5f2e27e4f6a51;
0x297d190c65439de912d9b19a51a34f3af3062388bc90dcf02c95ac55f827f393;
0xcbc6af2a7286736fff8c442d20accea23f927c42de68c5965be6b73f787871;
0xbf4731c628503367f3a0979d34ebfc4e1b3a6ee8cb90f8e145ea71108f77b19;
0x74ef632df5709022478511a69f0c35f167718dd3943a871dbabcfcfafccb99b;
0xbf311d6ae97647aea1524d5c401392a2a6242420918607c8595073f00163f2b;
0x2fb17a27e5d93c8fa198091d288eb25cc9a75a3cc2bb29c73b7c4962ba6b02b6;
0x17eeb974a4bb33ec349adc4e3c5e9141c3fe5b52b8a9eb5f55897fcd3f13dff5;
0x16c75dafa94b13f4baf5a849aa93deda4486711f92188ee41083f8ef0e2a19ac;
0x122da8189ad70e3c28109ade01566f47039ce2a35d85eee2f2212139d7e6a83b;
0x260972f4d1166f0a53272aaf203d54909f372f9ef5175fa8d15f863299bbac2e;
0xaddc83c8f239eb4617cb1a6a99b9ea314b775252379d4a28092946834ec18d;
0xcdfe4ff760184a4b1e1c7df835824830c35d9ae719993e1c8b61968341c74ff;
0x6cb7b1d7ee8b715c2b325853d8374f2f1edd1c47defc42d560fb1ec2ec4093b;
0x8d48ac917970f6318a8b999fcfa64bd0026915cfbbaf2356c0e68415b42cf64;
0x20f5eca934a922f2324ec4f5cd1423fb342004e24db642dde32d4f49b020f19d;
0x2926c1107b74752a5b0b0326f9775d3c0290079b81f1ee7b3540c857a2e6e7f3;
0x2ad7b40da5583cbffe41e7ba8a9dcfa0aa04526e17a359e380152ab05659aa3e;
0x157176042c8c3678e6a57db77c420cd2aac6658f392eefec6bd96ec3d75d16e1;
0xd6e65707b940bb40ce868be699f58d8f328c635900db4f738d9ae05b337e4e3;
0xd794b0f796362925d3c3f8f7a5fc0fa8995ff16b7cd198a7a4f2978033d3e61;
0xd064dee824928d39f2a8be7d2fa583223c33995784d228839adde2559592592;
0x20a525ca48bf502bca0dc9aab020e141e26b38ec47a44e1580c0d1b616351398;
0x1ee320963332762900b4744bd20f6f06d90663c9a45ccf876dfa46ff7b6a648b;
0x22635f8210cb3cd5a5f3d6f3c05db35f48f4dd99ce9689a4a49c1396fd0254b4;
0x236867069537dc76045fbcc34387c0d659f274038f60bd46092c7c5c6d2a93ac;
0x2949bfabb09d51a438ba0c845a569c3cfd415a4767babba43d49b4a7d23efe57;
0x1834d2d0982cc3e0a6783a1817d0a70935296a1e1cf6ced2fb36e49399ff129f;
0x42688f81e90f021c645ab69ead85df5637e8c35e5f747da2b9353fba3614759;
0x2cbf3eaf39ad0427ce377701b0aed081ab11a4d8425a5d85eb6ed545e02a3e67;
0x28ee79339c57962491524337981f039783042a61ba46bc4b6d27842ce253e295;
0x2dc6b0d76d332c582bc225e0e3852a84e670441a34a35271183dd071b3a8b9f1;
0x7cf8620fb65b2763c494dda02d454c32d86918bcd972c81af8896daa2e25220;
0x19d3305037fe6d5dbdb1c2cf07dbccfbb3771dd745a1a776027e76b829c38e15;
0x2e6f19575b0e917c325b5455bfc97e65b080d5ca3b0d866a13315efc1f5afb43;
0x1e726c0acd6e169de2eeeaceff128e7691b7d4fa8a046ed41a828563547a3270;
0x2527a428504d8fbad1a95451f6968dd7750e9b88eb737094d0d22806ea461bfa;
0x1ee0e151bffcaf72aa962734818b53086af9a5eeeaf821fa85a16ceedf5006de;
0x1332d8ea514225643ee26cf14ed13c2936780d3b0df8d13a0d80c7593339dc1a;
0x67440d1b5c5c1e37921583ac6081d7c0b614430461abbce3445fdca1c25e52b;
0x217e15b68bbd0d70328ba92eb9848533a76fa177015bbe167d9648e216d72fb;
0x1d5f55517167e8f4e07ae1d8fb025baafb68072f0ecfc39c2ab6917e2883f001;
0x1ce431894721293173604b5423cf3be2aa2a4c602244ca33cfc474364261e219;
0x1870cdd25b0026ceb6ca8bb7a4abe4c835cc54fb5d4a2bdcab837776e4a41f36;
0x13b6c4c8a9796559718d72ff32d05acd285d4e36b24a0dda09181dcc0b821225;
0xe59398cb50c995ddf9469890c14f7eb35b6d1ff21b54fa88d75105180cc9c84;
0xd064dee824928d39f2a8be7d2fa583223c33995784d228839adde2559592592;
0x2471cdf128c6570022fa1786a35b379627cdf4a1cf0c888cddf80196fad77864;
0x1eddc8c186b5952235d179801e4d1f5526b26e72d637d482d34aaf8acdfbc678;
0x41287596ebb654ec2703cb288320c78b03e252a98d304b5c670d6a9f3b75f11;
0x2d27cddd60f27e931720ad20633a2e0aa9e9fb34e53a1c92449c42539836cc84;
0x386464e269edd20cd4abedb92ea083d5251633ec2ed40b9c9298a6b03d0c47f;
0x7b28d6f381e7fb054165533e6c22be7235e01dc2111c2586c88cb6b13915daa;
0x25a51836e32d3111c1ef3a5b222a45a8647f491b251a0e7d548aa579f04dd532;
0x4133c14bb36f4f02735144703cf36b0e6eaec35a23b23a5b3d7bbccce729e3b;
0x1a107c44417a85fe63fa5f32beae1188f7ef9c7e9887840e06c41442065fb590;
0x11963a7f8f62abe87fd0e9f059bda23e56ea044fff31672c16653096035d6e60;
0x63942281da7187cf115521332a5480ea6297764540daf35e844f9a9db14df1d;
0x28323184f7d03f5fdb8c55416291a0f2893f3f8f704345fd197335bab60e6313;
0x1d5ee3c314bccd0507e0e1f3d22cde05f8beef4006bdd196d1cd972a00f328b5;
0xe3e7e1bf77551287cb3436a06bcba1356aee949507c50da7075fba70259055f;
0xbdb1ba75288ad45c653e6731b73fcf8c2e5a06452a7e9b1055349ca1b954a8d;
0x163efbc5313a19dfd299b4f7d24ac36fc09dae316bdaad22f2e7354890487b3c;
0x655a2ee9811be4138b87caeac43693187ba723a4a252e1fe5aa481cdf35dcf0;
0x221ab7029ca41cb3703fd26fdbfd99f83da62e3d6aed9c715fda493e703ded14;
0x17e06a11e4766ab95ae693ef77be2fd5a816abeb8af48e77812af31a9bc97556;
0x24fd79ff869a80007553fe52dae87841d271b05d3465e21632e97808db658a79;
0x2937964cb5feff56156c0a2d36e7d717f5133c52311e8a9250e3e538c6d6a2e4;
0x115b54ca59723ddcf0b8b72e014a3532bfb9461db00c87b805e6eb6f950eb2fb;
0xb83ba59544995c109fe67c59e1c6682df4f0a94420449255f2e42125d1522e4;
0x856ce0b9c472642563a58f67fbe8490d213f1e60c841539d6593ce72c8caa75;
0xd064dee824928d39f2a8be7d2fa583223c33995784d228839adde2559592592;
0x1234cde55f1ce07e8add8919dc2786c2a2e8baa0699f9309a24a6977cf4de312;
0x2728518406453c21f80cdfbc5ae5a7e5bc660853c39c07f08f4ca48b866fe708;
0x263c6e870681a568879af7059e9eee6c2107545775a707e5d397e090bb406681;
0x264b910c5d9c7677ca26b01c95b2eabda02155d239a7525aacc9e7c3a1b31108;
0x3626d5425f196e0ecc625c95caf99c1788ab08826db99cfc994dfc07cf7cde2;
0x285b7fc8640c5644ef5acd76eba635788490408488d4c1c7fe5e154882885b20;
0x806dfed34a9e837d6269442a1ac7f06b9329bc91b841651f866d001457a7e47;
0x17d501d18a443c458bc2987ac700a167935fc95c0b43b2bc31d3d1e66f4f4185;
0x1c265144d850ae945f896d29b8d25558fe572437cfbb23c0d2974ed75a8446c1;
0x2d349fcab317e2f10486728b85b73fd55ef9e72913db57a96de3799d79331a5b;
0xe3b16089c86c7518eccbf3e7b5d6c93a7f57dd663e313bd9278599baedbe8d6;
0x16842185b0a19379239ac6fc9576f9662323e9ccb19c73ca551dae5a204363ba;
0xafddf6a0ff562cf8cf83b9b4aa7f77ca5944dc203e6716ee136947b7774d185;
0x1a7b9bf02113552d2267b66a6a183c58bd9b0a71b607424034ca249f48056aee;
0x1b292db8eb2df955d186044eb865b53c345855fb04e0e7aa34728f3a33dc8f61;
0x1166bc2548e4dd1a597827e1ff6b873b8c029056733c2b15524595f6646fb9ac;
0x27ef791b1fb45f73950ca3297ad2eff668164240ca0fcec4d505379347a4b32f;
0x94e36712d3e0387be23f4e8d2e8932333c2b5b329ff01b0bded642875aa8d8c;
0xc3cb8c9451dc65e2baca4021012b4107b1277ec1e8cf85684523a86f4452caa;
0xc16066d636413dba5340f2dc58657da3d04fd4f649280bed2ad6c43dba22557;
0x26f53db3a19fbbae833e6dc50733326512531bacac05e1142b5169e0a6f37b16;
0x17bfb665418fec0ddd649243c3b77515e92eba58355437ecce39a21b3da565de;
0x21ed66971a5e0e1451a9657918e2bacc2cb244d2f101e4a870b7c40400d8e004;
0x2fc72d372345e9a20344054b130f91cc301d409bd2ede08380b1d2cc9296a0a0;
0xd064dee824928d39f2a8be7d2fa583223c33995784d228839adde2559592592;
0x242b4eadff11c6d3d54f5372755d36c9829ab3f1ad36cde7fad1b4927bcfdf7f;
0x85e6d5205bc517634147ec300edcf4d8e40d319b2774da859a677ee823b3474;
0xd7857f8c2ef1d3f6cc0b9d269080a8352f716ced9a8541b58047570931c9a8;
0xb8a79f4d635ec38c11720fdb6bca9a37e4ef8bbfd3c3a753815ecc975c6b1da;
0x2d581f4dd4f7a4870f6924d8ccc3aead2778ef1e6dd93b766faa89733c57534d;
0x26a82a89ac34602384406faabac1204664088042b012c62c312d10597d4473e;
0x119c9ce0168defeea8eae1085b57836db28898019661e84f988bb0c5dd3cbb1a;
0x1fdc49eac128a24057128d92ee2b8ae3a28d2ae331e53e898a9cc4baaa67e144;
0xe63791edc085e7e68fe844a1e288175214f53697c447a06af668ebaf9624d7c;
0x8e8a95d72c8b0f5572e434cd1e8f29a22c7a051beefe38bcc1c8c67021b6cd0;
0x150bfbe651cb129452581c0ac0582068914d6b6225eee54f3d041e8a04ee959e;
0x1f67b188cbddc9dfe73228557f41e28d562eb71233399c51a1120b6f6aa84fe4;
0x3a94eec3b3b00da129a13059883d56b89d02876861ccafd677f1b692e74dedb;
0x8a03a992c391bed4739308e90e2039caf26422b0fc314841229d9e65e29305a;
0xf5db68b751ab629eab8876005534376e79c4cf2a3c0ce2c7681a9a67787afd5;
0x14c1cf9ee31fc11c4611f6def094e6928ff1469cfad92b71c27eb02938999dc7;
0x1c8430170e0d27fc8523ca6c5878db717b75136669b58b0582278e4b6a43207e;
0x2eaabbe95b7e6d41e239af122c392f2c8a422309ca8fdf3f73fd18c4e266b50;
0x28b85f746bc03b1a6497f9a85fa07e337b664a8e01bf96a096195cdd8dcfd78d;
0x2eea090dddfab6d9d45f8fdc01e0697db257d6481ecee44eeb736310a57194a4;
0x29461ccf449b9fe3a48b3527a1b792f31761ce88a12a1bd185d02989048c6723;
0x2d1eba58a7196aeec7ff60c922a6a37d238bda29e3578e754940fe55f6b44f6a;
0x1d8488523480035454dd45ab1136e55b48ce729fc37fb3bdf07cd401e3df9864;
0x169904bf4f7348ccd343513cf038cc546cd137c740b77d3df58ada6cdd49b292;
0xd064dee824928d39f2a8be7d2fa583223c33995784d228839adde2559592592;
0xfaa555c1adf771edfa1b4f67a73108c7325be034cbc2c2e6d24554e62efd737;
0x1a4ceaae57de9dbb19bb3701ae021b7b246fb7550aa505df8f95be742293b7e2;
0x22d8eb68a906dcad75da8ce62f6763cbeda8004739851057965302696e185ae8;
0xcfc82aa08b2bf7faf7de17be9adb759389c398441bdd294ed0dc25d3f7c4f8c;
0x216a462577d231190606ef2920c63455045b8d51fbc6981a103a5135335f83dc;
0xe63715ac0c89614281493e16b0bfe6d11194b36c1247e22838771eb1ec766ed;
0xd024106eade54b9f8b5874bc7c3499487354afa2db7df3be1a971c8d2405265;
0x11daebdd919b5622e294312a5e34121ae33104fb3e1f9e89dad0668f0517158;
0x274a0198961e0c98ea0f75fe1e38ee5e5962225738d6c8edcdd5623e7b24eb6f;
0x136d49834864e42917bce7dbb0e439d28c2007fbf09beadc78497d1da2593b58;
0x18daff02be933186319ae1bab91e42256c5b56ea3d2d0698189294828e2a9076;
0x13fbadf8255db09ad6b28d0a13874e8586fa565155da2145f80fce40f0c175f8;
0x75a76152cb77f3a74ebb64a8b949d032a2e1ef7ef0f35fddcfd89473b5c1e71;
0x1d1a9d3eff8079f2fd739a8c1ec1a1d2c391befa15c4497ee78e2cca6a327495;
0x29132a7d6dc081cc6d7a5c3524f2805c9ae3c66a7de1714c4e75a9ed06206bb3;
0xc1457b4dc6efd6f506f14d2cb839adb6995e2565223add3079801818a2b3b9a;
0x66406956a8af95c2f8e84f977161005287832eb4860d0e333bc2a6738be404e;
0x2be8ce6965272c3ea5fef305d80056972b0cc10cc89ba56df234736a8168895;
0xc624c5b84f86974e5992e2bf99aa7406db0bfc77db799e680ceed051578bb65;
0x1c9fc7b076255b1dd44a3f77be12b8c0c7136880ef39f02aa002253ff808aab5;
0x1ed5752920052d66ec89e671965ba4ef5beac9b982b7405174c8c2cf62ba9c2c;
0x11a79d9e71816d2f90a16813583dbcb286ac19f81016b01ffa4318be074997d1;
0x2332f2f0231e1a5f4adae2661a4988c773f58f806ad73cec7fa8410327c29ef9;
0x92041cd3c1f24dc8700053b6d0b4d130f9709bae71ec397d1ebbcd08281e1e0;
0xd064dee824928d39f2a8be7d2fa583223c33995784d228839adde2559592592;
0x23402a04a12ab3776b14119bbf85cda4e8866dd1c8c2ed209c5cf5a94832d9af;
0x21f6d7c6cc0750868e0310bb8a7fe02b70afad0229fdad5c5cf38f7231d80528;
0xaa11c91a5f547de0061ad5ac646b4f17580e985d926dc48303da965dd994672;
0x2542d51f269de541f7040d7d707fd4d8a045f02c7f0a662e0458abd1c787cfa;
0xe9367b46e6b89363dc9cfd523f4abb4d123a0af9eddd5e356e63e3d49092542;
0x13d2aae41f6b1c1b5bdd9c576c7458709c75eeb7af22fe0b7f5d98ea20609007;
0x19a2b2dc5988a9ffdd458384dd5e0cee7970afb38c1823fe897e485fcda9dad2;
0x8dddcf32490be94e7be38105e717382f7966deefcdbc67432c312b8aab15a1b;
0x1a30ac3889e0467ad2178fbd85b93ccc493565c376202982dd16ec9bcced261d;
0x2dd2470d7ca5e69e5728e76adba044e821425b245bb5cdfd48132b4df5f362e1;
0x104563d762464be13f51050d3d210162ee31e4b14f0e37202aad99f8723f0ac0;
0x121b7e910a0ccb4e4d5f220628cd64c2846fc5f470a7c2b6ea38170b9d058b38;
0x2fd423fe5d1899fe054ff1b9684ff93540bc396589289388681b90fcb8e76c11;
0x298f732a1a912702fa4c4090d00861d99bbd4eb800b20acdf1c9d4a6c8226a62;
0x26f56ce61eaed10294727014eb88ada99fe5015c911705cf7ed7bd8f04269daa;
0xc316eb74780def4c7c08420d1a887d3f3b8028f2d65ef3e18822ba972a50c96;
0x1db5c65a2d669c928e82c2ba7a85213d03976e7355bd3aba90444c8d8ecbb108;
0x29fbe3f0b5d6936f4e42cf5ed294e1a18f7c597faefd0087653f06f1cd7ce55e;
0x133f5377394de76650324177d895cff11b4edb902724138669df63d064254274;
0x1762e6a990654a18eb15171a84030e43a93481ec520b86ff65263055551d19cb;
0x2bac62e64e374a494b9ba34ac9cb872ccef42966e1c98c9d12696e1b7b9caf0e;
0x1dc2f5d192b065461e410a353b6e9ed48f8dd9a5b59e0d4567add1ca1edbbf74;
0x1e78930fbea45070dc63eb82fa3b44feb8811842c8040f584482e5529b9c08fc;
0x1161dd83445bc4ac05e88f82b6d4b395dcb7bc08bef6bc0394e2860e1b91a45d;
0xd064dee824928d39f2a8be7d2fa583223c33995784d228839adde2559592592;
0x2d84302b2f1ce369033aa5de5bb8498f718102642636ea98a13d9f2f9e03d70;
0x3aa0b6d1722c2e927078f0d0d2a9e1651a387b0a50aabe4c3e9f9e29ce5808;
0x1851a25520c47c40439abf21fa5b9007ae1557a0d7a737ebd36922e1ec2fe713;
0xc88238b7bc582be65a3d9780b1c502a8b2a6bbfcf63863ea988e4caf6e75767;
0x1231dfe4ea1c60c263b7a7f849c8d8cb42c5506161b7fa87e527e917c942c5e3;
0x2ea0849f20d6ff258c0f184ca8057bfe236245dd4b8642c64e42ef4a1a9d8ffd;
0x1ba62148f57f420101c599eeca0abf930464f2c0444acb90d2fb96d3db62f7b6;
0x21f4a3066fad0b05bc69b92e00cea13278d1a5a67436c1f3f2139a6ee79bcbda;
0x1be4c6e03d2807854d234372f267581058b173ac8b3c7483c6e8dc3352798b79;
0x369cf9d45a15633cf75d2234f1014f60d1ab30cca21b0fc60af3c0fba6cc06;
0x251ba00e6136bd990f4db7457a27df54e6e6a986726cb005ee21e173dc9c982a;
0x290465aa219c5f39fc7dc5b210ce805d70d3137c43ab354abadac718f5357e1;
0x72153d3d9304bcb121e16ac43ba352e3492aa9264e39abd0ad500003b2c1a0e;
0x9ef6ef37f5f703229c7c5171a54a9e7d70151ab47b6312a3b592208c192cc2d;
0x1041b9436273bece36bfd9801372251c2e753b50485953908c35b63979d9fd82;
0x26afe74d2bbaa76d568a55b8fe35f02e5e913285cb5678ad631654ca03e11f22;
0xab136a0298a4bbe0d53250d7be1179123aa3f7390c39c08d76facbcf387efb2;
0x2154df61438fa728853b1e34064bf3bb988f36af48ac6097d2845a4ed924a360;
0x59b12d8356358cdf3690ca2259447a7147e0e6d33dd5e0c62293c1fae3c7057;
0x1a01646ed40505df3ebd020f7aefb2dfcd2b194d697f78eb2c6706193e25c783;
0x27080e00f575ea9dfced456747507b55a0612618d5377ba4745b1a2c007fc4a1;
0x3b12781eea743ad978032243b55ffa3c23ba980f8f1fe48f72ece1ffe09b1f7;
0x10ac2c9f77fcd414c3bea9acf7308733892b1802d061fbe3e5ac7d93a437c85b;
0xea74b2639185bdaa176c285f7e674e4ade050bb08aa1eaafe0a0516d5814623;
0xd064dee824928d39f2a8be7d2fa583223c33995784d228839adde2559592592;
0x42b91f98007bfadfc37f8c7be01e1e6d1a5a001f4163dec7e6fa8ecf7e5e9c1;
0x4f0196b4cc4a2fd24b603ca65fa4eb23ce4523b695c34e9323a1f55693f09d5;
0x20687749f9cbe6aef88c27b6bccc40204246a670ede772decba2f34a61bb824f;
0x2f9039a4b8b4ab2278d0fdc4b35679678b1d8243ad4bb814b8b7bc3e1b8a4b43;
0x6012407ccdb4f5accc26888a094e35750aa5d88775cdca0a9881e816fe240f5;
0xe35046c49cc56a7ec8463053e159925bf55109e8fcff58caff08765476d823d;
0xad83c2a587b98cb240f3feec78c6578473f99bf7224acc545793094333b700f;
0xbda24254733d7bcd642ef47c6731761aa67e1ba0ec64e03609d3652e495fcaf;
0x1eb04acee8c325faf51f6ac53200bd56b052e48806bc12513c165e90c0ea75cf;
0x25f00927a77b2fc8aea3e3df5a038ef8249bd29e7f6422529dcce7692efd6376;
0x86ff48a930b5807dacfe436fcc67766ad4253e352907c1957127d6a41b6387a;
0x22d31103b21aa0b791235ce90ef06cf972c8165bce3c68b3714f89446a42f265;
0x21f10bef68e2b8437330ebda744e2c3e1f26a92c3336c7de3b645a8f4369dc8f;
0x2e3ed873b0f6ff7facbee3a110baba8af030fbccaeea386ce3a960bb31a71951;
0x16d86751cd45d37bedabaca6ad75277e9864d3f6d30e4c0cc2dd25a9ae58dae;
0x3d059764e5aac685b59387aa484960ed4ef9639843fe308f8cc3dee87e3314f;
0x63f962a68390a818e545995d2b3d53f8a0a5f0aa23451e6d14b0851ab8bb573;
0x2d7df484595413f83861ed05f30146f9a4efd46b0b90f7ca9440e30c27c9b931;
0x5d966e25cf9cee974e405c86aa2a1b7ae63f5a8928e136e12249dae3cb12132;
0x16bda6eb44145f870e0818bf6f60a068288a5ef23da1bc264e01a11fc1e013c1;
0x287f1bc804ef51375cf720b680501f7ff1c97cbe98074ccc226d18bd5e18b381;
0x27b1edf001e3a0a8562b991a2790a5b48e3bf45f2d637ae7b5f1ba7a6ad5822d;
0x74ee1772d860b6ad09b16d82e458eb305228b24a28c70c5f690abbedf70d506;
0x218ef3d8be2c4cebf3b2c6a75ddf98e77d79729a0f9d6b111ac0895ebdaba6b5;
0xd064dee824928d39f2a8be7d2fa583223c33995784d228839adde2559592592;
0x2e130f21aa3bc952d00ba26b10b65c1f55c92f34a51e0d6d6224d2daba241788;
0x1e6f16db6a97a384c7164733400ef142c41deb040573adb8b0fc71efc2f76468;
0xda66242a6a2e27b519dd2335e559ebf8334bcb00614dfce963dc07fdd7612f2;
0x201d2a470fdb240a6d4008cfdebd4b579df34c273ffb66a52ec89962e1a59b5e;
0x4d1c70932221e3983756ed5d5ca38ef603caff2d2168f5f937c1510775b0e9e;
0x2a43db76fb42a082375f5e21c4daf3853e9c57d8627c2caee2d837ee857fc6e;
0x188d71e846b0e63c5d65535a6d121a9648d99af72f72c3f38bc33751e999918a;
0x1cb4d77c20517ccf346b92567ca15a4b7f7079a150a3b7fbc95b474d2c07d241;
0x2de6abda392578254c6c2949559b851ca312e5c098ea17bdbff8815ac4216810;
0x97bac96307e8ecd42940e30d9bde2904025715f5ddc8d6237691c3689635adb;
0x11ef6e021d4e1b51f156a1c1863d497c95fc1df010d906859d510a2c2d01e537;
0x54ed7f2b2e4cfea2ea62cb01379d94041481dc85e94cdc4bde08da9b1ba57fa;
0x16d8390b0ba3174141236bf21283588887ce3eb966b7d45cde064d5cb2a35738;
0x2db8640099fae4b29bc2ff73424df4851e33eb823b577e4354ccbcb1392ee0ae;
0x1de2025f4beb8b5b58acbe6126a092ec0a6f3a664325a88e9a28bce898edf98a;
0x21a514a8d477d92a308095092224f5562af41cf964d34be181e95370590b5788;
0x140ce2c9605e31576e464e6cbfc8c9712ec8fa2e46f97422d52b0b6401aa5b55;
0x20313b2273dbcf225f74da13f3e0d0909f47e77e53e833e4a12e439e185dceae;
0xb8251930e6623b8c062163d973ecdb0f171608c126c7db4791116621f2869aa;
0xd0b3893c4f70d16172884b37d6242f07ba39e4c7180462dbed175bb0db0714c;
0x26917b241a12390182932069a99420c31580ecf06449a9fe7871e3193cda0bbd;
0x179bba9ed0bc1ad6942990e43de2abcd2e7094d7d9fbc02dc2d82b50d9970e4a;
0x2184a1b9adea49757d59d0c17c369efdc044f11ffa1598f2f3bf4bf1dc7fae58;
0x65a085cec70ed53a9d53827c7766989219c6474bc5d415be1706e953de20273;
0xd064dee824928d39f2a8be7d2fa583223c33995784d228839adde2559592592;
0x13ec63dd902be70179d9a190f2e5f1dded28d2feda5d6ac4c9914c3bedcae90a;
0x272d4b6c21e2f7d2c83b28588f5b0f462919554cf4faab4bcc668ab86c877eea;
0x12e29b20a5157f1152c41c4e832287b963b6c774de743e4d3d7a5554cc39aac7;
0x2c73520466905c9230aa6968c6ff3d7bed3130cdceb68bc5a24e51da861c1153;
0xb370f950332b70ca2c247e2349d2e2e22e2d4a4f519efed6039504fa2b2b280;
0x1c58bd926fa20dfa0ed3b7e53fde4e4d7bc4df78d13969fac999dd858f0df678;
0x9d50596628e021f264983ab61a7bad3bcdecc9d6cd3ec46ecbd83bab569b66a;
0xad3dd8c790db77df35aa78dc84ad3571f0a70fd70b5ec02fb62f4a459bb7d74;
0x154ec11de0ba022622b33a918364a375f4632bbbd3a6c0c7b8fd77c3831584db;
0x2bedf29086a4a80d125df6fca693c198a424226bf0eeacbf4c3990b7ac08c7cf;
0x204ba94b0e1a592391c9fb397701c62d724b55d28665ff3908d277f2728c37e6;
0x1191741fc0fcbdf5976b32953adea3cf062a2da42a317f0a9907426567d759ce;
0x8453abba1a812cd70189049a362f26960ab98640e98233a9799ff9aebc15bce;
0x2faa16a34bc765b803fc320e5c9c3d60cc7a62bc4317fe5996cb5352ef391f08;
0x1073a4c13414e4f47e3dd58f411b86f1269b4662a27d153b2ea797f3af9d840e;
0x20827cf24daa915decca0be0018f95f33da122dbc9d31890b45831132296dff8;
0xc184be1457cd3f30372671039b63894ec186f79ac12d4155c363cf60da9c2b5;
0x1d1037585c8c002e4fa645846b83aa46d418a7ec475f36a310b5e93ef30b4f19;
0x1bfbe62e3714574bed5c8915cc913e23ce5654d217fa8933208cee6cd2a7a733;
0x9ac8a47968e147d7abfcbfb80e479a5aa83ec32fc9a21fd80277a05e36d6900;
0x6673e8c09274a6b074bac39a9280285cb628f4c90f329c27d3ba1d79b1cc17d;
0x2a513229a77a36862deffa4a24f4e1d5602d52e7abb7734cb6a5bfb006a14c70;
0x7aa8c2df4a2083e46169b3e24fb2d0a9867ea17103a19c13fc08f832aa17dc2;
0x212c78bf0b03c88fe1681497cea1b03064c87db0aa244f061d8135a365168163;
0xd064dee824928d39f2a8be7d2fa583223c33995784d228839adde2559592592;
0x3a58dde40365d7a0250fc75c67454329da04685e04a51bf51854954a6af915a;
0x70e75afdcb3d8000ab4d459e8be1c4c0dcac213e37c3443d5d33de59a31a0e1;
0x1dc99b8142e7cc81ec21bc7e5b37dbe2b29e69c290c6c67aa4fc3a7d4d6f17dc;
0x2f160a3625bcdb7eec2ebc6a27f6d3aaeaa28e9ab85df1d2c1a34126d2c648aa;
0x1ae4132fe8261cafe562823d0e2f059cf7917203bd3e1ad0d71b58a0f0804a67;
0x24d5f4bd7441dd4ccb80955ecb60b72e676401239370ad526851b7b2358809fd;
0x494f46648ee996ed2e7f654ae6c07216c090b6c4f3599c6eb18aa4e7cb761e9;
0xf5f67afb9c5934a2d662532a7ecbae90ad260df4189e76f71bf51ce6600ab1d;
0x135cd20c46aa1a429fae22bac540071d4baa5aa1f7cc662549c2a115e1a0152a;
0x10b14b45ef38b4d3bd1247e2da3a65dfe290fd02ff1a15ca598b05548d1f93c8;
0x22bfb1953a1022f21f1738c8067d26e250c3da6d950f0c17a26a420f898c166c;
0x22dd1a3efcada96371c4b909e8c42dc426e0e040d152910bffacca1ec9dc4b72;
0x2ec9e354b5f7415057e69782bd7c0db477b2ebc45909255dc90dd3e6fa157173;
0x1d176d1f403b4a44e598c6dc34fdaf9c08e582e542748d9f18c9c89887a7ca06;
0x57d65c1955ac40ed215d39c30bc61d015e505e3212fbb230cc61caf6dc9ca16;
0xc16cadb3191773117e0038e8fa48c9c200bbfe9f61359979c978de8dadb9220;
0x228354c24667b494d2cd53dbd85eef57c0b3621228cfc75ef08ee11fb331521d;
0x11dae093fb04008a9d994fc7cf27d09ec0e19ec3ad1d548b5e1d205e97de99a7;
0x1e24d8a3371d286d6a87358c6acd6757f732bd816b6c77e2193f456c237f95d3;
0x14f5fa99460312481bf2b2c6082e5fad5ac3659eb5a13978b2bf2a26627d076d;
0x274f78864eacb329a3ebdef354bfba6a7a5d20aa8ca57917c01d5ea57bf5e449;
0x1aef2197b2a3930a466c9f2f8ed512af424ee99cdedf0d939bf5323cc13ddc8a;
0x241e5e13407be4e0e123f9106ba3342a687e6c966d288b3b7feda4af532a422e;
0x7914b11b3cb937283ee3129dbde2435825df1ed64d760a62c30aebf0ea6d522;
0xd064dee824928d39f2a8be7d2fa583223c33995784d228839adde2559592592;
0x2ef64fd1945065ca12f48afffe7527ade3289ad350ffe9dcc51b2cb05886b4ae;
0x1e903fd8974ca0ef97c187e30a5dacd75151b3de2615bb2b832a6c81801e82eb;
0x20ecf1440148c2b31f9a3c33f59da812efa0755507284665a1d5d4bcfe47ef85;
0x15e956ab5a1c5a357e9de409a19386abbac37b453bd1ddd174000079b106366c;
0xde22a61fd6607441d0894264777d660bcfa0cdab9d1da887c81e70c7bb8f7be;
0x14a1ab44de8546185905ec2bfb7e9b0c8a330266a62fba53b8c5356cb5f20e76;
0x1427c18b34b9b1962db5e13937a3bbd61a2af9e9b3760eb42ae17394b9c64ffb;
0x276b0876d63e316c4eb32dbb64a4f4db99aab13bff6d666aa985abba4e9c0b74;
0x1856468cdd489ea75e75dfef8d33539afb3c3e8d57e0725554897319c692bf48;
0x23da22d7fadf8ce07944da0d1ab4f4fc9e2d2bb2ba50909ad99c86f556db0481;
0x1c41fdd0f5fffb3d99ddb3a2b67e62a13e0dbb521bb4afedbc54c7fda3406bf7;
0xf0bfb6289d76f0eebab2d4b5fd854e030f11672c8f362334290e0cd1f9fa051;
0x18ac33130e605df004d682d08f9b16b888f88c3e1562bf08a24f7d254ca270ad;
0x2befdfb192edf72525e96cd3aee3a1e54d4068121a0eb34d1064e8b7c8c44267;
0x7839fa38ddc35348448d92a9122d84ba951ccefcc88e2618712d4ef896b7a2a;
0x2bc35b2b57bc9b2be7b8a728125403c5a78c2f4d645da33b408e6cc79674d515;
0x1f38bf25ca2c67ef958d3e92a44c3b4b80b910d3e10c3d0ee768f28628d6d7c1;
0x1cd11f045b25737df9183843f5fa01f7b5ab00714100f0a05bff9372f063b52;
0xa7f87799313df2c5edcaf10983d8abf938467fa5df74bcfdf0d51efeca406c2;
0x718d416b20114551ccde2747cb6b15e889cc3233fad8a339465abc3273dac24;
0xb45368b0cf6a77ac6e73ed23f94d5f8fb90a77421972dadc0d70c17ce39cd62;
0x262dac40e77efee5a07345c63e77e946aa5d7640408dfc0dd0f27be77f97ae9b;
0xea488fc1f7afec912267c19315412c10754a080c11a7873ca4d027935fa8b89;
0x297db1b6f71749696ce48fe0862fa63d5f28306715a19762ef8ba915b9fc49a2;
0xd064dee824928d39f2a8be7d2fa583223c33995784d228839adde2559592592;
0x156c90ff4f955e0fc967223524cad6608e4d9cc8715c249c3492353730d500b6;
0x1f4644da64c00905c3a6e15ada27cf593998574f6ee744e85fa9723345632886;
0x10d4e58ed6e17089661c0bccd2c4564df12ebd6c4a88115549e7147491c671cf;
0x2ad782fc25c4f0db520280f8dd92871f7bed6d0e23337d36df2141fbddd7049d;
0x2928371625d6dd4de31102aec7726a15d88df0da173ea8a047e46e4562162e5e;
0x2665ff9e95204c0eba710556e91dbddec9f5060ddda6e898a06b9078d170abc3;
0x110d5e6488836ae4bc344cbe2406f494dce067adb21d69eb96b43bb7083c0b1c;
0x16f7045c1cfdb025d926b966bf994728ef8a9647acd20b245ea1c41ec07bd704;
0x21533d8130aba1fda6a31d4be45e3b6f27e1165cc7acf062d9170a874f44566e;
0x29b6d6e0065b8aedebd2048ffe74b6ae857373d583adef571b7ef4d8c1376cbf;
0x2bd0d29ed27a49e3cf5804bc515475bd2482830530485f253279fe3df313651f;
0x2e5a5bc179f78f549317605f271654bbb727f5b35fa38918a308374a221b30f9;
0x17aa3fb8d187b2f16771319c0890cc9a814c4fef3c8fd90277eda73a7fc9c1ea;
0xfecef506e9a1c5363eaabd2e5d75ff06657ea4a701577bcc0d31cec282e6e99;
0x104e7bc5cb52c3949d4ced53464aa25cbd419273c7159717d4243b8ba3e66289;
0x2e2d87bbd2649ee3d7feb4a665a658432b9864c9a4d3a5b52bb2813f43af845b;
0x2a737d085c1ecad2baf1eba7d7b79f76f3385ec88cdf0d8823bc721e7f7d5ef6;
0x134ffef044d6db42e7de09eb3151188391d4a52ed4df145749fc20b4d0aff94a;
0x1f46b43cc2e57fb9f22aeb6cd6c9d671cfd6fa043702b613f3de6cf5dcd4a648;
0x1427b946ca939159e1f36e6a4e88d850c84f00698173d8ded2dd3a649ebb811f;
0x20efae422eaa4272a255d02f80c304ceb0eb99dbe70e734901ce8303b7e75996;
0x1fbcd3f2b5a6b08a9f835d2c56ed46fb2b9b9f0008e71fad6f072cc23ecf4e73;
0x1ab1d914d85a78fbe7db057ad0251cb103d0f1fe4fa9f1565bb1defeadffb560;
0x185d3cbbbd397b4202e6d2d23a5475ef93aaae25e9c720a849189b38475f3ebb;
0xd064dee824928d39f2a8be7d2fa583223c33995784d228839adde2559592592;
0x9a33338a814ca4f92e0eb0145510136d27d1a970e859c461b90350506c0ec73;
0x134919acbc6872a886527ad4607df32a93f8d4f86cbb15cccd389e3cff0d5595;
0x2988cc231f59a14253e978202e190e60904d3641819600eec68e3bad58e6321e;
0x7a7e7e0247dfb327857f6cb9b2cf9102847c8c16209be817cc8988f4aee731e;
0x102415cfc2e84e3b54b636a1125c5acc86ac2414aa2a4a36fca51c0902e99a2;
0x1205491dfda96dcd74d0ea64c9d05b74a7eb0b98cc4dce972e3c65072ec779b6;
0xadef8dd1998f07ebf85734cd2d480c380b3ceee9c1669827f9590f1767dc148;
0x225f99bbe94d5c93ee09123f4655dd2d6bd80aca624e4d8f0a064054e232848d;
0x1e8c19265e6565151258ea11206b5d8a9356cb614709c31e4167046d52dba14b;
0x452cbcfd4d1de35a869a85ac1013082dd4ac1470e430452d4a8ea1530f5a3a9;
0x29bb179886a2e49631442fcaf681e790a8903c96d1eff6647945ed626dc4d68a;
0x1e06f246e926b517f3de008067cd6bc9f52e8d382c458098bed8c4d2cb183ed8;
0x92a8624e09cc127fd7d1a32aac8383e510e37d6beca3fa117cbb1355e6eb8ae;
0x29e31cbd24fa9de5d401438492f9b920ffa56adef762687c61ea562893ce02e7;
0x1d47bb665d1bf9254c3ea59be757187acbc504b5378076fe029c4570f835722d;
0x224f1c92c0c3e84e360222c40aa0f4311563bbf62bc9f255a3d7641378a2cb8e;
0x1021a099460d801d171bb0db1c7972013146d1b09625f028bdb55242d8c51f8c;
0x1cd67c97e764b8097f62c6402fccdb45a9bd18e0bb4b41ae08c2a25c276426b;
0xe5dbdc0ab1a14125d19d7eed9cc36af6bdd5fe07f8ff269842f0aeba902c2a1;
0x1649e0489cb0aa3844e97f61bb769f039f60b9638524408e3425b3f030b5b068;
0x2d8611f69f27f599ac672277c1f0787005b6fe3c162d836637fc1c890c6c70c8;
0x19a828de992f3bb86650a8a9f3844ff27f70b612e158170f81b7e6b6f4eae660;
0x157a427811761757bec0b2decd1c28acba88e70e8e2b3a7b53d732a471572981;
0x1f66ff45f17e0ec5690cdff99c1ae5d22edbb0ae12aab18ba5c1adae5b36e52f;
0xd064dee824928d39f2a8be7d2fa583223c33995784d228839adde2559592592;
0x9c9fa00fddcf694e98845212afe04048b34923d4fb41d05f99d24955c609c01;
0x1ac154fc3f42165840c54a350d8243a3a28f55fd038dcdff628c52e17f72aa94;
0x28859cb23ee55c27bc363dae264a0494ae77617ba92f595dfbb1454aa2678ef;
0x1fd179a66fdb3cb0a06e90d1404c50c38d2bacbfa030bcd0b26e6ae454e3f5f;
0x87dc7319f4e880c7136373d13fd6fdb2e433f31e099efdde56de5f8297a69b3;
0x1a93bc3018ec7d3475863fdfdaaab0233df37c3f6da5a966538b13818c15c43a;
0x1174a66194739850644d05a902b25d188c67ac7bfa816f1a3b9b73ac9731c400;
0xfde9ecbcc6fb8a9ce490e809277b9dbb717369641b96f84b3ddbaafa39d1731;
0x21d4b10d2e577a751a1284d0d079d066f6bb300db35a9289c5f5eb39e1e4adf7;
0x1b491207581efedddfcdf23376324b9969e36f6ba8018ec2eb055a5dd6f4f8e0;
0x12490e92c38fc269311bdc1acd2410502ac8d7b3334e65ab644751d1c6e3ba4a;
0x3c569375b94a021a27a56b34dfddd14c01f7feebe14e231e53eb811c0d4fc89;
0x12f5ebe6a436e8551778858bb53f9780439eb09fa2ac457096d7158e7af3afb1;
0x2817dca315e7d8c25ce85bca47ef2424701c91df547407c8920d4a974eeac9ce;
0x237f87fb2661d3a16840d8b115116d7b61d99ef94043ea2fc2e311f63bfeeaa8;
0x13b8b1ac45db6a26c854d447f2750c09dea12c26f6d4083e9e8b3df2428aac6f;
0x1429fffd68050249e1275110a16addcfb1300f294d63c0b50b7d4764f4797077;
0x27003d2b7f980530014a1f5e88c4cc2c4178613f657c2b40afc3816ae14e4e73;
0x1e7c9269b68e8ff2ea5f21c376fff7f3c1dec1df43a0207dd41aad1ac7213378;
0x73bccfee0274ee3704bac0788527f8708883699084d3ee9facecd19acc02d5f;
0x1a23c2e99e22f60e0ecc9dbd269a6f8b56aa74bf318961a085e42375d92823f;
0xb0b38a1ee81114a35eeeeb54d419459b1729450789f14202fb84f009f728206;
0xb08bf53cdcd498a9fca9a0775d19a3fab7cd6f7709f007b0d2fb07d8ea7452c;
0x1d37550ee8724571acc9ff409226d2075544fbe2b38276726ad1c8ef3d096283;
0xd064dee824928d39f2a8be7d2fa583223c33995784d228839adde2559592592;
0x8fce6150b67f549ff898958587c36655277440c4c8bd9565a7ba547580f81f1;
0x9a3d90307cac625bce9dd71e513f14642153c7c4a411d59f5db597fde888b44;
0x5e2cba2a305c29ccfe1a49bf1cfaa3f00f097ff163feb7308c40ac654c594a2;
0x151eb4fa0b1ce608925e2459726afddd5ab7982d4749e6185e5f033d1893ade;
0x2e3299bef41097ad9e56203ac25eb52612145c8b411375b15be4c60faf9a0e8d;
0x2b5a4ff11bba3074f0e0c3dd34eb3e21bd00c753717f19509c49e2ca01ee48ce;
0x1ec7a76d764fcac86c55ce076344f7bbc51826ccba7e90ac703216841fd78931;
0x19fe7d31b79e7b1a85ae430ba472cf699a814227f0325d957ce13df654430b3a;
0xc1066dc7ef478b2ed0fe10c9c7a0bcb9a7974a4f782d03f248087fac50ec851;
0x23b371f53de43570805ed4c382a4e2afe26207f1e280bd963347f973cd8e26b0;
0x15b58fbe273944415ee68b4e237fad7005ced82fd6c2f8afd13c84eb29488b19;
0x23d8929ce30fdfb078938a291dd88e7f7a802f172c7f9d792ab7aa6ed0866b77;
0x340691f3b793cee0cadac0b96aa26bc7072c5d1815117e302afa970e6449ef8;
0x274ddbc823611ed63e8cbc2929430d025088373ac3be564a44a739d11e4b6ef3;
0x23a37eb726b1fc29841728eb657191d290fa6aaac92636b177bc582465f1af43;
0x18ee2248d9512725ba90308696beb3102e7ea86de2719d2c52b4efc02fd0223a;
0x40a14cf4ef9e74d44383ae681c3ab35d7c6cd0ad5d94ad8fcc5050e203ee6bb;
0x2cb32996313c6c6cfbcec54c4f5d5b5057bebbc4fb0c103b9d1436726f0b7083;
0x2b7dafb754789ddcb1dec0ce4ec50fe340d6a3a37c8d81bdeda0755dcb14c344;
0x13e442da971a4c71620b80f9cad48d7105535596d4b8f1fe550c3ee07328c440;
0x198e90225a0ed6b87bd847a0102a61267f6cee4d77aa631e355cdcdf93b477d3;
0x2006cc86ed54bf7a5fc389fa5bca90dcd5269aba4ddeca95de1719ed8ab63777;
0x889ec7712c598251a59839e389dee66f6d9946d275a60c2ea2566cf586edf98;
0x511826135536efaf9f5f21aee371125bb78412a608bb6c2b6d97882b672a08a;
0xd064dee824928d39f2a8be7d2fa583223c33995784d228839adde2559592592;
0x2f10170d2aac17a22b211248629533d81da00ca55cd8d70c6fe1b0689aa550dc;
0x2a35dc09d4488fcaf436c893a13d4489677901a07f875537c538048ef51dd771;
0x201b1978cbd392f6ce28a5c8d8296732f503ad63e6fa616fa639d7010f2455bc;
0xcfdef165aa6bea35bddbdd97133f24fe5861913c9b6274f61bdb8ba42e68ca;
0x24a14555c418ce41b24b5bf1430ba76791abd955022ba31e9ad2cc3a2bc72868;
0x58d12e15c9d023ea1348b2dc5c9dc2b43c5854d72e3fe9841e1a2b084859ed4;
0x29e5bd1a9bad6bebb5aab55558fc375c88a8a84cc5d7f3a569c7553f6b4abd29;
0x1d203c249094728621279f6b8d53a7d2aca571edeae202f72656ae21c825f638;
0x1cff362b0f9265141da25915b3ff9e4fd8b33d301a1cfb4f606b475fb5d2153b;
0x6c0b55e10a02f6a9e5e8653b6f52029e076963f51f5a7ef4c2483781303db61;
0x29baa73ca3725df97d26afb6e2a1a781059b81f8109082c3db2d2d076ac910a1;
0x16bc71cf059b627baf4fde8702141c5c2ac31a8620a25f36f0f479a2749be7a9;
0x1cb4f4979c4ba37235dbd8de125bdd0bfeeda74d1dbc8f87a9108468651cf8b7;
0x1d9097b4f48e52e207dcb5ada14a004918dca62a16f28760d0516c3ccc9090f8;
0x2cf444d1a5c6ed508013d34ff40f271027c9a9395cac64e6443cf88ad7481201;
0x1af6065e84bc5d9f653c36a0c86b0f0d9fa8ff396c0cf722c97b8736aaf6ff0d;
0x2e2c4ecf622db6f1e55623697c70b3dac0850e0369a2eeecafdca37bc120d719;
0xae82700364dd6c301ef26d8440a1e0fb71e410355cbf7981fecb0e8ebf439e0;
0x2b3bc2007b383da42e4f34269a47f629392643c0fd903029da5d60540aece8cb;
0x9bf1b127c22cd17f462ed4972af3af610b5beb2818a9f405d852a168de34c87;
0x1230f23e20b6011d5c3871017482fd38f82923d9eb4fbcf6c4c12fd744c8b7f;
0x1b47c720f543277cdb27fd57b57e4a88be4a17f9367f5cc58a541ecd995005f4;
0x2550ec7018dd8a12e43571625d58cbffc02e10c95e0e9297ba171d6087dd799e;
0x2d357b96b3252065e81b5f1406be8027ac20d3919c668a746fec4e3205260dab;
0xd064dee824928d39f2a8be7d2fa583223c33995784d228839adde2559592592;
0x8500e01d94de904d7223966859b160af3f73ee1f67208935a726ef1f04a21b3;
0xae88a58cd6d7dd1d38d427daaf10cbaf3be27e5abc2c2dbf94e6f4782cdfeb7;
0x2356cf14cd716531ac576e30978c3e9af33fe0f5465c6928a70ab06769fb7c2b;
0x4c9cc7ff1e61240f1c0cc8239aaf4522f564780415fc47bffb1c28fcdd5efed;
0x2ac119534017f94c103fb6199dd0c4bcf237d435294d16269d69dc39be170eb7;
0xf0389ce2af0f62066e0f0aaab541c7f1e013fa0edd0bad0c454a9befcff9b60;
0x1df984d5fed72bed8d287cbe3bbff9ac811b56155a8d8f768b7222620bab2ab4;
0x2464b6b8837edd47eb61562a8c1339d59446dc30b12bfe3feb6a676a5754fe1c;
0x11e670fa739dc17de5939770830d3aca8a79190d413a8a69280275aa8848096a;
0x8241341db938388de2e2f02c9f6dab7f2040a2a0fb2d674bd160c8fcf7513e1;
0x215ff7a8bfce31939d8413ba030f72544092ebfe06f99f61100a6def22089576;
0x2c7cd496518937ec37c1a7ce9e231f15087c0f266a2b6d894bee197b94b9cd58;
0x9bc5b3a291f8de24754a6479956a704772bb305f1ab884a7a57a49c6ebc8d97;
0xb15a0dfc22c6eba5d6617504732df69e30cff2c417d0dd2f1cb49545a026368;
0x299e24a6a2df4e3dee797a9d9b309af7f38aa11c61bec87b3d9e01bc1b283474;
0x14a1683e0ced5006fb58bd5f1e8fe10b5b4d5db8af6ee11f3542683d5cfa0e6e;
0x25595e5888505e87a18dd8e2f3fd998387901198cc9823557e34167d2b6f4220;
0x1a8ca160cb03b1c6e074c7ea982b1bb406e4b996a70f430da8a7855435dbcd8b;
0x48fa511c78d046fa7b3f960ddba5eb39e753e40c03e026a13fdf2509362717;
0x28606b25ca030890e0ab9d58ccb09875465d368c8fff1a9401a18a046d929341;
0x99c988ee50b5a86686570aade7a07d7f3de7d1ebbe4a72161214fe1f59501a3;
0xd423b8393f806bb9445a55f82aaa3663b257bce07981b55a9dcc640f9b3a6bb;
0x20fd15ccaffbde08b904a96f9a18ce5e411128da59c299ce6a1886ba554e8858;
0x2b8b731f93bbfd2ddf132f1b9f37f820ce2efc76485de21bee2229d03d986e54;
0xd064dee824928d39f2a8be7d2fa583223c33995784d228839adde2559592592;
0xbcb4654350348f216da47f8a9085a24211feb151a906c5852a36eb7a590e5e8;
0xe0bdd096a483b3c7159aecbfbfa52a4b66e7704b05a7df05c3fc79bec0aa903;
0x2cea662f7c24e8a6111990ca10f7e539dca435c022fa5447ad17f1407b9e2c3e;
0x260494fff3079a35eae887c593cf5791509815ae31538dcd7432ecc6c00dc0ce;
0x15c010a4fc6cc1e54cad7f89188e2392df27f7d6fceb4958b7ac68c23b8deb0f;
0x2f199edbca4bb59669b0e4ddef33a7b45821852699ad8b03c8d3dddd75e8b58e;
0x1b63017c3c4dc94e32f7c17d67a31901875b20dd6757cbc80eefd96bbf73685e;
0x21819c86119eee2a93533cc0557b7095119a6c6347e702aed6c41cdeb5436677;
0x2c7ae6aae298a99a0dc53e2a0aae2cebb636e83e80f8ec2c0ca5e6d30c0de075;
0x241559cb0c89c416bea1ee0866c17aeba29fdeca75ab98d2890d7e10697d7eb5;
0x21de885c1616f460af9be2385dcb90a8a471f9cb4a4be8e76b45d0d0fe3f8e50;
0x179ba320374c3c6c268f02176e13cb0d883f1ae24b145769035ba0cd28879e67;
0x1ce20457c1471d83720591f79a33979ae70ee1e3830011d9494b7686f90434d5;
0x9bc17ede919cfcad02017b4c83cc9e1ca6d4695eaff8e983c8451643cd7eb5c;
0x10993c2085ece5f1f09343dd532543213ba3f046c5a39fca941374a9e8975c19;
0x11e0deb1da2857341a2c4e2e59d5731fd240da2dad90a1e815b706f926a8f657;
0x15313d500d879d6db9446e5465f9c08112330c9d1dca21b1cd298117456dc175;
0x1a3da97fcba266c29d2f3b755892c4438cca1703d3685fcd263728372eb19dda;
0x1ac3bc17591802ccf54210da2d2bf627725e11a8605503966732d16d82c7c0b6;
0x13fd9ff54bff1a560857af2a620b2cb2d725ecdab99603c58d4b3d8311f86bbb;
0x10cb890d09d7922b970d479473995d79d935256c9fd28f62212104d69f3c38f9;
0x131649c6c37c467b3f8d6bd684c6cd121e1414ce5a2647fcf8d29c84fb22646;
0x2784296e81cbe1ba5262170b35d24f5a9f428577c73f51888deee3bffb1245f3;
0x262b646e6406d39067ecf4cd1c4e7d6dbd8f0929a1fa778906f709b8ddec0a7;
0xd064dee824928d39f2a8be7d2fa583223c33995784d228839adde2559592592;
0x2b78023b50bcfbb73b4497ddb0b519c703dee853fbb53438f906e8f03379822b;
0x1834d6485429196629dfc50775e881aa5bc653d6186ebeaba1fbfa70d5459977;
0x1e223eca065f07910015985c8185846bc6104889355c02eff9966f18aeed7383;
0x21ce2cc395f1ea9eeb8a83f76d5ef268964304f891db51b907b57a39d40c74c0;
0x3010da41b7bd91017bbe2f73f28d4847f1b15f7caae6f197c51aaad94942d5a7;
0xfc7aa208e89f615b2b5ac6c1c84db0c87ed0354d3da012a505d3718205f8898;
0x13153924c0fe679002dc1912a9669bde6c0bfc56893155fdf2e96e05a186b0aa;
0x1e7ec9ca715167872d062b6a2f92ad6b425a3aeb45e5a44e0798451a5f3c6af1;
0x1839eb87798ae0b89e6ce405734b770fa2e6092b0670b2f59fd93500ba32bc1d;
0x2bd925800a8f95d0b2b6ca1ae4aeca0fedac4fbc889f464be243aef61e35d531;
0xf1ec631ddc6f753f4288baaec5d90881966062d8e00a94d1c35caa5c1f87d81;
0x9ab5e15c1e1cf58d46c55f0df4fa3a56cf3a41e52664b1a125bf3388887a1f9;
0x2048f6f68b4dd0127d915cd6d7056a0104145aee77618077505619117f588ded;
0xeed124614cf28d97c99c85a0a1456d303c6cdd2d2703982a42dd688b65559a0;
0xe8fbccfb62b0842aaaaae01e8418d005687d3511606ee56c978d0dcfdebd825;
0x7823b7784daa9ff5853129e7555f2fadb3898b5c4cbef6f4dd5d7e8c78bb73b;
0x161e2a1db0ee0e75b26abf038ff6ba8b396d0c03d27b794a2eb64394680db0ed;
0x2816d7a51708d99490bd97f5443df9a5203608feb1bcae4268d3da1e5198dc79;
0xb298bfafa57aebe549b8f2b0f98554ae00a1761427298040bc8104ad81843e8;
0x5b5779be0c8c88b6ef985df851f754310267048c6e68139baaa4b41d02cba63;
0x2954e80ed49eb91d655f32571d6ed24724dcd6d013c62fd8daa0661b4c2e6f75;
0x11f97bde1a830e979a7647e0eaf37967f2fbc2952bb50ca4575961a34b43ad70;
0x2edabd7a99b98c5f9f8570c778e460dc19c4accd2de09381db2ae25b87affe51;
0x285b59b5e4153c7188c7e918dffc0ef798d15695c9fa2921aef01e87bdf9bf98;
0xd064dee824928d39f2a8be7d2fa583223c33995784d228839adde2559592592;
0x8ebe850428b3b2e7534420e85cc70483a11f33d2b5fdf04f61382f7a12e9594;
0xbc84e22a29a0c39bf8854d51235e45e1857ea3575fce20e891ea92d8f56de81;
0xc546f855e8fe5529a31ced2d538dce04cbcc05379ab4f8dcf5a05b8e0030f98;
0x4beff2ac6db7fc5ba1a66114ef2591000f8822497b661cf15e052719c05209d;
0x17fe23f62d221e08af428582244a3a31d64a2fbb37f58f8e94bc719b2c4291e0;
0x129c6ab33dabbe60b52c9444dedaa047775dd01de878636cb80b7d014fc98606;
0x1ecc6d3b8bbf86ab614c85e5cf2c5dca31d86d2abc8ce91af23d37b52ed78562;
0x2fa06eb4828858d3a737fa5170fc77e726e8a0cda438a8925fd55e593e204419;
0x123d6c4cc8a7fd77c53de32f88e0e06bfdd78986842c8691cf7f3aedc43fccfa;
0x29638f75c4d7ad4d6da92cc3681384bcaa6bda0aa14503de403f330f87700abe;
0x2ca5b3f0ddb7a5c6ef388e33e501e0fc41a8b16858bfeb10882bd838238ccde7;
0x1e7e20601229dce04a57f23005d7b8ad0375d4efabb3e276a38a0cb2cce2b7c2;
0x1bb9781ae7d7cc141e7b72e2fff39fef57bdfb922f8ff88bfbf395738bed4043;
0x2617acaac7e8547ebdae0bf2063a2056e5b42e39283fcef6578b256fb8ae01ef;
0x1524426376418adb2ecbbe82913bcf05a08c0db6b1f3d80b5ba1771d72b80f1a;
0x23b9a081fb49052cf4b2521ff600c471b22cec1c9b9c32097bc91192099f0b44;
0x1c6cd0f87731287ebb12883e63991ce5aa8c768499f5c976285019b41ad6a272;
0x564f9765361d0141a69ada9ac521ba33139a1bec81b1c39f9fc79d56f93d89f;
0x18fba1f537d0bc06888730bcff570f62c8eba352d2890666846ec5c102bbec55;
0x2ecd94fddc5654494fb41d46c4c91d264b3e17d5f37791df25a42cb680e12a55;
0x25168b700310216d4ec9fa5c3e3514e712d694a46f169f7791bf4b01cf23fa0d;
0xddf38a36dac9337b4add0d9a33a2c589134aeeaf141ec5a5b059db0a5466905;
0xee74216109c48451af32cd7914b41734bdcc37c60e505a9845e5689313cbdf7;
0x20b4aabbb4bbb48c4fa8155538d772088fc0ccd14ec9ed274c7f3356f9799e0a;
0xd064dee824928d39f2a8be7d2fa583223c33995784d228839adde2559592592;
0x18de85783488e68b46584675ff74d2bad45d686a789aaf80f0ccf3e3c331d973;
0x23ab29889e8aeae37282dae6aee3a16624f058208c74af503deda66641d5b82f;
0x2fbc8d06de03926ff1c3114b375d87283388625872b2966b781d26fb2ba5d7e6;
0x219e0c4d566bcb09609118df2231e65e9e95f6b6e1c6149617acea7083fd9ed7;
0x5b21b2c119617eea6edcd24e1feeb1cf75560b65b80af1027be2e1f14a15d9;
0x5456d41afae3296fd4b13f8a096629d0b471691a4a29d9fbe2493c3ec377ff;
0x14001dcf0234cbe8b3cf799bce377883176a4904360f83fb5908b5b7df92a447;
0x2a5e9fdb1272447d7e50bd0ef668bff9fbc860f191c1e0cad1560e74f6d231c;
0x22949879c5b83ea97413d666ae0eb3739decdbaacf1a33742bdc04f9e449f2c8;
0x21eb23c8742f8d498029de7d0170a12a031c49f992f07a96af0494454e37d96a;
0x70541062150a2f25267a8476f41bdacb2b3579c7856ba4904999f92d0b32bf1;
0x2664518ca87044340bfd8c5a7c2b863601b8226dd566368da36b808691b9454c;
0x14aa81c9279f3505b744bc86c3acafd4c5b03da18129f6a2b67d73a9d8e7b5db;
0xecb94b163b561ad361efd85db88614c69a89bf74f5ef3a9387556ca3343a303;
0x5a6d9a1efabce0a10d3389ed1571283698c90e766363859acc910968968b676;
0x16b4dd09c4b2b3942c0019d9d39d4212626c492b7c0e7178196899f497f83082;
0x460784ded949d3691d5bdf7d6029ece2deccf562f0e12482f001714895cbc9a;
0x2d634ad66906cd6bea2fad599e45912c992901508aa915f0c219d66373c4f7be;
0x1658eb086b54351ec3573b8ad8201f5a4d1f0026b8f04aca66c44c16e7516ef9;
0x135a011e081cbe5475a1d316b78c724e181126ef44a9a352515afce9665a9d92;
0xb4bc94836903c9787cd22b2962a05c42c7bd08182da579e277ec3977418fc64;
0xa0a37d07785069f47e18f245effcfceb19f2405ca009947c9d2cd95673d3caa;
0xf8ecd23da135c880c76d216fbda0267d32aee2b4a8039aa5783034d66dda113;
0xe88eda335ac1a2204aac356a58a3ca503ae4543881ddd282bf7492f253e1930;
0xd064dee824928d39f2a8be7d2fa583223c33995784d228839adde2559592592;
0xa4da37955db5d2bb893a0919e4d928361880aad89e87973b93638d9f46323dd;
0x182420fd6b1d8bb94b35d9587499825eb5055d95f24c5a061f56af516e71c5b8;
0x12ed236d1a3dec40061f9af7aad3cdbde95e5d41763d8b235c665d25b01151ca;
0x2d2c50e36f2c2c402493fd98edbb914d591700011d383e289384c0fd26e46088;
0x2e8ba0e65f5ee53abb58da0c792869bc7429749fdc88ccf7a429c1f35575c11;
0x8491031ef5da5f6a50fe3e9fe4abccfeae091ea0992cf72a239d0dcc7000c0c;
0xf4894b8ed58741566403ffb6a468cbe036e365d3b391b72bba73b3f916aed40;
0x22727bcc3e3f1e76bbba95aa7aa2eb558063af92b5f624433aadbbb0ff33c700;
0x1b120f999042730b4d2e9f4e22c528510cc26f6076905f37d5a3a6bfa19fd87f;
0xb37ff36e5153c7abc2c0bd36db33be84dc7378340a8c6259deae5d1422d2f76;
0x1655564966b05b47d171db24f81917a2296777b02cb30f893571217662009b93;
0xa64dedbf4dabe0685fb8e4bfb4db52e4a3e1bc178bf7f49f1335bc3cff8fa6;
0x21a953f0d0ca1d43ee920c54a8a1884a2dc58366e195f4a03270587bf385ffc2;
0x228dc2c9d913d4f4588376be12a9cf6d55d7c59a14a15f9b8ebf8f0cb801a264;
0x2b487e5c9abb4812830141572d8b1936b4b8cc3119a0038f773f3bcca83d49b0;
0x285712493e67ed422052536731a32ab1920437cd807dcd658836beb912022bea;
0x26c1b715b64f4ba9d47c1f97d99f91ea4b83ea105203bb5e4bbe8b3e6fabcc95;
0xc188a42d4758ecbc3d35a73e735f3daca1295d0d93d01eed6c3a085ce1d95e9;
0x2796103374b26554557f1efbf137c3caffec020e1de9d2e75f8a51b5dd52524d;
0xe1523d8bab27bbf5fdb85ea4eeaf57bafeaf50481cdb89b80483698d4b47604;
0x172ac77c37aa38790506830facdab06d091a9a98ba0a445020d87a548e68fdd5;
0x1ea828b052ccc8c21c1417b2479bf21dbbeb8b07f1d294542e6b776c17a46ca2;
0xc530e36f104f93cd29e9d5f6cc76b4982c8f06d52684ec9b6b6dbc6cf3e1618;
0x257497d432a5ddb934157c1cf3218a104aa3fe58ec7de5002f82be85ff4a2992;
0xd064dee824928d39f2a8be7d2fa583223c33995784d228839adde2559592592;
0x9b0b4483df9298317fb5b068ecf3291dcacddad122d4f98ca84868cee25fdf6;
0x1569ffd3186a443252de5569661c3f8eac7dfd987568aacb86e576d3f6894290;
0x2335942544da68a26bb05c3c44845f0e9612fb8a6b33a4bd81b0da1811b1538a;
0xf3fec305e46f3dec280a826087df17baaaca704840038f56f94f35406e6571;
0x1c4fb366b69eea6c1ad580af7130f33ebe1ec91b044ea1c5697bcde572bfd4e2;
0x11066a30034b0f5a0ac2e2c5d00720c5e11c1fcb71fa57e7c8dac938e7f4f8ca;
0x136aece7d25ab58170f452dd50dbe69b1f9a77f060fb99b0e299e9bdbbfd244;
0x656fe108785a97dff386df1e4e2edb6d68dcfc9cb961e7d44ab0d14847f3810;
0x2132c9a946b2cacecc75bbd0b90e0fd7f1c864ec818a13cfc266379a48740a1a;
0x26ce19f30359f871b860f7e740e1361a8dc3d4faca80890059f68742b50c1bb;
0x7b34bb73c69a8befc171d04fdc512c2e6d29993be2aa537a5a927503d327f19;
0x1d2076ef57a75151297521fe1aead57b361a0cfd90d9c56e5a4d94a03aea4d59;
0x18b2d7645f44465de9d875354716726e36f092b43e11aa2feb4f749f5cc30552;
0x29d9e936a88283376c4cc4105b7bde94ec648a2b02c4be0325ba0ee4e8e59466;
0x8433318e395064bc720a18cda24df578cab51b13834e03f8303e988a8ecec7f;
0x2981efbb1e761374fcb20715527de197d32cf4d87871619b505d3f5f67e0cfbf;
0x28a84e7609bc4d9de494b53068730c0ffd154de77011ac4baa3a00bc1f565c94;
0xb98fb0a42ca497662d3655e0f0b215aca776b94b0e842e7cc7bd80f6aa01470;
0x92dfb1809ccdde8ecf61a6602a69fd7ab9ea0f883798425b9ca464637ca1feb;
0x2229fecf42ca2b725ec5ab861ed051b30ad8dd362a8445e6e7f6e6d888cef6c9;
0x2efa745708462a56d941659e4d63bbf2b15d7b5cb00f57f7d96de4987e0eb545;
0x1eb88f6512326db22d5bb8e8ab1ce26efb8b551f8d6010438d0f26f972c9c868;
0x357f464028357825ef34691fc07baabc77653105a5f895777bcc9fef6e4ca9f;
0x2574b6b6eac59402740cd9ef0f50e229e4db641825d2fd7f0018dcdefbae67d1;
0xd064dee824928d39f2a8be7d2fa583223c33995784d228839adde2559592592;
0x22cd7ad481a520d21e467b2fa248d2cb54462c3dec29de294a16787befb181ee;
0x1ea716292c21b4a96dc9e245738f17f364b4a9dd5cc762c7ab0a24b8ce63a95b;
0xee07db295084e877f193bb734548249c566945980a987e853cf283e0de49c43;
0x237a31e787ffab6bd803d4683ca9a5bac9ddc21219d119d5470a45678d916af5;
0x22d591498fce7c5903d695cb79fdcabebb591fc68fe7a8ab4376279f3c8799de;
0x25730debdf5daae2460cb78aceaac1540d1b32c4ac3fea8494a832c0ab9f4969;
0x2f54afcc0ab9ef598814c0a9f83a16d44ec48ee96a06fb1dd7d8414ef40bcbff;
0x110855e59ebf6c99c61bb7b3728db0141b0c7eb6877e3d867433277bcdb12ef2;
0x100cbb38383038a7f72dc76e0ecb80487a1bd2afadb85eeaa6c4b38a6e2460d7;
0xcf9ef03acb7eeee16d21ff6eee6b658c426551d5a346ec3d2226a74b9bbf085;
0xd047f79f1c409f542bcfcac407087dc0968f9e0b82bc760d1ef72639bf0d3b3;
0xc8d35b27373860acee2d851f3ff195897a5429797a40948ab0c18dd279cd35b;
0xb34d4ccd429b28324635894a84e2d095c29ad520bc5434bbc004e43b79a3f90;
0x15aa8094e890c3ce98ce64cd97f7c21445ceb3c863bdf8a788d49e233cc8926a;
0x11637553427ccd52d28ef04c564ee9af0647215f7f4a764d97e34b3da65e664b;
0xd77424bd2852d485495d929abc8ea1e5c2a07a938463db4e75b35f11646ff09;
0xc48776d02d737edc95da3941a1f78a976c5051bd630deb38b10240cda1dba1f;
0x23efafcc9a8ff43a2ee5067e9a631b0be21c1e4f028e4fa7cef38919e4f149c2;
0x24dc88d6144669f65e8c8b0e0b84081de41ef00c3f872dabbebaa4ae3db80522;
0x27b45f6635340a77f857c72220ab866f70739196835a22952186bc242cd69873;
0x704b24632239ef816e17b12e0b1f95c1cf7b8f3367a263ae87cd628582563cd;
0x176cb4987f9f3df738f3bc87712a4635656b484c52ca7624bd1245c2aabf3e79;
0x227eb80636039b0ae67aa169b29b1ff9966feded7d239c51c6acb427cfb61f9a;
0xc315aed179cba6ebf5470feeace0db2e1693c9fc11931f51265541c508ca784;
0xd064dee824928d39f2a8be7d2fa583223c33995784d228839adde2559592592;
0x1b8b75d83e3e955dbb4063f6ef293b4aee18c4a3be9227c3102d29c2a85df08b;
0x62a3721fc4009918e908846ba5635032aa2eaa7489d5d74b13994486e1b621e;
0x1f58606cb7e61fb55157784342ec52455c66fb882e3360b692a4677360134a68;
0x41e93249e317db4958b8849dea281ea81d0e2041006620c78636354e20c45e1;
0x156d561a4bfbc4b557aacf5ccc4701483f4c44c8256e619b6f7a7dae09d23c3c;
0x11ed5fa9b46ad4b3f57a8c5084724469f36ba46cec847825e6245c4537a0e217;
0x88a5d5188be741cd0e0ccdb10875d3fa01889e4f80e5be6ea7e127d5b28963f;
0x271a632b843846485e2ab0f5c7d1e14f7275fc53b8cdcd8a743b7566461219d5;
0x26c0a1c6632015e8689db93c50a3dc2e408d3c0521774aac099b931d7295c6d8;
0x294070b0ef4e6a55e885a12b5874de04df23adf8f0a84f875cb18c4ceb8d101d;
0x2f78931d96c5fd9d0ff47089e98809c64f5aff58b2d70080998bc0fe5e364303;
0x230be21d8ea9e4c5d2139afd1b0eb61d14b227ea864c09175b23ae4a647d67db;
0x23835945ae05c678cb2b9bf9100f51e7ffdaca93e74329a968c392bba321a232;
0x187c39fab3ecc634166d78959fae651ab19b169817b7e508762ee36e8a88033d;
0x194c8955c7e620135e624ff5abad58e58b5332c390e60f772e8b4dd477270dd;
0x651970e3e8b816227d307071d84fdd9f417a2f1b844b7ec56a21a7b0241a684;
0x188d9c9d0fbc3459f6a82532f1109a06c591d2b37df750c287244908f193eefc;
0x3b8367be80bf4f8e3b9008aa9fc640b6cfac804451c91a6c51d60840f9e166d;
0x8762e109aff306b803a0c90ff1031403458429b82dad5066a7c61c4fcd52e10;
0x7e877480703f745c67b8bcdd6a1182bfabea54eec3b62b87f53e9eb6da0d5bf;
0x83a1d0511d5576651a78abb8a14ac92d9d61a43f977cb5dc9befe2150e0335a;
0x108f56572334a765f54db2146eaf1b44fa39b91203a58d3771eea19e46f3b58b;
0x253717f1b3a60553ba8c5608d2e9b33db2e5aae1cdda665006620589183158a;
0xf7d259d6a6986193bb88f21b9f687548b9793b1120e10386561ca5be801e762;
0xd064dee824928d39f2a8be7d2fa583223c33995784d228839adde2559592592;
0x2caec1da928de3ef257ea69d514c718f70d8d3820fe135dc81523d2e13494c2;
0xffcc49b0327d4dab23fe993539c71e78cece70c65060fecf775248a4f3097d9;
0x7d2f814a0d52f1676986648041c5ae57ec9b5fa328dfee5a22206c0f554fdb8;
0x563d7a79d5f32dd2397acda206a6fa4947572ed4050aab01dc732ffeca2369d;
0x2783fa364653815b9474a9972f573d171d08b4dbc9771054f0bc376a70eda070;
0x26d7a7687e6c207f5fa597c84565bbe9d511243c1917de8656babdd38ba0eb81;
0x1567832cd70e77ec20ef1041351577510628ac2a1c7d5c179c98315ff78c42c3;
0x1c59c4c25db5ec760ad403047f3182e0c2db7b557883b227f8bd1e384a7b76e6;
0x2fb984c5c36a06d07601fecccbdd1466c38f2ee47b7dd526a34bbb9e859a1fe5;
0x193c691789f6f175105e969cabbbbc781119daac0927a2694d006edbc0845084;
0x2934cca891879574e44e4b94f5554dce2e55070b19de421b4d2b743418b287e3;
0x2223f7dc3c04faddc22f1c05e786dd4fb2837a1425c62d4defdcec15ff6fd6a5;
0x267a1cd4eccdacae7277169d9000761606b0bdadf24dc97b6b50ad18f4084e57;
0x23674c9dff69d9b06d1a41103f5b241f788624c972203d3a4804e2043eeaf97e;
0xc86000f5a940dc4c26b7c2dceca10416c0de08242d8057506a867b181691451;
0x237c120402aba89b701d7db41968e81e7ca9e63b6242e56d9e89b1e94b7b56f5;
0x1f2adefdfe27e85d550a268e382e6af8e51b93d0303444311050a0bdc3a86b13;
0x21026ca9e6c15e7e7754c24c15ef12d36969bb2505ea8eb9d24f21762063639c;
0x257dbf207d8341ebe71a25c67f0bcfc71edcf46f5e655c2f94bb0027683e4ee7;
0x297fc3567244be37e4b1ad88a0c3008e1f1326146b6588add2e12b812c53c7ea;
0x2415eeb2220c514b4b50cee8df2f4f605477b540d75325287fa7df4957c388ed;
0x2d1efae2ebd54890a00e868372dde24a8ab026c7397b54827bf51bf259371921;
0x1f82db95c67b46b630a40310d8081c760e1bfffc39e91f179b99995a8e355615;
0x2e817c24b08cf9346a21658572796f90b8132b6247e43a1d099c17b7823592c6;
0xd064dee824928d39f2a8be7d2fa583223c33995784d228839adde2559592592;
0x588c5021b24ccaee3b77fce64c0122f3cf21280619404967af6be821ac9e37f;
0x191e71b4c665fd095461c7eb21794e3770c3b40b4bc0e22a210166e9c74aa0bf;
0x29cb8c9eb9c4cf5bc6e1c2a782ac0503015efefe2d640a154e26b4b934dc9713;
0xec1e3897905c451e98b774b636e1dcb80edbcaec959ba90d20a0286366ff74b;
0x2ab786b7ffa171bb876603834679f4be8a18485f93b7b89f2dafeff334d5469e;
0x204bbc64ac07613fd02f871122b8ef0206d670cff609fc1b2fdef7b8f1e1542b;
0x1172cb8f6bfe22d7851f746626399b3c0536bdc6f8969c3b5ca6b697a87aba5d;
0xcfcac24e6e99ac6a59d2946dfec1c87d4c14c95a9ce2e81ec8c8405f74ea79;
0x25787156a9a5949b6493e08da731b2e15abb30e1d460dc238207d04302a7378c;
0x246ac305851f4cc5079ed10d769d337af9649c46f374951dc674b2734840fe38;
0x2db9cf683684eb9e2cc772571cf8da1bca70e222aab6ca7e60df039de8b23ff5;
0x166212a0652ef46c22f6d8d8d8c53d99fe339c7aadc68b233c882f57925403eb;
0x98c9afc1526b5729198f7f58b905563596143c611e1b2c8ff90dffc677d1e66;
0x2358d524ec260f839956563785d1a727fb364547edecef5bf664e5706301a599;
0x1901be07be45b4f8d3380b0a5e52c1e6aa94dc4f6f2e40baabb9f98fdebc91fb;
0x92d99a4ade91479cdf8bcc22c05309ba07d86401532aafdff17bee681dfd12e;
0x13af4969555a7dd69482d1c130eb70e05f0f9af3a93769f7fb5437173c71e1f3;
0x28d3aae218aa0b296476d0dc373481f4ae746de4aaa1c8328370f17655614a51;
0x14311125be69290b098c5ccb7e7a9534732886959d25d677e564d71ae1ae7647;
0x1454832e2ed446d6ac9a981f567c57663450bb35ed147e4dddf8e7fbe30b0bb2;
0x11055b5dc675e97c22358083da749bb066f8a99cf11a37083c1c991af56736b5;
0x20b2ab6a88373738fec32590661140fc911f31be20d8a9b938717954ce5f1720;
0x2171b013bb62ffa512500bb1ebad0e10cd39cc7094cbf806b10133a9f6ce3d68;
0x13d9ae507067e98e67ca97ac691f2808251ba846c97091c99e46f8c03d6896e5;
0xd064dee824928d39f2a8be7d2fa583223c33995784d228839adde2559592592;
0x292e6fe5591c886319d394a3218aaf4a8fc00b2c98fc57a395ed2b52d72e5d1a;
0x2e555bbfc78425a4fb2d9d8922252a1edb14ee448532800a36538eab6d3c3134;
0x4b797fd25379849c5fa7039cbface5d5f01d17102671767c51dcc547a7c7f44;
0x2bae8ca68718d729374e99bb9991ef4399fb9a5a14ff7361c52e4785781521cc;
0x5ddac723ffda8067c2147fbae890884bf8572fb7b30810101de4369defb5612;
0x1ec8e17ebce279adc46dde550fda171ed22736ce4e102cc8e36f3844ac67d77d;
0xdc57f55bf67c1b68aa35126491d6e6b78f9883b5efa10b8f695e2a8fa0b83c9;
0x2d3f4bced64b64b958b8d91bd0b7b168ba52bdfc7d5df18bbc1a176fde11b23e;
0x2f10a6d7f877c814bc7693395dc357075d1c816495a4f03b0ba49d6d8d97a663;
0x144b40fba529a8d725cf78c898112fc3e4826c83c1961332ed3bb0e17051bc67;
0x9708226dc1bcda85d36d65ad6d0ca69340523e970daeceb5cc48c16db6cf3a3;
0x1bc361e4208a017e152377add553852dae1b334c7948e008f7064f499916c154;
0x218d7075025c32bd6ca4e15ccce886ef42a54823955d50d1abf906be69a1a10;
0x2c36609083d08ad8df8211a51e75bc9b52691cf5c9996dee6cb39a13ab18de9a;
0x2ee25f7ef8fed9bfb691d8a5e21717736795bbfa76df861492715c4b41261112;
0xe02bebff560e49b14818c02e1535c5cae326071c0d74703b8ea9f1950e78e5c;
0xa8e935c09bec781f68587e8aea897db4d3e8d643d4e8b65af941e6b56b35d82;
0x24e4c8a3880c07950af15e4dd7785fdff4f46709f7e8a2dff46ea7670af9e69c;
0x2d680316bb7fde988136fafd42ba36dbed8d09522f48ddb19a14d39e2305e4eb;
0x151fc0242f88cb4b820f7960e519aa333c50260f1fac77ee841873ce4830a5fc;
0x2a930a97b841a2680717d8322c463e7b4258340f87258c90f388f322b86a173;
0x1a2d3151d244173a73624601b54782801bc6c0f8f7a70a3afc708a23b0af75bb;
0x30ff291a9139cab6bc0b3568c21ad6e4542cbb3c6ec6970f01f4ab3f4e65a8b;
0xc6142a38ef9e3709c786cf42056291aa1581aa5cb1e1c2aa01326501552075f;
0xd064dee824928d39f2a8be7d2fa583223c33995784d228839adde2559592592;
0x4478466a9c94183c431e91e2d96fad76caebc38cf4b6bd63d40a883887aa0e4;
0xd2089c7872a5e0d120339c683d1243e0f56dfa30bd8ee38e9e9020be57cf9d7;
0x7835f14f646ef12bfae699393ca8771079e5e5b105c549a6f740989bc71522d;
0x2eb138b8e96a72fed66f988d76a56425930f788d23294bb16c006c15ba7a830e;
0xd65fc46a4f555afe4d613d16960139d1b0ab9e97409be48d2c7d0ad708d57b8;
0x5cb9d6fb0ea5d7c36af03889077124e159baf3f95d68f5c74b98db89b1fc3fc;
0x1228b6eaa51d6497f12fcf864b7dc9d681b32176cab3dae788d5cdfd5fff3732;
0x2c74a92c8d33ab0a358ff988fce0aa0ba475c783989734c9bcef6aa3d92e39aa;
0x1800e5ce9cf840e32bbbe62d828c95e79c3e1c493ef70ff8743a88431b34dddd;
0x58ff670014f46b7ba4bdbd48feb903fd37fb5eec4bccf5af21bda415478ecc2;
0x21c73fcf9ad1b0107fc527d61e6d1a289ca1eb4616db1bf402579c7a9f141c61;
0x2dab5b1427ba55d3fa1a90d83b0c569978e3ecfa9247509dd3f9e303b58dd0c0;
0x13b905c6ad4434dbff6e782cf470c7f37cc129dd74580eedd8a8f85f984486ea;
0x16542d30db773c54daf9fbbe3cc6329b0f1e30a5f27659b5718e073a6a3ff993;
0x2fb9d2c332734cfd46c26f65328fccca168f58711368560028e2953c2a70965a;
0x1bcbc6b5cb163a446455ed0879da1196a6bc4abe45d7b81af746f47db5292e7;
0x1ddcf7b0e9bc54a5074e021add723164c981f6bd04db9e150e2f0e21a1a6a3d6;
0xe49ca4ac1a6893b61701a02e1dd02a35f49e32a7efa7f297ac4d2c3e545b7be;
0x268309dbe299749682f7030227677e5013880137014437f7433ad9e14ca8dea4;
0x1bac242faedaafd205ffc4e05cecec603beadfe07666a7f970934a2ac6f629ca;
0x28e2305a80b016478868cf732f9013b976fc92a34d1a4dca77ae572c3c69cdd2;
0x145de9f18f59e36a93415b33aeceb48554a84eba20c56044880e1466bec0d0c6;
0x1acb49bb5f0d3c9385fa202a23350e945f57259a6ece8a15afb3bff94fe92e13;
0x26add7d9ed34ea73566b208120678707b1da9f64243c55a41189445672f974d0;
0xd064dee824928d39f2a8be7d2fa583223c33995784d228839adde2559592592;
0x16051748ed54c9e8d56e45a45a4eb202c4c91fba4ccfa8a05ee3a99100ef028;
0x1a51e1a75bd54dc013a8365e8be4d93fc365ed1f85a41e451913a035c1a975fb;
0x26dbf99d1718983964d70e45be99a786dc590c2b06726631e73e42cf19bcdad0;
0x1132f8662c582598c12b82db868060fd02ab2dafd730d149f0f1c3dbb5c7540d;
0xd20abd1b87b2dcc09f4abb60b6b936bf3196166849307a146bdda7953270fbf;
0x1312f989d76c6cf93d0386523c2b447be5eee1a76770859a33e08baf79df94f6;
0x28c79fe778abea865b37cb9fb6fcbff83eb5e3a6539a22c18cb0a7bb1ee3fe;
0x19b577228ad8e6ee6c9b669d36ba8e0797ac74616e3efcc9e6a7e819610005de;
0x152dd9b7778d894130a215abe32065d7adfe95428d02982301d4390896ac4a40;
0x47e6db3dad97b60f47207eaa4dbf769e64880abba447ab42a64b4e9bf580f;
0x16f9ad0b2919753c49509ba57e9c915aa32306664ce92ada426a22c9f6360d66;
0x2921d7437d72b2235761183fef2292d581d60883f6f05163c7181e8930598142;
0x361282380fd4190823218380191766a8c2eb6ef8f084426f9ab27ed7503d0df;
0x2661574bc57b6eaa30224ba10cbf4c961ec5d3beafa17d846e660915b34b9ffb;
0x2b50d64c6224a9fd03f14c5142231a82b313392062d70bb835116f71f861931;
0x2e43be4ca9acd39a0b869ff361bdc22679619dbd7fb937ee499ef99c14b929dd;
0x7458dcba827b917c731799c95185ebf349165eb8bd8837ad4c9a7a946acdbcc;
0x2e565ac1c012c9b7001654e5c4b389eef1604d14da21e2cbf4682ddbde00ffee;
0x2be1797b6ee4dab5c76f370802650571f72ff37afcd535e80c02a984257a4a31;
0x13df73795946cbab79f5ab95a1ae07beeb368b6a672eeff9533467574cd5b637;
0x271f3f4aa97903015b64624f4d65b15cd2fe5f18fc8dd6ccace0c520d5daf9ab;
0x45e4c5231979d20d30f98e26acdd05b44c6101af23bab61b22b9f2ed4c2bacb;
0x265d868fd9eb462095cd18e40ea2aeb074153cfc06fe0c62d268fc86e3fa1e9a;
0x1c2acbdc137e6a8af39ad351f8e89255387e69c7d9cc4aa0cc0b4a3c9a2b2dd3;
0xd064dee824928d39f2a8be7d2fa583223c33995784d228839adde2559592592;
0x18b4e73dbe4d9c83510458712484b5a88154a64e4f000efd8a5d2d960b4d799d;
0xe2fdde439a5f899cd7f813089c26f68018a3b0ecbfb2de15589e589c77c691;
0x4f2b25402a03ac3a6fd61ba2e73b5acd1dcc221704afc22ab41ba3b158b7a5a;
0x2ce09acd57a7c33da7a3083fd7336f59f1a21bb7403cc3152101127083df270c;
0x1dc51c0843736ba1d7b5ca4ecace075a61486b9781deecb73ec0c9270880a5dc;
0x24c96270bedcecc4ec08285665474ba417e43f1277878e25f64c7ed59d518993;
0x1567b25ea10aa7639e7754e07fb26140e6b196466301266acb242ce0f80baa9e;
0x1b8405e13b06a1190bf60e3fbfc762ee365d6e42a551c9449ac6e78c25c313bd;
0x1ae7fcaa790af2f4aec1458d5e8fb9d2f6e9c4e1b3877eba711ad016a8f75883;
0x230ffda3cf04839dda573ecd6cf6a765f419096e19c41a27e219f7624f63f918;
0x1c821c8db96ded0ea28c83e01769d47e7cf531e5ee167154c5942dd1552c99c6;
0x654e2ce5de54485cdbf636ff35aa519d3bb0ad0f65553c089035b399cd84ec9;
0xcfb61bad637440ea70c21616c0021531b797dcc910b94583c7fa278feb71244;
0xdde58a2d3a19ca8daced15c92f831571b71a3bedfff56df64ee3d3fea7c11e5;
0x121e952932b7e95de7ec84c86576ce61bbb862ac2f13270054fe25b95540345e;
0x77174b4e7741e4131a2adb24c6c9f223bf77e2678d9ae5b3279d86e55f87fa0;
0x5d3eb46a0d9a2f0f47f0962a63d534c9a77d3927234620d2c928bf09ce7e5c2;
0x246f5a9f3cb48cf1f4a13aea5a54ba53d8d3046b61871dfc1fb5d9f358cb51bf;
0xa2e62faa91efb3dc7d4c6482d41ced93aefae8d13275135e509bb3a117b19fa;
0x21eaba42c45ccbed93fe3468dc8b98fc42a9855e60ce78562080053784c20256;
0x1e2cfcac1e924008271b086131dba3dd0044a03a28dfbb2f008611fec230994d;
0x2c97d275a36bfdd250e2e2abfc4953d8e04d5e92795a914aa91a168f1a993059;
0xb1d67cb1a69e071bb57b3f4eaed9fb9989c12e249c0900920bbfe0fe7ac6c93;
0x1f0f655f87c30461e7c2d6a3b55d5092e4542c805f29ded8c499fe4603df979f;
0xd064dee824928d39f2a8be7d2fa583223c33995784d228839adde2559592592;
0x1c9a4884cf6e9cc19782fbff77ff6a2df0b1353c2e1bcc80f80685b4da9a9962;
0x2031dbc469ef5d2ab8bbf080e779c81da08a138d18b1bce086d9650d044cda52;
0x26d411c661443edb9fe290206a84618128d1e85e1a8fbcb9908859876db87376;
0x21083c2f6587d4d94351b5e8d4d37ca1ed3bba605bb05ac45151c5b828acc8e2;
0x252aa5220ba089fec5d79e776cfbcc3be42167e2b24ba6245dc60c7cf0fe818a;
0x15aae505663cafd83758de1e586058a24e69295863d59c1221678d0a997af128;
0x2d8e7eac5ca3205436aa38fe08be53a0fb7b57e4c35abb9c8dfb722eabc4b4f7;
0x1d4b0338ca8f97e7f6da84d54af30e30d065138190d0c36098a69db08f44b97e;
0x1af838255d6973d5b0b19585c52f4dc7ac7ee024b541e4c103942b7485a5f82f;
0x301b9339d3863e05daac5aa39aa79eb948f6be9a56ade53ff27fe98531f1ba11;
0x1e03df8a06e4161781c43cd5da85f9c521dd1f5987bcef858048020944852c7c;
0x2caddd2b00b5b15d18a3ecb0d013c71966ca47d579403d64d0b41bd736ddb7ac;
0xb87a369e470ab99e2c4349ce109985391d848aa3b60202f7a17ef6a0e4adf1b;
0x21814ac94b3e32f6f295c65c4b234aabde202d9607b171ec00d826f998a6c92f;
0x29b1228b3346a79953774564fa631d8aa6f2314f2c9216d4aa8d89299909f352;
0x1a5e40ae67493e00371f4796181b9c0ed9f909bc5a6d9361f9b75b4c5f48d270;
0x1ac79eac0e5bd64eff5d74fd02f19cf0a066d6e5ad8d169a2ae42a935f454e3c;
0x1cc1592df343627349a25bda9ff38febef99da952ea6d33014b9e062d0b9c65;
0x246ae2ade241e443bde03d8e2b323db4208434d53428628bf92a2fad2058ec10;
0x18d00d6e9f9ca8e1f315aa97fa121430125eb2ed841bdd81f1efe69379f786f3;
0x2a147b464ef73244b29cc4e4fd24a29f0fcb62711a840ed075c77682801b54f9;
0x30188a7d39b26173b10d7767135b841640c15708089e2be2bf8f5d31861ae140;
0x1cf70ee72aeb25c85554b6de9c01877c8ef5164a1e118250aa14bb0ff8cc5d94;
0x2a27cb25999e82f8abee1351c8083c8393e5038113619e783649651c286967ac;
0xd064dee824928d39f2a8be7d2fa583223c33995784d228839adde2559592592;
0x16f3b44e7a69563f9b9cb04a43140d2c51a2a2641b9dd9ad5dd7b942b3898e6e;
0x1ef9dba4b9fd5363a7c5855a1c3ae00c1874ef693336b606b1f25c4fd32c5b3c;
0x3be108cd7d21185b6364bd86883fab9fc63c9356edefc708c05882280b75515;
0x21631c522c8f458394bd234946f326f0a0e0caeb2dab4014e8e089f36b25d766;
0x2b469c787003cdcf37233bdb9f3eed9dabeda742284d6f7286a426bc9022fa9e;
0x409e474d3841d04d8f6a521cae62224e4d15d729a48f7af7357288e1af200af;
0x239db39ca9b31c21ec61b7f3306cfd1a9c20b3aebf0ecf4af7df18c2a498ac32;
0x3062a14d58830bdfe5c97f9111ca779b253e09f8337e457a6c4ecc1ba1bdd8fa;
0x22e8958e08ed54020aeee58d8bd6bd816c3b99f53d664fe6c1bbaac2bb5c12ac;
0x2689f68f2ccab8aba87dad5aaf8f24c89f24d94c33a3554413ec94c9309c2201;
0x7ddcd764dbf337080c16b4c68e93eede25a567bde1f7dac0e3bcf6edfb4c472;
0x293c704451a1aa66e1aa0d4c7dd56cc5392fd8cf7b8cc998f6a54b8c30b24e19;
0x2cbffa47d2c28e5d0ec4a2dc0a168ae258368feea0ba17662168d4cba27906b2;
0x208c5ef46b238daa217fe46cc26ae7460c70eb25fab5f1122f4edbd48318946;
0x24fe6c2e5f21c4cba02f4c15ba1d07c732017ac72f262626eee292a4c3484c8e;
0x1dfde7457418ea9643108cc1d13371791b90fb3a4346f4ea6830fc8601afa196;
0x19eba78507eb7f4332dde5342776cffb8b3f53973e9d191b0f312f7f05c1e732;
0x2be0c4e211e0892ff5d3f3b7aa0281e1602cd23684b82ba12cb61be1eba411f;
0x9cae53a049def9f8088909b1ba59670f0d8a2180b04062eb2c8cb2c3893c11a;
0x2e2adf7ac157ffaddf5ba5fd0b3b009b13c8e1454b54d298e5a50f15ba24a957;
0x960206a1b5fd7f8caa23c6f979a77b2df76e53ca4071a30e96e203f6d611945;
0x1709ed8801ed661f54156b3da294eb591aecded73dc4bab8e884618899d61929;
0x213a699fb63a980c7dd352008ad46d6c423e77fdd87348879208531b1dcf7de3;
0x372666a5afcbe6f5458e78471e9ef6fcfa3420dea49e713a8ce1c19cad53b49;
0xd064dee824928d39f2a8be7d2fa583223c33995784d228839adde2559592592;
0x17f4a43fbcf12508a933527a8912f2842333780fd30c0c46d15af216dbc9251c;
0x2c5744c9ae7f6d8c3d5b66d4d43b95afd79ca38594b9049d886488cf10cef463;
0x2dafa6f3c603c4c0b0ab7dea2b559314dff4f7b2a1a65894613d2194595f4476;
0x2f7218004fcb62dc5ab37c7b3803626296dd6f876ea5eb4834eb7626c1d82217;
0x6dfa42020ea166652a7a392a6cec8a63171b943d6853730df3c846e32176cff;
0x23f87a617f1e8f021b83f41ccfe5e7526864953a9eeff56d62d85731ec090826;
0x1cda3fe46da8e3f2595bd22ae9327c2d2968ffc0c686741a13456fe5b2185861;
0xfa8625bd9c3af09956eb74e2f983eb6079a050c0186221b1a32ef5050969007;
0x111520b0f559fe2476e6a6f48060038efb0166ff9f6bda812a02f793228af23b;
0xc23dee172299609bd3dbc9f2ccfd1e3f76e594c5ac2c3e5ddfaa62289ed7656;
0x105f42aec8a1b60c20e7041acb94bfeb6f6b5f8c5b71218fee02047d57c0c218;
0x299f915785e8adc1c2378fedef3083e487db1f6f1807cc7bc66e51b73bc39147;
0x1ef3836591f803fdb8a0bd89373dd79176fbc2e92ede7006faa5d95e9397d81;
0x1a2785db4d9a3409adf3b7ddca9ec408b2f93044338ac23122588de468c59408;
0x1a6ead13bcc1a5afbc63d85db0a41c4a031e480585fe7ae5fce9b64bc866a216;
0x1f5996a035a306096eff22ff3aa805378e9f4e3ed56f9834f62144f57eb2d414;
0x238498bc99b623c9fb4daf8ca4e4c87607338433a9bc2546c9f37c86af431840;
0x273915d627d37ede450dbc5e96ce9489b78ee048f5756082227e62db6b9a56df;
0x21c11618cdbabff657a20c8d84812b984a017810e97ffc169c585ee296fff9fc;
0x203e0bf4be8fe2ad1f1eeb4926647caa4f6e429ce794db082fc07ee5330e7cf3;
0x294ba4a28f070410c4c4f8cb5c09a56252ad05dbe4b5bccd24a4adb4fdf71df7;
0xe403cbeb904d1582f7872035f81eeab4010de844540a9b2bfe5419d43f8bbb3;
0x27c86e516b80bede0756a21db1a6ced3ac126996f64f9f6edfb2417fcd3829e9;
0x26c02ced384da01a247d225b0931e3310f7f689426b3384c65bcfcf1a1e0d8f6;
0xd064dee824928d39f2a8be7d2fa583223c33995784d228839adde2559592592;
0x23c28b7d927210270a66d02ce14454c7608540c1c4111989c66fa5c83b953441;
0x175c47171e64b9fcfd9a0e5ff2cbf87d0911c01f7cfcb4287a219dfb65a3c946;
0x2b0dc6705e72fb39676c099284f87987580419e380019cec6529297780e9f143;
0x2cd30e4b096b2ac50182c596fc4bd8de276e1d1f058acc010bfe056b50498347;
0x213717e1ab4fe340c8edaa0f2b003ffa2adf4890ee9ab0bbe6528a2f4e436184;
0x167ce1eb87442469edc20f5be85f41176a2bf1a7e44ad9a920605c5be99bf975;
0x2c0874699b7fbae13046dae49db97858a6950199f9a3f3bf8238aeeb73501797;
0x1a565a10adafab01ae826b619cb79c9c7420a140d41365669ec361b37cb5c8d1;
0x2c8c416f3d61924456ecc73119c6ee327dc717b411a4ebdb673b48e8ccd1d4d5;
0x267fd0effc34952354f05332b71fe925b3548f0159ee361467784ef8fb986315;
0x2bd251e35bedda84bfaff55de37d2835277758a60db4a9bc4fda3571df5ae523;
0xb7a443712b33fcd61028542457a0da3ab1f087b58aacb25439af6e1e55375a2;
0x2404133570623570acc718f19ff26c6b47ba03857394f55d17e8ddafd46cb5d1;
0xda485d8a8d3a97968c8b0789dde653796430641c4dfce40db5cbaea4f392071;
0x2146d7115c9adecdfd5ba061103729167ca82a2e9e58df7177d10645a23744f4;
0x2c957d723ab55cfa5de8995ef9904c3be5b70b5774a12d17efd71d7fb10b2895;
0x80bc3e98f6ec909c5161c498e0613bb736889eeed8ce7bcc93bed02f4bc5be6;
0x19dcf73cfac4b44c2761e024d6cb2678cc104a528c02799bf3a091908ae780cc;
0x199422fe9fa1f5d2dbf402c9bd634d4bdc9cdaf70fcab9d0ebfbafd12a02e49e;
0x1a4077b1cf49f41fc3a2240a37ae60309d6941b839ebf51e1e118c16a23c6aef;
0xe53e5ebd64346a83c1e7f33878ac8753b1b45f0e1747f680311eeccadd89a17;
0x5aeff75c7b60d39afafbcae4f99e77e223c35e301db1dbea5becba73535885e;
0x1f9764d4b036ee9b186d5dc379c2826b17595849ac829e2d52230e243fff309b;
0x1cbd64e54e94a1499df6fd784df7709f93942071463eab3db602a804337a436;
0xd064dee824928d39f2a8be7d2fa583223c33995784d228839adde2559592592;
0x190f2a683d41d29fa79f653057c0851c76bf7301c355e46d514e62a2116d7188;
0x358bdeb885279de421d0b5bced75e4b0b909340f8a3445a3dd17d76e4abcd1a;
0xbf755f699b7e4252b3fd62793827e613c40b0c1285a2eacd4ef65e3abfd281;
0x26753dea98885ca2c4aa18a49b9162277722858ab51e3a482275278c53842496;
0x2c3bb4bee55f665db599acbbb270af82a9f8320f7c3adf113cfa86d9cfb4754c;
0x149ba255f720eda11444f804e9814260008b187f26ce17e4152c092dd477b00e;
0x21344c682b1f31453cafeda3081b76096340dac56062762ca80a78870dab3bec;
0x11b6c7953ad5ab4ae16f501101b9b577f0b8a1d7c6a793d66e4fa161b1e06e52;
0xeb1bee9bfa6eac0e22bee9a13fa2155ebfcabd0908e74145bbf9428ae0b0209;
0xf89e6f767ef77ce6ec818807d30706fc114d9e02aa610c0f3f77a3a08aaf9c7;
0x18a72ade9ee9765de8ccff2950b0a3e8c8abb4a336ad417ea75837e8301b8dfe;
0x239367bf5652c2b293bf645bd88f1169b6f872ccf8405c2b4f09f4d135f6fed9;
0x239747dfc96f5ef11b8573b4714b20381ea4ca958761b44e11872f306722792b;
0xee7d51ee88f040e9c21d5362bfa085adbb01485abe1ed5717b55b8687e40b31;
0x216277a3d920e1266639f61d0c22d76858e85daf5fa83d6230c6b1628a077051;
0x43527556626973735d511d252e2a1dd3b55026e3d5b38324a50d1cd44d0f9f1;
0x16e435ebcff7dc72244e74fef07cda6add05c08a52cf07309bd2eff2ea896b39;
0x128020b31dce80e89ac5e01bb13329cea3c62ad115a5d65ce68555e4494a867c;
0xc840cb172dcdbb1502749bb1beb46e0439aa167caa4317282fc78056262eb46;
0x542b0852563c2bf928db174369c82da60d6d41e9c61425d417f009c46fac67d;
0x22452f2d9043bcbab68e526d22af55fb835a3e554e5101a82ddbbcc047411884;
0x11b919c0b7abc6b28c582a84c158d5d68c928475503c312f86ad3a2ca97c0ec6;
0x2d1e6445ea67dca7ec1db0b08659adb177c9379f4569bd3efd060e06d0bd01e5;
0x251ba02f642cd5e0ff35e008a0a309c4c6780dafa9fac55b163256d39a4e4119;
0xd064dee824928d39f2a8be7d2fa583223c33995784d228839adde2559592592;
0x2f09e5f58f262c5f4c9ac2458e58dc1c3f5e0a409ff3f095d8ecec957ac50f2b;
0x1315b742c5de4460a27229e970e546750da9ae91fe8ca5e51548c60c12aa8359;
0x60e6ecb8723e793eda04e490c818bd07cc8a972dd900d0cbdc4c28c9e3ac13;
0x1677aa582feef6ec348f1b194f4f978d6af473133203d0d22a81b08bdcf26a9;
0x106e8e67c7213d1c649b08f8163f849d0e0cb36391672b3dc5e632983451f457;
0x218baabcf27c9046b7ce52309a3d6d3a2ca1b3924bd2fb64c157353a88567c8e;
0x2b2717d36fdfce6e134f255adafaab3d1a9f719b3a661cc1fe490b1e190f2b10;
0xb0b2c3bac72604b4c5d568e4f4cf53596050af1e7bac3627e9b2cce934eb482;
0x217a15b51fce1bdfb5678864acc464e95225e47ea40bbc78155c14a41f2be20b;
0x1ba5231ae9c793948686f7dd7be9c44435dd6a981b3e880f344e2935e14b64b8;
0x253e39215ddc07e604684a22eb2e7bff9c138b17d2089ba9f451cee209f14177;
0x291dfe1da2b968d3837a2b2b94f8eea9606535776a260664e8227e212354ca64;
0x1d3a7e1e04c422de9b7e0b090180518372473ae8ecd8d1fb81f4981bba63122d;
0x217d25ca6a61a6551abe4bde579165d171513a7c15fdd69e62b46269a1cefb04;
0x1d65f0b99037a8506c7ac7811c3b8ddfec719fd951a7337dd01e22c6e00f4d34;
0x2288e24daba6872e61c70d8a4b8dbc67c63a495d41649761198efd7e4275882c;
0x29811fb1aa54a2592816797a866eb8126f4b333f1526eb6e25bb626224493360;
0x2d8f4b4f41d9abbc9f03c50e4da5e64fdfe87c5d07545cefcd30131f20f00d9;
0x28d7a552fa2a86a8dbe41059439b0e35614cfdd841e0d6ef1db1af78d7108e4f;
0x96cddca2ab8c7ae201908ba1a671a9117e24ba7bbc16b331babdea12bcad5c7;
0x23e387be7e8d63cd8b769e13b718b560bca4a602c8992be3d75e71747a10dcfc;
0x1f77dc7b1dd84dd7ec1069c065121f51c036a41237408070c45ff15d2462a60;
0x7765f1e2b28bac34ff4c1574654563e8f672a14fb105676a57f2554f49da9c;
0xe1356ea8e8068b1ef8287fe1362ced74d7e1ec18a1bb36e6fd2f22593b51e9c;
0xd064dee824928d39f2a8be7d2fa583223c33995784d228839adde2559592592;
0x9d1f2588934f14551f899de997bdbfc9192ea76d1490b6bd5e1d691d3403af8;
0x1d48285a000b66b39acca3bd48ae38d761b590d846ebec486db4899d1d3c4d72;
0xbc56781b0480256d3661ac6e0898a7084005d607165224d494103866e256c47;
0x88867a8bfef1eb88b2ebd34daf3524cdc118d232bd1b91646c11a2a54556b06;
0x29938e679bf6bec4d293fee8615186bb09287291d69bd50953790fb09db7ff36;
0xf3078e2dba998b8202b3eb91f500e8cdf87e2ac9f86edccd8b907b1d73f10d5;
0x2feca0ea4cab180c357b1dcef1e8816caa115f572fb2da374e27b2f7d2a17108;
0x19a53e4e1a8aa7a15029ff45f528f42c8dd0360c8dacfc125ce7d192a0a70765;
0x18ac83f6bde2bd90432ee9fc03f0e62871969e8ba27aa1dee2c72e2fb42e9351;
0x2cf369a36a64a81b17c4521b17c8ef65d09442ac2858d03785fff1f8ae4e3881;
0x16d6acb3b445a2dd2ce6c6bb79f1f61f15019a090285fca38fbe54e04704c55c;
0x1bfa4fdd27298d16aa06bdc9ddb3c29f48aff4fef45b5ce80b4acdfa43fa1355;
0xc6d30e4b903bdb97453a996931ed19b556b3887f54d63084263d278bc2de531;
0x173ca2118a8b85e6e3667d2dcc1c480e163a338cc2d47992b0e6f09f2d363c24;
0xaa825097578d91eacb40da93cb739f9a435c8a9bfe2ef8f63d4d392672506f1;
0x2869d724819d09fb172258ab1fddded25d8f0afb23f1a87b331d229eb61e032d;
0xfa3dc0a38fbb92e5f714183536dd2cec7163726a64117973fd1d927ab7b0c42;
0x1f0f50f138ddd25e9c77dfa15f2201bc43fe818595195782fdce833664fdd244;
0x1a8bd852a6a8a26b23057e5bb85facaf706a6487a0651c7c226d0cdff09f4507;
0x20d045353b22be410aad1286b4a362f79c73f96103392c5c4ed31889729807d7;
0x2830a23a528b1c1e7e277f97424cbb153b3d316fe1b167ea01309bdfa6a0f623;
0x1f8f3d87ef4767679cbf773af4a2f27614124d5270015c7d64c0b13d25ee63b;
0x2843847fdedc907101ab1b8915d7151dcbc7e27419d2cc24490d2020f3193683;
0x1fd3dcb19e924d226e9b428d29f70978d7715bcbda1ec70e5984a67ae61537f0;
0xd064dee824928d39f2a8be7d2fa583223c33995784d228839adde2559592592;
0x22afc2a215e589f41511280dcd9a4d2f7714e205f2c4d0b663c9d2da07a231d8;
0x256117a01b4903a52e27a41f92d7a65de53876e832d5d0013fbbfdececdcb17e;
0x1bd505fe2027ac17a51db28bca97087a4336103a375f5d726c4957c63c1377b2;
0x1370beeb7c62a69367b6d83f639e5eb0744df8b7197e44410965c697938a9e3e;
0x1b23ee8b148269858c2f44c34f1058f44e4f066b2b97a357f81a0694bbf3baa2;
0xc11837fa154861251a3c6d09c4590cf5b738abb440c9f221b6fdd86b62b950f;
0x1e41b6d8be08383c6279628ffab3e3329bd391e954f5333c2c24bea41b1b6107;
0x7921a5cebe4c7e339b84f0e635a48591367584d0c12a64b5637d960f35b3d11;
0x14969d5919a6d85c58ba30919c0f0e52cde9197db39681160c5be3b98aabb92f;
0x1d6e48aabeb209860512a8935eaf23b1bafea8797a6a81284fbfe6e81c1f7a34;
0x2e3ce888f840d34ed8c660bfd5a48b4f4a0c040f5b39165e2615427831f86803;
0x3383db94e9d7ac3e3abfe0d27482c9ba837264a10f482ae80f226e51042cc26;
0xaf89e9e5eee9173993784fb566e6d538efe46346ff5cf61b1c993b52a42e46a;
0x1ef03efbffd92cd2da93741eef43a8bed80a76f4f68cebb61493e971b8b7e7e8;
0x274067b2a04222952d6577de3245f38219ae54f0582d9e05b7d8a01330395345;
0x16ba37bbec0a43c8f30d001bbecb30bc3cf3db728da538ceee4ef9ff4ba486a9;
0xce229b9c289b8e7cbc4e020a0372a370a7f282201b47781caff3d01642b8c2a;
0x2f80729c7338be1c0dd613c22e836ee2e9a9d0b06a2fb5e52af024ba8678b5e3;
0x1cdc6d2ae50c1329a117d13ebbfc1fe86d5526a9f9c59a50e031f37b6710dc4f;
0x2530a467ba204bca45d83f9ca4c5ac9a568c053266ee1126607ac33c7e94650d;
0x371303ff0fc68a7c62e17b71ff98bd5715c6717d794b69df439a6d7c00011d2;
0x378305e20bbf96aa0c633930f4011bc20789b5c1be3f2929d693e704c552bf4;
0x1a3636567c1ef3005e7d5839bca900888aa34197fbae582cf6826f855020d24;
0x281e2a06fed1cf5b0e0b6e03fa2652cd608fa474299b5c7d0e59c6aa35c0b17c;
0xd064dee824928d39f2a8be7d2fa583223c33995784d228839adde2559592592;
0x2b3d84e5c61b2b97939674b7ef13780988f0c2da109e71d17d0598f080236a27;
0x29e2b9bdc8dcba3617e5663dedd89fdac40bc1714f767f327c6503d7f146fa2a;
0x216f7ae6ccd7bac97e2bb068168cf18b23505999ad5916e52ce95a23894806e3;
0xe8d298cae881515ab0f74ec935567a5b249314023b3856d5f9ec1a5599a9b55;
0xf1e1e45f847cb03591997bc8812b0f422dd0db2fc99c2417a81989f2e46;
0x5132e56caac6351c00de73247be0cf09de357c4780bf705fb1d12954047a302;
0x2c1f7dceb1501489cd4782c13dce297dfe75af4b4065dfd0fd51191e0f03489a;
0xdd3f24843220bcd4a66586631e888956a0ed26f717c556dc5e20f38b455d4e0;
0x2f3224043392306423d22f0e9e5c15889df84a9c1c6e2bd406a469139d132844;
0x2b572f7e5208c5e52a759e04500a1c7d641ff06df5984a926dcab2e17ca28503;
0xb1988858934c8a353456d44c461a763b6c98ed3cbf72a21e2e4690083399907;
0xb0ce76163a25f724929f8ffe5592bf64313660ebe1b160472466bc091c5c3de;
0x173b128e873c2dd53e94e438b4cd066ecfa28eb42d13bedee742efd4ebe4dc3d;
0x22f7d627420794cb514df36097c3dd8d2e92e2890af2c1afd4b5f5bc26a6629;
0x1f343201df3060d03e313eba7690883ba77fdec3d663fc6884ebd401938af261;
0x2472c968883b169ab912d4327cef96e6d4fb7b2c00959bde150b5ed9708929e9;
0x134c248a14ff13c4202f997bb87ee93058de60144cf2f5141236f01455438526;
0x206b6361e6139253e6070f905d6b7d08eac74e4ef2f54ce09643926bf5c8e814;
0x2db2cff5528de7a26e0643b161e7b318e554aaab93fa72f9f475d9aa7c6ec8bf;
0x25e05b8a3965fe0a250aa7ca030e3a7439445478e59dccab16a621928d014571;
0x2a8c5a77c61420b6b4ebe974da7140a25eaf9dbc9092f063111283e773adfd1d;
0x13389b7bf63bef6a68983125b86f93b62b6d9e4783f96b710e2ebed3adbcbe2d;
0x2731cadff040622fccb533fd62a0d43090455881080a898488d55c89083395db;
0x1886f751efed6e401c5851f88bc285e68de3b94062bc810b092c3e4160b0e12c;
0xd064dee824928d39f2a8be7d2fa583223c33995784d228839adde2559592592;
0x1a1de7217c640816ca96d69dfa3a9ead0a32f62b2d864c5cf3d66e2977616a60;
0x21bfb88e0d52b7dce5432f55c443964e46e72879baaba7aaa04577b59fbbf100;
0x1e1c9ba5f1413166786c96401b61f687ba50dc735d815a4e811570bdd8954a11;
0x378dd10a31675f7bcdb8018c96cc8da6d034a42cdb62b406c5bc00900a3377c;
0x274d6dc05dd550d77fb31d349b2adb5f38eb4b27ec15e8f9cfaf56fe2f8b318b;
0x24fe1bc328cc95e0857e89e99d2ca97f327c21aa4de5c111a72c2c37235e7d1c;
0x2a98fa37a16d2f8369b3ce72873960006ea67075c023fed5b32dfe407e636057;
0x1097f947557042baf445bdf5b8a92021976c14cd0354ee88e43e8c8c5caec4ab;
0x7734a2111d925edc13496d0f5922ab36acba8467999f5fb727ebfeb37a38077;
0x2fca881eadd43cd4b9b3bde9046f6a2505bc46132b2c24da4e27c102d63eef34;
0x27c952411017987d666bec758d6036c17e440940b77db47b40d539ee1156c1a2;
0x1b329d612f773e77721b7a0f9154b359c24a6ff2ee0f5b9733a78a798caf0f28;
0x2e165793b072eaa3576cd18b9027582368581339ba3dc1acba9cd4a202701686;
0x218665404266df9d5ba6ba1f5a7d9a628ad7c74a092860e287be14f0bf58774e;
0xf42176ddc2c84d12bb3798fb2b3a06e44a4c33ac39ebe036c7d6ac6ffdaae80;
0x21dd47b40fc1e454614ab099787fe65d6d8ea9eb0e4055bb51e34c51bebc1dcb;
0x7d3a26830f8b14342a63c1ab7f713db81ad94ee6e5c519cbba0bf6d2b87b265;
0x13a106fb1b648c8490a71e9c16886e0049270240189d44278c63a46f744edbaa;
0x1caa59825f86da2ce09134f4ad823df1faec3d556f9756312cdd8991c3b56d60;
0x15cdad7e7f40503431e7a8c20a7e1b48ace6d194ee7d7829805a38d04020426f;
0x35c2a4fc2c424ff77ca180b9b522abf519f1fd8b5bb7ef7f1f8fc7d31c117c4;
0xae2ec57575aeeb3814613d2390f8ea28130ed34725d1605b585b4e8cbbfb4b9;
0x1ded456ffe562fc6df999ea5cc80de0ff6ca5fff1b0fb2607273ef1ba5262edb;
0x2ae307a4f4670d11f5ac1c7a3a23b6dac613d3f104e107d0438e2ca6d0ed55f5;
0xd064dee824928d39f2a8be7d2fa583223c33995784d228839adde2559592592;
0x17570a15226e3cb10d0e0cf627fee157af900cf4b22d8bebfa0f05ab45d56306;
0xec2cba7becd9f7b3b07b59be1f747b3fe3f40ff31873dd306105ffdfba14106;
0x115a73bfcecc700e34ebe87a02338ec4c9e1bd0d95c2554b12cd5cafa1f75f87;
0x271882e1e88d3a90e536ac91109d8940ae411f75de7cbd43000d6316c5ef48ab;
0x28d797cb88e36cce87e39090fedfa11dfacdf2adf148618d262e46fda6ecd899;
0x903165475cdefc056bf3cea7cf26e39e87e7d1c8e1497271df24330ad02d8fb;
0x521dc03abcf3c15278e90552e8162b2dac92220d99e69ef9e449b5a0370afb0;
0x1f80e4baee043beb212593df11501a79c07c898df6cc578190c679e64c34a2ed;
0x1133a6e8c5d0315d2775206b849588eaabb0b63a8faddc67806ac13faf127b7;
0x22af22b064becadae113b24d113f0cc3dd0d178f9cc56d78e84bf341354918ab;
0x16f91f204c2bd84fb907a7ab7442742ff24ab831ba252806ca7b6e69c77ce94d;
0x1d2c02fb8f7780faa24f3da1f29e9101c1cde4461b7d567b949bff5ce1c71ee2;
0xf8e78d6c9a055af147b74439decce135691562dc5b8bac4e471fecb73562363;
0x134cd1d2c86faa3bff3a72cb6226109880094173ee2cc808abe6f9586bd47844;
0x1b9edce59f36f20f7acff0cd78bdf614f6a8f1bcf95ae9d6ddbf5c8c7fcf625f;
0x5a6771daf1f2b83d0a92a118f30d42178846e5e209b82491656febef65abf3;
0x1508cef9d99fd03d1b6479b90399ca9dfe3792fc63bfbdd35661e0d44bad8096;
0x291cc5c3f65ae5bf17598f432aef5de08724ab30026f25adb70f85fb3bb0d455;
0x2c7723a807b3944705b71db8c04cc468820d3bfb99706528f66965bb8c9734d4;
0x9bb171d7c99e8b5b35def3624957074dc2f0a6beb861bdf417b2ae290832dc0;
0x1943ca5707ee772b8391b577e295dad4f10c2db1c770e33d8c37fc2280d71ae8;
0x1d7852588ccf0c51663abd65b87004ad5880721019214e00190cc8e939eb22d0;
0xee871118f882a42a8acbe733a64b7333a2d14413c511b6a79d58aa96c08ef8c;
0x1ae19930e083754140dd85378ca87078feea1703c3c0404e2776bbfb4cdba8d4;
0xd064dee824928d39f2a8be7d2fa583223c33995784d228839adde2559592592;
0xa7c934a0347f0de7e9e7dda8b1ae9b094bd6a309b8323e06780821d7894fb5e;
0xfcfbe728f5c1f06572e5a750260efe423bb6992a7b1bf8f0e761e7277e71d30;
0x170dca9f0f6e9057372e380cfa924e65cb86afad866a330ec9ed35ebdae1973d;
0xa4a917f344bce3b5f92568450a4f17e6a17e251c7357e708ec3d6e559bd89bb;
0x127ff432555f7e08beafe0fedba0ea990b49ca5df42cbb999c3bd7b911195362;
0x65b6e437cbc026c1623071777b10b8dfd605a3598fbda0687c74eaf525dc1b8;
0x2faee8e6ee2f7bdd25ff36c3189aedc3b05c4bdaffde640c0e4d9284f7d9a8a5;
0x1294fbb432ac3864a9c12eabef13d07f732b652836e66a954c485735899241d8;
0x2dd3ab4f03573f3362bb7ddf9648bad1b43ac6939d6c4fa9ee73dc7fe66deee3;
0x2029b79d88ff15c860971aeefb2ebe0d523faafdd6096642b018856793e74b4c;
0x2e5c56ab0934eec6ff8c8224ffeea657f1b99f880a002f6ad5352d30f7c0b85b;
0x24888adee436dd67b6742858809073a5c4393d61283a825b65b883114d44220e;
0x1fb80c654292d64f24d331f4f6fac1a20a76379865a6331e7528de236f44eb11;
0x3e8ff048f23e53a5c6ef02dc7d37f316cd4528da4e1f6cbc4582889e1470039;
0x23a4cda868726fac1665985e13d800d100b56bace43f67e29da05733c2a351f8;
0xe25a1b132ba0bf76f1e361bff6b9bb9fa2d3aaad114f589e100625225a04b9e;
0xf534c5ad59c9d1c4a37bda4e52ade866d305b982309a004f3b2c6f8b10e9854;
0x1269fd5d157f5bb62bfdbf4f3f88c1b2b684e40ce07749cfce657a373e1e4b91;
0x1fb70d1ec4776f91b42677c88d2983442b78ef00e03b82b5de606a45ffd3b4e6;
0x29eecc22d8e5725e00c85a0651edaf5f3e9530505cae2d7a3eff6ef496d7b1d2;
0x2355c9e8fd9fe0eb681e8aa1e3ad43740a79cc9d930a029fd161c3ee32f7257e;
0x390f12f658c6d9291b118f5e116727e2f4a07140e8f3563ec5b12a0ff6f6a7a;
0x140256a4a9cc33d93eb486b96b737dbd17580a77f20924e4a3d87c23b25b233a;
0x2d2be9983d14c81d2cb8665b0c08f89d6140539c712cf4c2ac8cc75b2daffe46;
0xd064dee824928d39f2a8be7d2fa583223c33995784d228839adde2559592592;
0x2cdce0a94aa8c1acc2db79358c3e67d954983ef0927dc6b26f9abad820f1d420;
0xf49eb6531ab1674ea9a6ff88bd8148690c04addf9a9164b13ff2c4cf008443;
0x26403014e3cc48e1cf112ed79bee8ee1467acd303d0da5c88b8683e38bcb7205;
0xc5f602b9f3fda8e647ef7a42af34741d11abbe0a99f464c101e534b51cdea4f;
0x18ac38aa55e95efef98c347335a80caf7fc5c3efc95901321e3b13b12cf46a2d;
0x2b1960c727b10b666328f0c37f5cbb3b06a1ad54f61b9503f23b02e5c4678519;
0x16f13b53b3c6a47f01c73f7e26c2fe6ab61b3e1f5e553413f2ca127e53ce4879;
0xfc4ef669021d86d29dc04139b88f55a5a57fe0bfa253631918e0d808b1236c7;
0x8834ddf96f673a786dc5af125eb83c9ffe1537fc773c21d101768aac7ada57a;
0x233f13c0ce9b48867dedb88a15b1461cd1befdeb99a9c0acd863dd45e0672508;
0x2099a619097f9565ca65ac96aff19cbea16a90e056a33b9b49dcbb725903edeb;
0x269898a890a0eb11e9b84db6ae0735714123d4f0aa0a30db183134d279f1a90d;
0x27fb03bad7fa46a625fb06a4799bf7a07ce3bf8dc01860cf6174f5d9cd49522e;
0x1f0a5bd99fd979d0edddd243d6966152706bffc8326fb088545b38d95fda103e;
0x1b082065bfb2e151552d1aeb3f2435ae8c522db79c1c3fb847fe73b728dea05a;
0x196840a15a65ee462a8312520b868084ed0213c1a881adf907ebff992226833a;
0x1bb7d7bc4ea0f7b8fb5a3b059478ce7f5ce2069e7d62a307c21d0400f386049c;
0x2c0b3d687226a36e523c0677e0f3949eaa45d0d3b9c9c2d11b0431d8ecc7410d;
0x2a22096acae1d75aedd8fc843d8130cc869b142405d3967781ecf9ff0062cfa9;
0x11d3df41e1d31751c5b00b775f33925b4fd5f8f66dd2c5b2e2e04cb090ffb97b;
0x29d0fc08ded332bba4a34cedcb8e3eca9d9a6929a5efbf58a72e849856a9cc67;
0x1a0ae664c389dbc11046bb170c0ddb422c4c6c2f10c68ee98ae7ac8c00c4ee83;
0x6f3c77706973637c7f2d5b9bd92d6e2424b926c38a2cca7bca5dfa0794e5845;
0x56965616b2df66e2918ba840e0809b85a567a3e7d13ac5f1e532061af856a57;
0xd064dee824928d39f2a8be7d2fa583223c33995784d228839adde2559592592;
0x2dfcf11eef61a008f27f61a5de96abc2e329dced7092f941def6b523960afc93;
0x4f73f5afb82d2297d4e51498f0828eeb3eddc016ae0e15a2a9e3cfff340d500;
0x26290fc492220c99dd821c4a4d1acfe1b7f40b37a13bbd3ab51405a9f958ac93;
0x7b53809466ff55e2e4f5ad0f029ccc5a1ac5d261732ab2b010037e8ad080317;
0x80ca5188ef7378b939057774b2ecd1f98abf27dcd473edebccc06ac7a942e26;
0x2b6b01434a47ed188b43157e1964f3725cf4f8113fb0a6cb4c01ec7dc2bd47e3;
0x2c2106b5cb401bd68e15746349b56238f670e58a021ee2ac8915288d5361475d;
0x88ee10bba489475547984b890d7e794ab25535f1fcc8fae04a33d300a5eb6c3;
0x29108e4588512ad0ab28e432c789fa3d3e0dc0d6002e19cc3fb6795a75d6971b;
0x241c4817a914814ced21c06ec5351e85ed7a90f2843d23bd5363aebbcedde7b9;
0x22ecde699dc8dbd7cd3d81e80d9a81ad023c57bf3aec5a8239871472fabc551a;
0x20dccbfe3e84b40f3908bf43f0512048facdd8686ca5f17192f983599daac6ed;
0x2c96389333c5459ec65960d848b06bad4d6b8abc6f2602bfd81824cf43c7218a;
0x28c59dfea6fcab6ae73beba612e62083a58bb80306a3bc2746ace09d650c83e6;
0xdd478a62c6871c699ecb4ea12e454027212fd8f1e03a8efc005df6d20ecdd40;
0x28772e7be45e36b90c2d439748c0d77c0b523711ea398e7dbd85b0d7df1300d5;
0x2a37740039be074389e76e1ef0095d7d111f778072d4a57334ebca290d667a4a;
0x2f37845d94aec2d63ddcf2cbd3fb56fead92ea8ecd819d7eac3c2b036c6c2cef;
0x15edccc5a7e695dff4db9dacf405612f00ba80a16dfda1b55cf4beeedf90ddbf;
0x2817134845b5ec6aeda4961644d513269f86e07a21ac3b7344d582ed07b5f46a;
0x1ef5390790a2a3214140b10962d9435bfb0b4e6ce24b7a1ea0c9af689234b6bc;
0x18427d6f7cd9bf7ace6341d16dd845cd1bd18ed4b9b8ecdcab36fa45860855d0;
0x9de33bc7e2ef786db74db7eecc7ff8720454637bdf51b281a4a1478f198bae;
0x5d2c63aa2de4534fa4df7a6c5f6d10599412fd247a59f778366bff5706110fa;
0xd064dee824928d39f2a8be7d2fa583223c33995784d228839adde2559592592;
0x23aba695154e684ff482751cb761dcc1637ec5e99aaea18d0bf2e2fb26eb142;
0xba208c04ac11ef4543112dbd88212917dbaab5a87268d8158a487ae3241584e;
0x1cfed0b58000d3ef4cac1e6fe54e64af54f393accaca4d5b8cb05f61ad9cd776;
0xba1df4ea027f8349fcb15d1edb328a76fb536ab65ebd535787945634d09c5ae;
0x1e136b44ef141c91945c8768805ce01001958ecdac9b065874d21717da99b408;
0x20643e3f3c68b214605c6df2d802e1e539b465b98307fcdd0f8d5bfa1778db69;
0x2127d0e7d940b3132fab6b1cd719577f51bf8db531e37edad5194875ee74936c;
0x17249cdabe9c9db4a1b88bd5636d3bdb48eb0ba6a17357452c97f695b080d5f9;
0xa6b94822882ba1ca1da954566ad30322e3458a6e0ddb143e4f5f306fc9e3336;
0x2486410df8f9b4817d82adfbd24aae41ebf7c4bbd8708d3a7c3b18a999cf79bb;
0xc0b7684e8ae46845e7766bf7620d2791a3d218bfd812d008f73ad351ba86aae;
0x97d3ee321f0db8c04cede13ecfa87cca6ffc215653dbcdbf62825059b8521e3;
0x2bff71dafae458bf4854d7957865e2362b99a7891cdd38e17f76c5828aa16531;
0xfe15f8b13351058806bcaf16fdb68f3ccdf3c30f15a85a58df2dcfad72e296a;
0x2bd586480aa18c155f688c75ba812ff81990930c1aafa4058ebaf667d41e53ca;
0x2b91cb72fc45f6dcb1dabf0473e2455f28be6eb1b59cff91b5fef3b81d628ee9;
0xcdacb5ed20f18668a7c3f21366e04150d0e877756e2ee1cee11921184a31a71;
0x9239d69b632ebcc1f559752a2fab086bd46cee120504a8c94b4427a2fecd5b8;
0x12bcdb6b20dc77d3d5741b3fc61e1ec6f53137b01a23f48c2a267d6fd59ca0c2;
0x11ea73b3f04690ce2ddefc2af3bf8f8054ba74dc313b09ec09c96fa29e865b0d;
0xdda6467c64b0249d2f065df90fbc7a685022ace6d9cc6d9c983dbd7d29eab53;
0x15d7c61e8a8308e4a43d992947c0262b65bad163a8f101423dee64c22bc3ab02;
0xa825acf9f09d653e06be5dba7ca63648ebd6060377101080daf3de7bd9d5380;
0x2dfbdf5d427e2fe6892fd40d4e97ed7808dd823ead27629d894982b7aba08a66;
0xd064dee824928d39f2a8be7d2fa583223c33995784d228839adde2559592592;
0x1c9ea68943d8c846364060646de0e33534d528a23ad82b8ba6870754281db559;
0xa15008aecf43fe4b9a3bdc26ff03e3867e974352926cb3ad1535f7459648a98;
0xab17a8ff84f7fa5d0daac95c36e606fc6e133e7cb04f0f7b5334e8e6c44ea88;
0x1495d888378f7e12c016cab0bee2534903fe878d5650aeeafb3814b3a8b1ccbc;
0x29a054aa447d63b2124f50ddbc4c2d943636ed53f22651aaf90fd93dcedfc941;
0x395b15a827e37a6adf3175a2691c288aca68e16154c2d98d96bb0dbee6a3f47;
0x2f47066bab9349dfa62b25ecb43354246a47eca6216c1d12c36601fe3413ea6b;
0x1b1ad81eede52f8a8c0aff49a041dce0b55a1f06c826b441951b6d654b804012;
0x137f27f0b79cf88476110b34e7ef630d03ea21338c200322990157f50a8f3fec;
0x131ff85cf21b1a68336160757d135e1d605144f82b3adac0fda110084d120349;
0x5f848d592e921b0c3c7a36a84765487b1357d0ec01f8f329aa8c6f266f4a85;
0x2f8999412ae8dcb4475413e72f68817ec1a094272744d32be4b8a0ff74bfdf1b;
0xb42e032237f3bf21ae95c4062868751dd39d0f68c06ddb849f691288f33e261;
0x199c8b45cac96bb0db0f2dcbf92c361191cedff0d949606a140d3420dfad31dc;
0xfda38b5f5bd1100dab719bcfb3889371f5ab9ce9c42868e7bbb1ce2d5a85f58;
0x1bbfe63a7558b0e9a002b3983058c3cf399d479f7e2193d2491d585d541a086a;
0xeb005763e3b3d55840741f0cbfc95fe55483854e817b4d7cfb4549ac79cb34a;
0xae77d49a777e5a22a3fc6aec242a7a80f52af3e1cd395cb8862b09bf3230ece;
0x25c1db48d2561608e3478c8238b3872dea6de1de597c4f26ed8baa958480e5b9;
0x150bf881bbd323068ed07cea87050866e7b29818f3d36e08fcd35b31de21b85e;
0x2e9d25423c272d1989d6ec5e983812e73575f6040b3f775fc9bd1c7817c55;
0x229ed6f052976bcf9f11e48f4fccbfb450a7b92efcfaa532c1c85a059db33cae;
0x3ba04ce72a78038c64773239e8f8c1da608b93fbde21c2ce94af9615ae10f44;
0x2ea6dd6483856ca2a36102227dc147fbb29fcb62ef939915a9db66c103a99abb;
0xd064dee824928d39f2a8be7d2fa583223c33995784d228839adde2559592592;
0x29e75237c1ee6bb877b6e95b7355cac03170fbf57421be8dbcc50f08693db587;
0x137b76a84a30e906a38827cc4b62b1a22e942d835192a98c514eafd9013a2dc5;
0x1e2a3dcda8868ab407f15b612c405069a5c1c545af827bb0f8f6e32dc55e0277;
0x5b71c5d1613cd9b6b3cfe9400cb5d8583a16dbc1142cf760ca6aa9f816e9f28;
0xa7603ec122e8e0178a7cb29db181e2a9a71f825effc8415b8d09feb7bf6ed31;
0x12e4a61dd3e9834662b78d9a820c25660926039237ef579fd1eb260bce13112;
0x17c89d0343777a479dea31744f2848ac06045696d8f0017b7fa9d3abf88cb373;
0x104a21bdcb8e49245acd6fc281bb1263976f138797f19634c79423f349d6dded;
0x1e6ad3ab8037bed2e36c872a9757a796696ee2950f97cf31eb83bcd4f63805;
0x248ad6966b401086060a913af010da4ea282c2d1461e3dc100569b3bd1685a16;
0x1b4d21b426441caf2545938d41bcb3b37c32b3fa15ed8ffd1162e65242ea4d39;
0x29c4422c99599bab17470ab9388ee796951c249645ab164e90530fc851ea1fd7;
0x1ce500e40779238422cd47a0a6d7f3dcfdc0c6902869966211b0b6a9acf5171d;
0x19102e3c727844fb898c083bc1ff45d106a293d8dce6ed43895782daf691a7b9;
0x12947f4ac2f6fe4b1125a28d17cc4a3e2db92fab0e0b97728c8b7bb2047078f3;
0x2a7639bcd6591dbafef49fb61db710e9ca0d712cbe81cb86340d0f1698103515;
0x83ac15141e94aa73277ab521d9eba44ee30f4e02d6e9c1568172bd18c9b7e6b;
0x480635cff8314d917d8a55b349529dc633170a143f4865713f10007f7f4b7d9;
0x1c03ca2e6ebcce9a2f4ce66bb039d036b2b7424ae916bda6240280d5e5ed0a1f;
0x15e7db7d25266f604b8f942efb4e0c32c1e45621336d280f1b904c3f4052936a;
0x2215b41943b064cdbc20179c98c4a6948c8cf249f04ddd18f519e9595aa33b;
0xba3d24e5581d6959c2bf9c0c69560f1dcb6486734dee56834898b97e8c04b7d;
0x10de6cbb712419d84dbecd375963ae617b7496be8ca89c5cf3ece9d30f4f854a;
0x2a4f4573863cbfb189e17e80bc465161a508dd069ee4fac346c2b024c88b5cb3;
0xd064dee824928d39f2a8be7d2fa583223c33995784d228839adde2559592592;
0x79c218efa2fcbe1cac587faa89bcf970134391c8edadfc9d54c666c091a6829;
0x112316416efb7fa45be2c134395b446f048902531554fd38e0bfbb364d196924;
0xd77ef457994c37f8a3bd0068572311673ea26b0fd473aa1ba9c25c6a627692e;
0x189bfb671bf421730764e771fd68f01e883f98b0aeac6e5c9b623bdf1505ea70;
0xd77f35f4ab33fd80625be829594190adface4ea623ab12520920ff8e707a591;
0x26288f7ab16b1812ff362b7d283539b18dfd08362e2a7c4466744a8b815b0fe9;
0x26f1bd644a7b3118e55d6beed008d72deffbde92815b8871ff8d861153eba032;
0xeb8a1d5ae4081352c7ef3d50b0622816fea17a0fb9cb163c0e544da8a7e8ae0;
0xdb56b6264829c99f094eef0b8c5baf36f6c9518555a9b8ce5845b4d32eb96e2;
0x20883c599a195873758fd917f44d2079778ccb41dc128b8003cc007b6fd664ee;
0x19f29faf9c5393cd0b7c07a902457096ee6543d1dfaf22a4f897d2ea6599860;
0x20a2bbb3ebc1f46f939e64356d5d1609b5e50b5b3fdc7462b4faf735cff66ee6;
0xdf989faa8055df73bc2acd9e8d9842bfdfa81140488ecf67db886d58d2a84d3;
0x1c208f8e89b2c7fd65a95e2fcce432f5da8e71640467d21f351b169d03395c9f;
0x1356fbcda43f79998b2833fe6eeaaf63886cf799f55505d81164c882009151d4;
0x2e99fece2dc2aa38fc4055171969feafb838a5f2735ecba803bb9f4d18a5dae6;
0xe39c64bd29c62c85340ab8eb5f7086e1c9bd733945179b108891f966b220874;
0x8432d0352bce6861217bfb3bdf0a04f3ecbeeaee2d360cd5a28c5d2305911d1;
0x103424d7f89182df35cf2d59dbc2b453542beafd78d95995a5e386aa2e55aacb;
0x10e4ff8e36e76842ca11e222592d318986689fed7328b94cc15104c8d86e2def;
0xa6b0020177e766bb234bec7dee733678251b1c8899c516ed2832aec23623c5a;
0x7514523d425b76b3a7812057725c07333577023bc38d70d079eb2d524d94f87;
0xe666408d6019b0c96d7c9dd5ab9e08a47cc988d93292535265f710873da5b08;
0x2339395b0617cd94dd101a4d03051e9436327044ac470ed0420b6e9bd876bb5;
0xd064dee824928d39f2a8be7d2fa583223c33995784d228839adde2559592592;
0x823e9cf59d9e29590ea5d5caa60265f1eefb9ef497a8a653e21e6b884bf380c;
0x25015bc12c22856eddaff514db520795225428b8b63b82d54e6ead88904e716f;
0x147f4836af834c89e12c52da5d778726c878bc2005e78e9c0bb46ed47740bc8b;
0x695c3ae3f6aa362df3220e3b4b230d3aea7ce4dfa4629a0b3da2cf68ab08b2;
0x2de7695bf1b96fcc94dd6b9f46184a9843a90ccf1891093670cff21e6f9a6fe4;
0x21326346451906a82345ff6a916bc7ffa139b3edf1ccea12b1ccaa554eee5faf;
0x112efaadc386b3c1abd2d173beae1b5a9424fe57fbab2c2825c2e6a7e663fbf3;
0x1a2a5c2b2990f00cb8bde45b57589cd7fd1c5e0df587d6718999a1893f0bc8c3;
0x2087e95ae6df27098e3ebcd46f3e4feca4aec7df172d5ef293849f671322789c;
0x254c2d79bc6811203b55ce01f1e8295095201f0f03613708366a7af5f7b9600c;
0x10f23dd383d2ea9524e512e2c7a3b75b76acc7766a95067116493a0d1db0efd2;
0x80154347a02980ff5274996369c7d439951efb11b19c3607010b03de802b81e;
0x155940fc6e3236f82e7b7257f0828b1f43cad68677571d814eeab2a6986b223e;
0xfba722c1bb656ed1c16203506d15a78c79088a9dcbad00a18e707b71f326ac7;
0xa31c81db83a6746fb9747989509010c547d619d1823298f1f5674551479bc09;
0x16a2ffcbe9959f75223188ee2d7bed0c4cb9ddf552c98fea86a6c01f1c7e0dd0;
0x2e7e9b9c74526581808097354419679f2d878fe4312934613b01820d66080fe7;
0x2df5d5cf7d48de207d7ff06b292961084478a6023f4ee1a0da7619008977d815;
0xe1c110badcba8d0d3190b37de62dedfdc2a25675f54d4c5bd6956fa5b6c1d91;
0x1257af1a62fb76f7a2abb3ddeb256bde2cc31596ed9a5aa2da5df05cb56b9ebb;
0x1197774ef4175d674951e91d56afee6229e236a6112a802c20621423b0a66f3f;
0x15787ba0abf814438a3c358e48b84cac38c4dcf66441e29b5a89bb17b6dc50af;
0x10df04b3f297cfd58260e1933420a96f126fe4a3f9d53000e140d4f55c2217f9;
0x26522aedb4ef7245ad2e50ababed3e320f4ec30b43f2bf1904c956cb3b9f430e;
0xd064dee824928d39f2a8be7d2fa583223c33995784d228839adde2559592592;
0x30084328d537eeb68e55d5593d350824f01bcc9a9d8cf28558982dde43bb8ddc;
0x5921d17d596463a98fabd2e90e2ed92eeca8b791f75134c9aa7538ecf90e450;
0x1349f05b3e3290ea030b6f2696ed6df35c27205e6bd904b569c363d985c81fdb;
0x1d92c460a4cd6ffe4582a5aa95ff6a8369a804f55d0341dd94d495d538dac09a;
0x1e27ce95b6ad61a67da6b7ff01d06998a5e66b70ad7086962f8b6f6687fbe00a;
0x260b78052f342b0f62c4a6d75c2aec7321b71c084fd3659255713de667cc742;
0x131e63069626670c022ddda083bfed93280ed3db252d51ad6a7ea8948ebc9a63;
0xd89b6c7f1e046e139cd4b937b5f30e293b478845aac1e1e64cd90738dbd2fe9;
0x13b662585b95a62cf47a3d74e971dd1a2195a9987ba5c35349b2ac299bf6daea;
0x299cddcb1afe110299b2c4589888afdfc8b33293a4b4f7cf822a74a922f4d61d;
0x243f933137a5377ca39a64f788a1bdd25027e4c1579908aa2329c18f13654b40;
0x152517da46773ba3a5708a14db3239e59b4cdaf84ca55ba6b7c61e9bffb6feec;
0x1811c08f29173c3ffd29aaeb2d9123a5e2b5bc32e5d74a23f0dc026199f9c8db;
0x2beb86f7fc3941962809bd8c7209613eb2f403a1db90acacbd487034b4e734e0;
0x22d40f04d25617323bf6481a7116f5c77922d4a98d867730e9717a181c24ebdb;
0x7984c5792dff5a244e45e8d9ca13d787cf5725f45513595bbff1405f8a12f62;
0x54f16dcf84267fdbd028fc4e88d51fa7624405920d6f85771606130c735454c;
0x1e14b42a14dc7272d18f47c28dd8050fb3993b0c0571a12f3b3e4a4c49ef788d;
0x125ddc89a4aeecea6d3620f026c2a9372fa856b53d8ad5d8ad495a5eec7ba24d;
0x149d09583cb39f4124a7145923205b3bfb7121c62a39d6238cfb380c782475b2;
0xecae7698bbf994d656a1d3b3df5668350112f80a5787730c8d32436aae6ee32;
0xd48fbb1cd222f052942818e73b12562f7490892f474402274151763ea668369;
0x21ff6e0e9dc2c5eeb19793fb2b3e64cc11233b81df41803b6524ae510cf0a29e;
0xdee76eef76340680e4f3d4a0c51b87a162db5254e981a7684756e55d8b513a2;
0xd064dee824928d39f2a8be7d2fa583223c33995784d228839adde2559592592;
0x1c72c610ee727a6dd1e885a0607d35cca9127f006e26ce1f986bad89bc3bf3b1;
0x1d8bff20f53a1b7fbd3ed4f015ca18fa484cc6fe4fda3821016d43a62db85681;
0x1c13c5149e5fabedd52729f4e4502a7d0d5058c532728db8377aa92f1c3e70e8;
0xa2044c5c41c0e874f005528327e695ada2337dc81c9257b6663ad1e37416a31;
0x27a159845c8347dce715b4de7d305d529b7c9bea09d3fb1615b69d5d0e2e9991;
0x28a37316b111822f43ce287c632cdcde70bd0a094fbb0ded49467acf199cd86;
0x69b007be4fffd6c1611b22a1f73aba8d334eb39e36488f6dcaf8f61b07cc842;
0x159cfe01b040d2ed27293355e3ddc2727906018eab4f0be23a0fbf924d74bd12;
0xb538e8f3455ff2d7f95203ec7c7d12262d7d25b224a92500923726f20f4dffc;
0x1f188392740ecb474a4a589a3b83deecab0c1c583c390ae1e3654bc90d0705dd;
0x85e8ab77fc680dbfddd3a41d1f749a5b25f207a10fbb591b2b2b70705d88911;
0x18038e5ab85927a21df17e8a5db6e3e62242f7bdf6e662a2f973a794d132ecb7;
0x25975674afcc9637d27a23b97bbd8b82874bee41e7b84057be13951531fa9fc2;
0x2ff9d4e295691f9979acf589c59991f2f8917c6358b76e61a1b53e1184dd3611;
0xff8d053d841882947fb4d33026c489c53b410dbb7afd04a3461f2c6b46869f;
0x1c6d41952c53460b094bb1d727059e7ef08feb073f1d844845d53b9640a09f64;
0x291c286327312c533d3e244d73732e212202e546807d2b5d7582e7bbdd28b10f;
0x2c29cc08dd040a2ccf3c5ceb34882c68f0c773d055766b389051276b2dcdafd6;
0xb51d6531aef720d40d878bdfb54a8dc43686066cf85e6eb5188c094b173930a;
0x2eff7e9766928007d29d2555f466ae211166ddc034d13531728246b23850edb9;
0x1c856f1e898cd9241df7e1bdb20857061acb1d825ce2b9c05c785be35a5066c;
0xa88dec27698d5f11c3e2619b75601bb5f8bed6c59defa4270341b8048cadba9;
0x171ca4dba69a7f21c315e9ec1d4324f8a365828508d62c205a0c8ab55322458e;
0x2192264db77dda74e05a8c7389bf314447eccfea329054f694fad2ac11a8997f;
0xd064dee824928d39f2a8be7d2fa583223c33995784d228839adde2559592592;
0x2f9db1272bf8daf7461f68a046226bf5eb50de5222634ff09f06cd08c8d90647;
0x2dcf0a905f69dcc006ecf519557f50b60cec57e406fbe85ce719240ac8ad4d96;
0x1ef1e8e3bcabdd9c59f5c8bbe9c8eb2fee860feb4aca30cb0339394dd9aa845c;
0x1f11157aed6e03678558e187e731f4e6c70b98fc36b5337562c565680e64bc04;
0xa38ce884c10d28d82a3b6316f30c7fc833f4e1204c984b7c20098a13a0d5a2;
0x1db78e384fc722f1290a337231d3c8986448b867adde280ef5eb72c45fbbde08;
0x1e815a5b2ff405454bffb88b3d8ae428682375fdd858d9fc2fee3f76cd3a6d4c;
0x370b02885c192b687c2cbb330888c9f4b3f26a6c054f70b092acf96d93f7c90;
0x8203f9ff8db7576e14876f45be708f58f48e5f951be08bbdb4e9cfb23c244b9;
0x29dc1ae19a1f06c6d67ad121f185ece6d0751d0ac335a9b7c879bab33dfb0e84;
0xd3c1af0faea85e54e7da575cff80e5c027cf3876da141377410a28026ad4619;
0x29609aac1d88be4d5aff5dc808e01361309a1a6c8c0defde126fb554c79944e2;
0x2da5231bb84b05c467f6fe2b9b3e3bda77854f6de32ceb380fe0309c3c8c5d50;
0x24658abc45d1109f9cb4ef1cfcea11de3ab442f13e710d10c0bb6bebe5b012ee;
0x1f38ead2636865f16a72e393dddc1622ffc5417e5194d6c15ad8bfbd0073946d;
0xde6a95902d88df02192471691daa4ac55617b73f448a4611f3d89172831542a;
0x1cb8cad4994c3af3a2ae4584827640cd9dd5012fe4b55136bdf53357b4c168bf;
0xc4b166f5e4c3ebd2ce9c84e88b3d42cfaee7aad923d9807b04a2bde61151b1b;
0xa125c564bd818b114e3af44a87e694061155e19cbc84c50e0d29656de2a03d9;
0x18cd16fb943e369664b89db857f6787b1d82a17b3940f15add4047f8bdf4dee1;
0x22100b866fb7d36e656990a2c832bd09d7d0036ffc7d2693b22fcf5c26b05735;
0x2228191716f3aed9191659eeda5fe346b80af580b666159ff25456172562c5e5;
0x2dca6c96c30284bb8f7cf3467103d39f922aeddb431bfa3b62a7bc1f61fd9baf;
0xa242a4882954de8d3d1e8cf0984236cd4665abdbb4d980c625c1d470349380f;
0xd064dee824928d39f2a8be7d2fa583223c33995784d228839adde2559592592;
0x116c85a250d461dd5bf2249536e50de23ab8e0287f5cbc62363c54c690c6d716;
0x750eaaf76a03769c97c684d448ac7ae2ad93950a75c24f3482340bd29f566fc;
0xde057ca401a6fa8a17d35a643f71515678944f33d6253778d116b55b7599cfb;
0xc944093f1183d2fd822cf70dc124a07ac9397f3a941a50d0c35da8df5e35180;
0x19376e5bb4d2266f833d7fae60c8c5f2f484b203f008003038515c66e2677233;
0x169bcc309d7b6f8c73594d7563262ecd332ed38cb317d2c43f6f8dd704d32178;
0x304811527f616bc8ef59c55565337f63a42094023b3abf89ae99193034cbc9c9;
0x24bfb86617225eddd82f86320315dc68e8a7fad755ec408012968449dbe1ceb3;
0x242f4b3a3535d5307261e9a75c570e6c06174ccdf398c934958ca129e7bde3a2;
0x2b2f283271455095d3c2012a1f4fda54ba8f365cdbe014328e0753d94824f643;
0x35a852e7bf5cf60b00f15be184e707d345fa227d8e44e1f4c37050d79a53a1d;
0x150f777da222071015c6c4e025f67bc356fdfd678d9840dd2c93ba1a43f98ef6;
0x2d8c70035731ad9efba92821a88119f6b8183a362be641729a93d6a327c03809;
0x7b620c8a78e09e49ce547aa783aa78f3e4594c49ab3dd6f602bc6c0351d823f;
0x231996b592528575567d39d00645a83b13929093bbfa00d6a661e4a690351d0f;
0x4e47a72e49b9c5aa3f69f6af22fa0ab640c93fc524dd3c508486d66f079852a;
0xa8cb4b2bf3f0c5da671e48f83e5c1b3018f0d31200a6f19fd5195db22eef7f4;
0x18bbb002b46f2e5fec2b120faf87822ca8e77ace94e03aab5c16c4b931739dc8;
0x2bfae1b054ef2e924d75a8a01283da29103c57bad129ec8396ce274ba4524df;
0x6d101b19477d1627b9542581bf0cdfab38b05cdefdcb81965c5be00d780f192;
0x18af61f6184ff85f104c2bef179b3ec5a5d242dfbebe8e27a2918f620e8a5be8;
0x11e3a7c2d5f74371beb188c6e3d7a14b33128af8ee3287546d12d7777cef70cb;
0x2de5d6a7a27343dd0422ac71b8d409b43ccb0b672e978f8fdfd214f4d7866404;
0x227cb43b9818924f2a2588964a0ad7ddfa3df62284b4b3b10199a501ed970622].
Definition tabC_14 : list Z :=
[0x304c29aeb6f1873847879576d30f1f6e8a3ce41082c15c7632df920d6db5164d;
0x2b7380d8b25bca649b3f8bbd0a86ae417109069be27066f46fdd1c7c87d4c40c;
0x4c77200e5494b1cb8a3d334f69ae5bafa7e8775ba1924e563efe591eff302f7;
0x6c0b8966df93080c3ac1576486e61ab0d027637aac41bb35e482bfa10e34fc5;
0x24c73f425903904f40dbff590225f251ce1980a5a5ce2d07ae436e1d090778d7;
0x23df6f6f4448273c745ce53d5d7abb5d26c46724a58d68844d3c3ee45e9b924b;
0x1dc1b1ac389280188e937566071b84bf8189b955d0579b6de5ea8a5136bc2ee9;
0x27f71c5ca774ce20028b8140f144472043917cd4919cff64d848a745bd569180;
0x22b2ee53b302ba2e836b98783e15eb6de9d15a72cc7caa374e61b51dd0d2e2c7;
0x254d85065f87271e86d7b411d6acc280f9ed257c098c9fdb04a2ca4df7c7d766;
0x28620793f378bfe881e098bd2ec62beb46899f37a54abd053cfb0b3bb8d5e754;
0x2c19f26d0836635b04f38fa30ee5c648fa0ea1b202eb0846821acd3c699cf061;
0xf9ed87e9a1ba7ee7c28bfd7ac38ff3ba10849fb04d3322898ba9fe0104fb445;
0xd1deff42263b7cae8a123a1641b7258015476161ab881e1dc20e165b3f04579;
0x1ad882b228b5f22b9f6a02e10ba09049c9281b32ad71818502b66ac77ee3ac6;
0x1822ba8c558e0e6bd0efd1ab4b45129879e43b7a6acf07579b1e6343c531a248;
0x192c005d746c0d045f5530f10f38a29b50cb6c86039410e634d25a809203f492;
0x2e9e6de4e745193d2eb8b89b5b573eddf8a6506746afb98a2db858134acd808d;
0x13373a062c71d0754ee8b1872dd2861bd4c2545e807dddc654d68af43ae87f0;
0x130c94f39a9a07d71dac7df61fb56cb975c9092ac2ab73b113b341e8198eab08;
0x1934eeb7210877c3c2e07d9ace7b72ab4d659bb1431f8e8ae79a1a5e8daff5ee;
0x22547365b9069f419ae8b9370816f030a387cf0ce6b88fdc54fce91c485dcdf1;
0x108b2099b7264eec50ebab5ccd3558a359e34fca1cfb69df4e3f8c9da9faaa73;
0x22b946f1886cee07fb01b7f8e3bc585ea8f9a7fcdb2aaec5faa878f378eb200e;
0x229337b2b316c279097644d8fa861e5e5c07377cbe3ba168b55613542874681;
0xe9283cb85fa800120344cab9a7f792e975f5c25d64f5cb6a521b62665af7451;
0x112956bf9c763ec101af9a335159df07d1b0bd90bc84be291aff9a85f30f5163;
0x26f27df4fdaf33f3d12d5948690653ad1ee625cb00aef92b73527d37365c4726;
0x2ed4c4b73e2547622bb78403cd983c6f1d33b25534127e98a7472897a84e4b3a;
0x9f0108ead7dd31504de2b846076a8019827086a0c4dd6570c1b7423ca05b0cd;
0x1172c6ec16cc502fbc633f8a4c308b14551d2c4822b5918179946e6545e9de5f;
0x26488ee5f0d4f8b5766c5b8cbf414970b750e7488aa316976dff5ab72f349f1a;
0x392aecd00da38bf4e39fb198ef96e70bb8774b8152970dd2e1629b51ff10ae5;
0x2f6d971cd5f9931144acd9b9e98bad6e1e78d60cbd966fb18e6f630a76dfa6b6;
0x5a795d1230d3c781b9717735bf45464f36c41df07376364986d0fd12c8317cc;
0x1e238a362ffe560b31e3b050539e6c8fe0da221fba18b12ad661945e22e5f5b9;
0x35fbe3e0d9d9276c990a3b1719e27550545a077f6215eacb2479af1b3686364;
0x7ed14110e9abeb3520e14682efad791ad5c2feb51d558ed013675289b1c6bdc;
0x11dad822671724ee6a786e210e9536e0ada0796d4aa0fced69c1d411e11e0c06;
0x110b32907aac869005443ad66a33ce28508c925f505e44a34b53f70a3aa45385;
0x55a8f4be4acd26e362a4dbadf39c198b43ea025ec429df6b2011177dd8e6cfa;
0x1bce99ccd0f37478be3ecc5b67ec7c0a84b03f7231630dffa5e16ce6f90d6bae;
0x1d61595a714a5f1b32a5255dd5522d633a0ebf7fdf82a9cfb22271cc962c801f;
0xde4fba8ef10768324aa1e91e606f2a3c3f3f6a29dc8d31bf7a670d31695bf02;
0xeeaf11740f270654239779cb83a05182d0c98f3d4bb8a7a118ce4c0de477e3d;
0x25c397489e65820a955d6284c002427a1784233faa7089c6677f103d2fafdb7c;
0xeb3a160356c8929495bd9f58d3a8657f69f3eecab1517123e724a946dc50c4;
0x19122ffd9b6430a6f6c81cac0bfc8b488e1a28758e9407fdef8f77aa1fe4c0ee;
0x770ca4c67aa40a1659365097ddb70eeed6d6230739265f76786cbea0899e823;
0x20cf3df7dbbf47bb220ccaf0ecd8f3d54e0575628a7291a72cf8db5e42e1498b;
0x21fe2c9c9625d66a931fa931bf7fbea6c2808ffd7d07fd3bde15775957c62768;
0x2ad158bb675ff14b1dcddc993d9d60a5b4e9f3648afbdb5bebb2cd9a98ccb881;
0xf89c7c34499d981c6cc376c6fbeafc88b7ddf87515dfec65da9bbcdcd68eaef;
0xd6f33ac650e35d3d642aa3fd35912fdfe5014b86cd11e8a8321794b9a9c2992;
0x9cdcd7858f273636fc033c778e5f588b9fe6315476254f17aa602c20065caac;
0x2bc68e029d800355300648a36fd8a24157750a0d6fb2f2303906451f3b3d9820;
0x163f8a2427805d02620c54bc1d32186ee3d07dac41d9289e9aa3dd2cad337601;
0x2b72cb042e079dee8d56b1762d0052790105395fa0299e79cc72f4c27bfa20f4;
0x1aa578a5ee2c66ab8299fe99133089e90676c4a2e6d56cb9da0679fff6cbdcfd;
0x262d1529ab1e7f58925030e6caf0e79a14c436e5926e33cd79d321388b966dfa;
0x1aa6b71c17be336b1b1cf2384d6d3ee0a7ece1ad2003ca727f636bd4b70617a5;
0x286a8a2c71f53994524a189eb5bf41eed57904d91f44eee40976778362547af3;
0x37ade52ed2960d80bc2d92b815a5315883cd42d26709ae64a822ff92ff373e4;
0xd641f097ab6260b2dc240a85b7799541f6e73a3a25649ce98b4b64a6c499dcd;
0x1176510cc674b0f0caab00f4e9be1f8c6efbac7b7315ff6d4169184b8ef009bb;
0x29b6783918f37a8015d122ab39713848ca84008abaa716882b0492c6ccd15642;
0x28a8be58f110dd8c2b90428fb4feb59b67eff815e928fb7d75747d35cbc40ebd;
0x183f2632e3ca6ec2377e8358c3205d23f9211b759f62fcabc5fb2314d0728a9a;
0x6aeb9e100b47eacc2dacdeca2ea990f7066a79e2c7c83f2490bdab3eb43620a;
0x212949467cdd807e8f3576d403fef09e9bb63ca3754897541c6cd77de4ceedae;
0x1858f747bddf594d663ca49fd2aab93402ff9d186cb230a025d53b8d4c626e70;
0x19a293adeb09485ccc03800b821707060dc27e8663e355e908e368e2e8bc0150;
0x1d4241ed038279263a184eb3aab7f2e14326b7faf040a48628ce8a38c7b0abf8;
0x1692838188071f73ff82734223e5999c726b055dd19bb5a68e513d57055d8bbf;
0x81d819dda57265e88fb9eb5f7454ae7dcde39a14b00f45cdb19406e8bf24efb;
0x1fa7ad5a2bc799dfa38a9c581b0d17990d1f53a145e26e7b10a0901a9dfbe8aa;
0x140107d97554b55ec285011aa53f372689e16d68abd763cdffabf8718bcc77d7;
0x1aa6e52c05aa7d40dce61bc38b038a69bb36490d2014dacf4fa46e71be012ad6;
0x233c7ba71f9e0ca09ec20277fe09a96399a1474e4dca5158e97536892de72b56;
0x223709deb8827076f29c20778d24a2006fab590092c7bb34f212c331b4b1b932;
0x14187c4e94d059b6565591e16dfe2cea40731d582c1487e3efbe1cf305a9b459;
0x12d57f9c3775b0509f5c95f1cc2e17f1264a5121afa6355611de2a71ee23d803;
0x23ba06ba8305823e5e62cac1ed25888b6234f13294c93e1d36d5f2f73c8b613e;
0x9018322b8f274623a4ef0562223a166c0fca597d4527ae8fbcdf297c8f6d1c7;
0x1a8d0fc5616edc0238e5287d9fb6869468a83ac168452c5cf3f9a4063452f22;
0x2b1a8db9aa3b060be428900b352808a1821e9c9f34f8c8e75b172def7f0b3d07;
0x14e78cb6524a7125d7718d49dd76525f58cf2739ab9cbb0d408dcf2e12f604d0;
0x1208b734f978bdae45714bfb76d3fa83c558d0976e9c9a1fa93a1fa69f7bead;
0x26cb6b7c1d65f9e5b5235c3f31f9d7ff1d817e4b5b945fac94a99b3cffac3d5a;
0x11344656431a0d87de96e6806fc0abb9e1514cdf175d617b70008b1cdfa7fb17;
0x28180778e94d900df231aa7e551f6d7207f3344f5b4164d19ad4627e53aade25;
0x1497cc0587aa9a662cb2e9bb2ae6bf3e75a0716db37ff072d6c5cce6ffa65277;
0x1155b889f1798c1b597cdf4ea98b7a22e2291aa2f49d4628179115ad19817a1f;
0x136bcfc49ef4ecf9c613bfeface129644a00a283c8e9567c0b0149ed7d7e0268;
0x2c94ea318df6e3131d85a4681682551ce652db2f76ff670212c5375994d2da9b;
0x11a008577edb87e5285159e1655d70b5f6ad4abbf3f8f19d66ee1a7172623cce;
0x14262b879f58b553126cc175743b09b5deacf5aed297fe3e4124417ed2016a99;
0x338d86b8e84fe8bd613d57a3a713ac1e971d52a586e94106b49d7d390c92658;
0x1ad169875101e162c49ec27ec32be37ae3d379f347930fbb656d718b87c14c36;
0x1e33654824c915e16fad4a166ee216d1b3a36428d90443dc9131f818df850f6e;
0x23d15701d8f5da053866a07f4788c49476c5518c8a812295dee3aa1074db6d9d;
0x2d2fba372de705aa005c21db4d71bba12c9d47dd0161bcd45409c883423948ec;
0x168371dfb98b380fa2d2630c612f8613042e6df90658c2350b270eece90d67d;
0x412112ecd0cac61c445ce46a8518b56e0f2baf839488591ead4aaced85fa01f;
0x23ad0edb1f4fe974eef543fc17fcd7dc1a0f05e2ce5ac18e374c87bc09f75c78;
0xed6be3eeb0b9147d7c509a9dab4ba2d57c7b9d4b2780fb0515525fea4278eb8;
0x690d08198823c10f51a7ea3cb473a6d98ed0cff6a17069b50971a68567a7b11;
0xbf5caee488cee887f67db3206cd5da24ecd1baa6badb44bc761757e2137ce3a;
0x3dc319068295544dd33221944b9e285f7219f85e8855975c48f69f77edf0a17;
0x164c0f9fd358e2a011e55931b51e5654352bb6fdc6cb2dfa4d8a75722f2621cc;
0x7e8978e88b1c0789e9397e09c9eb10e368fce8724ca948f6f2ac92cf230e6ea;
0x22c5462508c480867b3cd96e18dc3c42ffd90e1586ca41fa67158838cdf1593;
0x922b97a92d6a11fb18178d05f054345b43db4f5c6b91c73e28f6ce3a22dec5;
0x17626303d1bda8e47dd6d0da342e4327eae6c4200525217a20f6226cb54bd44e;
0x16ed2d702c6f848039b31ff87fb1daaf88b23f6b00acd7f6409a7cdef83b5ae3;
0x1d9552a42def1750b55d27edb09ce26409f8f89050fb74cc53072f788feca6c9;
0x93f2eac6c08b0a43d4df37c1b20d1965c77103de2e6dd88862f77b322a32dd3;
0x63648259abf1b9feb8c0b03db31f559e47f0e11de2b371b299043914d0ebda0;
0xa8db8ae7570818bd9ce7c02dce89712cfc04f800d55f1562eb1ed27da9deaef;
0x2addd8a7fa94a011e12910a98b2b8ae5387701242ee2281df132f9e9dd3fc7c6;
0x82532cbc9a72e056668946fab08eac4817547cf26ef3eb8f159e76f9023dea7;
0x2abcba0aaec141d7742c0f0785daa2726200b6ae69d464e849afd70465c9b557;
0x113ac02d59778ac96902e3fdd0562c504b418cf8a8e349da7d61450a2fc6d685;
0x193a7f639d4ce4d62dc7567ee718853f5c5284ba09de428fdf02846ee22331aa;
0x76d49b5c0dc78dd9c8e7ccc9b5a35df69dce86805aa47fe3f8cf062e47e95cf;
0x23051faea37aac8e12ae94b87a02411747b14de73751aa1a3f6a07fee98695e4;
0x2c3a84859c46bedc24120441bb6dfb113c09dc8070b2e0cd139ed49c9647b737;
0x165df45e8460cb7b423a9468d2935c14c93c33c700c654e32c2e6743de59deb;
0x243c1dcf2e801df1b53ab72ad31fc24cccb07b2518594c4e5f3024da67121454;
0x2d4f07748851869bc581212b431c20cb3e268cb7f6aef272deaef66e929bd859;
0x1445dd9248e8bfa4e6698e7f51553ef1a152d37d88949e15b9c50c3e8074aca7;
0x3f3128f5fceea223432d31ceae2f8b11b38a15ca9c3fce21cb8756e8e09642;
0xe574b6201e927e5f369a966151ddfc5c06fad66e64d5e09702ef172b5ade467;
0x784b51a7ae1076c1737eae2fc4c3bdbc2187b28f714e56cdde0cd322292aa4c;
0x289012d3d1fb3419e3fa81294f3a64c15685ffaa658927c09c1833ce59ce5ff7;
0x2bcf3e35ab8919e05d55166908beca23a711c712284c45695c6558e0e3da22f3;
0x3df5cdc10feafd361d978330cb95515bc2e587e7dbb89da4ecac57461b75b6d;
0x19dc65b4afbaa8127015b3f68d35b557c8fac9938dee95ae35ea12da61b7dcd0;
0x1fa279d539fc9bf724da2e7622bc326f9535d00adc596916791d77d03bf016c8;
0x237dd96ce03469858cabff18944f05521971d1ad373ed6e041987754dbfcec17;
0x31261638cc3762eb025a716ad3bcf1d6447a080f3ccc60f8117315254f568d4;
0x24fb403026e10160607af2e0a214aa725637f19af7ed44130a9400365bf61a7;
0xa773f9bbec6c35b5d7a95005477796366c4f36ca634e94b283233afff57521a;
0x2ff29b7dd04750f926b880f54acc39f2e828852f40698afac2661b3053278580;
0x1555a820b4069893e6625d113049c46bc5b4394d627c2668adccd3ac0c6492e8;
0x2a5d25cf71c81e5b129e7d37a5e2728dad5d99d3109d23a18c4627b4afcf8fd0;
0xd749c5dedcefb1910ec9450ab388da7aeb25adc78cd029a75bcec29559e8d51;
0x2134979a55dad645ef838322058e7bc8ede30969481ff2bbe496d8ccd6aa8ca5;
0x1a5d28f1ec79a8a70d8cfb783cff4c2b96e4ce5beb97665a0f6a52e73a70bb6b;
0x2248fef1cc977b18bf5051a571374c36cad0b338bae217bcd9cff038fcd7bc57;
0x1a3105c3234d4afbc112d7a9f38d22206c0a1e77112d6ac26c6d6aa63ef50088;
0x6ff45e6cf264bdcb9e8b3b4f13a44d1c197ad77ee53d02fabd0c0a78ddf6ae4;
0x7ea34caf7f9c9734f489953d428cad95bf98cd32d5c18e5b51e01d1444b8f91;
0xbb9bd4ea562fa887d4e6723a798e7641a08dbb42cd72852b8002a86c57f1f92;
0xbe1e28fd888e42fad37e72eaf884f6c6c5d037afc0957bc9ebb4893e4ca121d;
0x1de8955b5f752e29e7e7d92d6345da11bcf32937a8c2abc93c497d1affaed055;
0x140faed032e51900fe203d8d32fa61d9842d6b7283864ceb9a4d1857d6a9cb5e;
0x653a45ace7457b472ead1b3438668c57d36faf59e2a19134756356ce5cbe131;
0x6d23369e024dfc31a1e36cd9114fb7892316dc57da6613ecc41ca0849a1a7e5;
0x106a234f7e4c5d097cf00f256609b029de983d04044a66023d477897b91adb19;
0xd5907c353b674540c20db872cd6e0de8bd66f9b3d691396aa06678b5a9b8bd4;
0x1c8cc4858cdcd5f36aebcebb9cf185feba809a92308ff5f63b66c2b1f52dd14e;
0x18709a5ed55ee4f8614ff04e503872021e88f83d488d8a0567597b60e8cdb3f7;
0x20573eb7a426d39fdcd5f46fa19973e6be531160e75ae9401b99ddd7e2ac25c5;
0x1b68b1cebbf59b96e23aec11f075769b54ac1e7de44ff13708fab5a9bfe17719;
0x1e74628fd280b451eae0d00add965f95bf19fba43425c3c0589207782f702b7d;
0x1adf6672bbada9f83494ca2bab97f2e90f630525f9c68338ba4b34ccc484b478;
0x6ba3daddf68d283a85f65a0ac15913461a7ac09a320e394d09aa5ae97a50db4;
0x23613483e811cacaf27820d0a9ca552ad22ab29d4f1d579f10bfebd39f14ee66;
0x5ba1370283ba319cf17f631a9291fce5e0e682ec1d01bd6df2843528e363db7;
0x130a1c1a83e91a21cb376e0df81b196d8c229ec60df85a30bce4ca8f466fc589;
0x2ad745158e0bd5aed17084d5fe12d671b0829a83392e6dd0a90a1c0292eca0;
0x1a4703eca8fec84cd8234d5fc467737761e6d2d6bb6d502a40e25f94044e0aef;
0x17eeda53608b4be7d2c9b6664dd8fc672bd48641e29f6402bf55443c667bab4a;
0x1af9e7886090fcbbe73d9b70b729ee9f8a384c4862626ea685673b4837ae2627;
0x2c300d04412f79e15c95dfd44889ef4a7df828c6b32776db3797c674fccb5fda;
0xf617c15c41c424a39aa8a1601c5ca44207b3c6e44b003bc13179fa7afb8232a;
0x280e6721e233a91f7f26004f753a82aa3403fbd9ff420411c058ef275fb54295;
0x391c3b4c6aad3203ef3e9d7d217d4b77ff1fdd8c63a9fecbe5e702d51c53f23;
0x203f9c14aedd6319d3ec84ed7517d5fc4703aa085f45f590e86504213b17fb6b;
0x10842bd57c470e718b75553ddf18278b60594ad3bd7fe120bc46cb0fb450d424;
0x30250c77a64030f322e0fce46eb9783655a93645784b5219c09eb0ccf3fe88a8].
Definition tabM_14 : list (list Z) :=
[[0xe30a774c353a2cbf244d3d014d1a0e5ff0bac5e242673ae33f1bb2030feff68;
0x12826e5b9be1c9b85f7c98aaca9ce28a870687d3628d60def0ab3072b57b09b8;
0x22fea1297a4a5f08904d555c2e15d016102a4ed29c32b4bb10809ef14af42c77;
0x24cc6751894087b831598b5bc7f9db3cbb48ce294d9208e1aa436cb5fa2e80e1;
0x2cc3d0503a0e1da952b081ba5dc5b117e646bed572a645266c6ec3ce0a1474b9;
0x11eedbe5a5969f33446503494b469a2b83f88d3aa477e5d6d7963a8333a61315;
0x189ae9e9b162ab1a19d599cedcef428bd1325c78740aaad6715b710bfac4c1e6;
0x1aad11449d6e2c6e1adcf9e89114c336c0145528f356ac049f52fd8cb084370a;
0xd7e1eae2cfec406402d34c259e5966f6e2eb261d4f08e29088325a6bb669a63;
0x796a23ad6ed2ac995104a0d3e6c75e977ce29aba1d25e62a9a8a20364ea1be0;
0x299b8e8621d7d8c8d3d6286cb126b34ee53b2dc9a3697b8380c6e47f5711345c;
0x20f11ee81d2ac9a9ed1cac61d9cfdf10bf1b49cdfbb6d232872a1df1427c1839;
0xa403e979943b8d2f947f6eda6d41170881341bb5e4fbbb3b4fe3dd7dccdd777;
0x4646253380f4bf642972ae81977779454aa0833fda36b1822cb9c09719e3dd1];
[0x12186bb22000ad84b6bf29179ade2d4e7e94ff07e51627e09580571061fa8ce8;
0x237e39980f9007bbf8699dbece054fea1f19766be6101885d421fa3ea46b5348;
0x1808cbe7ddf2a3684d8a164fe2d150df62206f6be33d577dc5798f193aeed7a1;
0x33cccef05b0bcf7b77aa5560a0f949c90be5cc2c57122f9885d24a117c63f98;
0x2854c82b4b5f5df6dd3872e3f371372de0d12e16e9108766920b5458105e76bd;
0x9b63c75dfcab572d280b057fbc3640d35dd5f16244863ab8a31e0956da8802;
0x28fd36f1c761ea7bce29e6f00067fa40b32e6b318f506b6c94bb847bf72b5b52;
0x2b56c2e44f703a3b143da03c25749367f752b16817257e6d123b10bc85543432;
0x184e5824689e4f81438567df435f39e1d35a819041d7eaf3af908429beb2bc2f;
0x1004c5ecbab6b7d12f6bb4caeab33dd56c1f829ee28f47c29fbfbb147e884654;
0xa973a665693ed09434edb2cb0a971ad277a82b3385788552349ae09e8bd0c85;
0x125478c8973bc395b648c822091f8df469504a71ca4fdf1dab59a708d0fe4719;
0x2b0696d45980020a2a421073440e3a4fd39edc5288e6900a5958e0cd81e0eee6;
0x264625c74f2a3bbbdc19481b7866757e639c124b4eb560da531fcef99773903];
[0x2399faa648aedf9024c6ac3ceafea248216e24a9e56caf5acd29ce2546a9f6b2;
0x540f5492497595e13080f02f6b1e653e2e51895160ffd5ca14d26aed93b8672;
0x1c1ccb44ff8ab6da854e9271f4bef26d2ac26cd7441f1b69d16eee0d7a7b481b;
0xe8efc85cfebde295ce589de60aec0db43c81f4be7da44eb26fa4b71f7cb7ee9;
0xb1d810fcc721551e2a596e9009367fc6a924857ab29b703207b08c95ecd001d;
0x9fcacc3998065124de01bf7c0c8ba26ac4241f1f7deca1eefe5ef3d5015e3ad;
0x5d2f0a3c223122ac01214250320b52ff5a3d242118e19778b2c8cd1a976c611;
0xc7513f762b64022a151d62302099dffd51791d9afd3dcf96cbfcf6035a2c27c;
0x18fde6451062016edeaa32e40a8fc30751e17e9bac192f8ca891c11f39ebff81;
0x77559473737549dfb2016dfa72558bb2c1c816d7318763a5e4fd516b04914e8;
0x2de9ee6529e5abc7aee93b794c4eefdd517c4fe12fa56bce06a3708d86336bbe;
0x12b591b7af35ffd997b3a613687e449225625dd5d101cef2d6f2af02d9dbd6d7;
0x2f9f88fe9be36457e8a546455aa00a0f5100a7f32580b78f26a77bd0b7612181;
0x9714e717daa3ceb3e9794d24abcd172831cba18066c4c048b0995e9e6df1dec];
[0x3add29fe398ed2d44f233125ecd1509e3cede77e6be08b94af4fec87eb3e48e;
0x12bbfbb110ec2971007ddac5f8e36f655465d05f2462996b2114efacac70afb5;
0x1b8d209d66b2c1acbaba435e304ae20662d336d10330beb3355cf801f194733f;
0xa9d7ee7ee91677affd3ca4fc674625be897df79f82ec438e80f1e000c8b1f70;
0xb6eb2254edfae1d7503c3518e64cf19f3443d6cd03b71cfbf1be5936da4e046;
0x1a9ab3fc2059b0cff7e3cc431f7db45f59d8f7f724cd10a03f31a36638f8b52;
0x23fba23ab4bc24d4880ba5a6ffd6eb5050dfb8d0f56476d3a30290eda372ac4;
0xb26700fd4e950c25ad78fedb63fcb0d9ba73ecab858c071664866a9096f14d5;
0x4a572b86105dba5253d7ed1e76d35a126e6718551b976b208f593f08158dea9;
0x1bcbe67ed5fb7522adeafd1d9a150f8d57ada218db346915c86e6c00c00e38b8;
0x2ea6b7a7265c503fcb284c2bb19512dae71ef357125c3ac755c6bc6cc37bdb66;
0x30544eda9c322c6c872671d667fc5fcf09cfb8d34e8e5812b6e738e7ab40d8ef;
0x206733e327a64b78d3c48b6f7580d0887c1778343b67768859e2532d7d1c46a7;
0x14dac9059c9e78d96c7ef807ba342b946870679782231d2af0f6e4ab76cbd101];
[0x121af61f4dc5bb24890abeb9251e5cea94770ab062dc0c28bb8995dd8f183635;
0x2f2ec51c48f8b73c51b264a70d2ba0b46bdb43f933de0faea8a7da2a97cb41f3;
0x11738ced3933c4b27de13911db71ccd58b7b31344ed9153dbddddb91fbdbceab;
0x9175b1fafacdc0e62b5f95e6ca67c3ffc96a26e37cfc734795b92f1e46124d4;
0x210a4a80e6eaa799f7ce05752bbda4d4ff0520742c943e1efeeb12a91229a5af;
0x19bafd0d7942b839f36ad3d70d9c87b55674b9bdee02a7dc30e4f99ebcc1d94f;
0x26b8eab0dd0d95b7a8439e0ff7d3438a73a27b5993d81fcece729a824a3521b1;
0x173985fe17f3b0fb85de6104c02b46c3d79eee9dc28b567f02ab1a1c0ddec576;
0x1d948e8774b180fa5e1a3932439dfe8c5f32a437657d21277e42614b4c9a3dc3;
0x1b61a03e218362204fd20b67536e5e6ca7b96dbb53d53ed1602302988614876f;
0x1380beac7b062c6b89914a976a8d0b9d3276a13c82c23fa21f4fa4403e3267cd;
0x2110c105efb481b679ceb2f112d6ea704442763ae2ac65edf8f15cfd169c560d;
0xc272d10af2ef78a98dff7486c49d7505edd88c922e5672a3abb15cc49f4134;
0x129dd677c1f8aa2d36d2a7d5340645dfac34a64ae456f91b97de9f8e91313615];
[0x2ca8ffee2d58f2945297b00cd0b511da167080d53949b3f1fceaca9616b6143d;
0x26e36544d0b5952dde4007d11818465bde91c4dce65abc015e7556ba58b95ffa;
0x1e97ce013afaa6e9c993e9cfdc9aaec91b06787819830985a72e9f7c6e516ab7;
0x3016b074c814225e2d5c1091a8303eee4be476b1458ad54c16b4e1691f6b4724;
0x1c1b2cf11f0d3a3a121be7d0ddfb24dc71f54b9bef943aee32963966922a8399;
0xc474824afd2a880c6a85a7b7a5a434ac422c7a63aaf8ddc7c4d9325edef40e;
0x19775ec781fd4089859f6b7f127c91eb83eeb7ec9eade14677b0a6b10b9e6e24;
0x20a9a6284cfc4381795e3b06837e9596815fd5b6f162bde02f97db687c8479fd;
0x20441aa5f4d5638e64d7ad9982b1bfcfde158f6a3cd6af62941e05cc8e533151;
0x2d3d269ee324e7c43c11aa84cd15bad65444ef8369df15749a8a6b2c8121e2b9;
0x1a5718f4a92dd8d179b932b0820f65c7bb93eabce398f997324f98ac76323b92;
0x8fd4397aa8b3a84dd1ba4e2d0eb7c6d1c5eda1f764814b5ffe204c8ec735606;
0x1a327ff2c46f5969fcacb463506e102d682502381fc3f999b9ffbd4520ba4695;
0x10879ceabc3ad045d76f6cd5b26b56dc47b512d6509458f9ffde8da79e6649cd];
[0x2c99ef5e064147da9782b914a294b6c14d21ea7eec1f72e8761671069d82a134;
0x226bf94b86b177cfe7f03103d59e3f9ce2393821954708e7c723f8104a68c664;
0x66ab8beadae7bebd26a33adbd6bb392d6825da37a679e8af9ae8bc4813c3168;
0xc099861545e013a687cdd49a3a296a8d2c2e99691c2535da712d351d5e63c10;
0x1574c9e5caaa8a6a7fb4894d2c45d1901d1c42b3214fe9a72fd3cc668e399f76;
0x3a65a91d35b6e877908d5c419e7850f645f62b1c913765a214bb0f7a2915b49;
0xc073eaddb5d3f79e5bf83bac00f37700bd64502d8bf7d5a099fb3eff7d3b03f;
0x217aa400b2b625bc36432a545e533124f99c1cb98eb85df747319e85d530470a;
0x178a58ff122d168cd4ff11a47280a4b8e5cdb313411b6f6e9a947c7fb577a51f;
0xea45d22479ef5773e58b0fe740868fc1e8b50bff76049d5b6ed5e723711867b;
0x1c7cbf2448de7114eed701b041809034e07b946a0340b777268529d582c225aa;
0x2487df9d5e066b76ffcb2f0ca190abf5fc1e5872c4b6a36a46870e9159201010;
0x2c0cbbe46422917152ca1906462bcb5a13ef536322a8715237da09b8c594cac5;
0xf7c3f3cc96ceda039e43c86c1b680c77d6f49f50e94de23e4db42f8e9caf7d3];
[0xd7d07cd3798f44d832a6571c21706758693e5e93684ce2d1a5e8a53e0cc6709;
0x25e311b37cee693545e2c2efc2043bc073552115b3a065cef13d36547b6b9dc5;
0x21b37be521835c32b673a31d71aed1bc7f3ea96fe1d4c23f14623a0a851a3cd8;
0xb71a06bb75b0a10bfd28a3788bf54a8a144b3287df9c591a2643c4100fe388f;
0x26ed5fff06ef9e1942bd3d0d3ba6848e47ec045cd26f93049d80cbfa6bcc73b0;
0x137908baac2e35e13f86834abfe98d1b54b7c25d6c85fc6c05ec7cded9175517;
0x143991e8386d62334ca0d87832a0845b48416ef5158c18e7b9db8cd6aee223aa;
0x148dc9335f621fff9c8d2fa72a9cf5b6febabe1f5ce77689c1a29e393185fba3;
0x256e145378d2604db8c509dda4552452b6c4a891fac5da199c7560768d948836;
0x2280250e212be2a48d293796a88ac62b05411012f46a66f87a0220a3dff3f79d;
0x9c89e06cad5430153dd52cc66ae4f521bf4145df048681beb2e06a385050117;
0xaad68c20fade1e3e2bf70fcef4b550ba00d6399e20d83402fe09b52ddcdf527;
0x25f4103521e36d55e418162ef8ebfec6d45695520ef47b8548ba38b52a27fbf5;
0x10bd7824fc1b883b3da0072d2c6194c4a1e5957156594e908adbf6e6b1912b9b];
[0x29195117106623ffffb0af525c838686d0d97259fc73a5194609ac7b7b171313;
0xf2336e0eee4685741ca23828c34c24f073491f0e72c139610524a56f71aa405;
0x1e86ec086805bc7712b7510def651249ba1d491076241d99d00c692880f39a75;
0x14937879c4c7127644c765b6362f8b98cfd32f8572d7aad9cc329bed5b507a69;
0x59de873c59806f55114bc3f8309f9b64cfcba7434aae220447ea0e9c4a66da2;
0x1662f26cf04f5b969cdd6b93e890ef2b5b1124f51822888dc2167bbecf7c31e7;
0x5fb897d71edd8d8eb1f3b5c823a5882a06d964056afd532e6c88893a25f2615;
0xecfacaad0c147e0b3c7e049771e6d4072b02ee4d171c0e53224214d17ade351;
0x25f64d42a750971afcb8023070f6ec97bb2362b196a5aae2af6a70f2e7b357af;
0x20be703f86d7c0b9dad98ff8bb9fc92fe8ac0a84c6897a75d851146f74840b71;
0x296f3a9c104222692a44ad24f0f6fd8190027e0755567e9a7009ec71ef440ea0;
0x6301679b6cdb17aa6c212ce342ecf681ab7cd96bf0bfb93350368004d97c353;
0x7940eb04b61ec5341c1702f03993faed167db6fa2cea92290cd821b15fe4c2;
0x90da12e1595551d2500f90310b7701df97676404113c33e475b2e7749adb613];
[0x1b62d4b17de67375b58f248a88dbf707cc9d1491bce0095644ca0219a01e40a;
0xd9bb7dab4a189a3b6990a5526c82b0ae50ba7dd558f951bb9fd343cbb4b0e19;
0x75d1aa6cd2b8d181c9e0f42275c9884ae6fa09186fe227e5c4673e56e3acd28;
0x28f9e0058ebcf1591bc007cb02ac3acde0851427db20c7358dbef9fa9c57c2ba;
0x17e39ccba3432a135c0075d720c649562ee4d31b6da2e9c90bd72a039765e73;
0xcd0a4c27de11aeb6460e32fa2bcb289cb83321723155304929eb0ca4eea03c9;
0x2745a059d0962f1bf0dde1e1b97e0bbf4c4143d10fd3fdeb8d2b295ee4d7a9dd;
0x1365a904c7f6721002dbce17077a89a92bb8038bd27af53333f447c4cf035a80;
0x2f812121e2eaccc7d51bf266398d5ba8f601a2aa6d335eb69f7864642177667;
0x21f8d854091ddb601dab1b01fb30c3d4f77cc3167fa3332c3b32377a07e6aac8;
0x18393505ea6230669a8030f6e76130a14c1070a901ba5b640b88ae80d7d30b5;
0x1e151fedfea11659c189a31ba27f2ccf6956084188eb2c4c99b827f645f1db61;
0x2ae1ec9e09577c82c97b4b09142ace51aaad1df7dc352cd4e5813d8cee9c98db;
0x24ceb0766de25fc22789286a09287be740310c41747320bdf2eb5c956e040356];
[0x2e1681bc7c22d24c433f81dd3a326fd0242bfc7e2bdeb6307e4d2aca32adda1d;
0x2a4a6cc884cfd08af4b0dbe89b6d8e0e58113207aded8cbab2d075053efe998c;
0x142a83206747200fdb02773e766f504c65af82b200c0e7fd942f92be23d586be;
0xdf653524fff92dde8ec1c9a51c1bec30bf36a4f01e9b3b62eb13f8ffdf7b8bf;
0x2ae7f1414f1443735318163e1bfb1e1bcf5c271f37f6abf1aa86766b2e59e049;
0x2030b7bc2a70905d031674efb420336fabb0769ac0125c35dfe2ff372c1aa4eb;
0x12a710de6d17f91af890102226853bb64209f1b41331a1d17305bf5b7b52172d;
0x1fba713b98742311dfb3fa356ff83eef234ce8bf2b0d4a52de7af4d2519f2f12;
0xc8f8722892a2f06c5ab454e407bd557e9c2ea77ef807ee0e3d89c6785b0d33;
0xdbd093dc16e73832bde62d05cbb06f8271fa47229470462d8c18cf8a124f9eb;
0x1dca3060a6bbc4c324f7efba22274fd8d1f2560a4eeba8c8b0d38997e0d9c46b;
0x291bd9401de20916b9002a0066114b3bfae4d3c8308aba4afdccdf0aec12d66a;
0x1c97fc775f962fe05a7b66346b93c3260c8f6a90a7f5c63223a3386e19852ead;
0x1c7dcecea59e6f7beb6d702e2fe74588415d30e5dc09970bb2d56acc8e08328f];
[0x65850d11d0eca87c3697b6f5e57f78ca86952bad1c9047dbd2eb6be9e9db30;
0x1eb97819b3531ebb640ed6b42134335419101d1db60dd1a924ef9665f7a91af5;
0xee4683c8da536b6b50773a469bbbde2e417a1cf9be221520af1e755968d7ff6;
0x2dfcfb280a3d372dbc15639eace45c0bac562c44e292f1429bc916578fb0bfd;
0x12ea921acf5b8adc6a4e36be85713576d658099230b0b1766c666f12d92ab142;
0xb5342503af446ef824df4df6a088195fb67276657d420e6f312b2628e922986;
0x9265fb314a676b6b3f827f07283a1ed4f300e8d90f967b20ff61f455d2ab2fe;
0xab913f65e1ceb39ed8b83bd5d7fd900e78511edabcfe62314dd10d567858d8e;
0x407d585a6a7efb561377e5f3972319a3e7285e146c5499ef6c8504a3d0b62e3;
0x2ff5bbbc022d1b74fe184c064e58d967f1aad1f0926c906a5e356cfc3b81ad24;
0x6da6d88c233e3182c5fa5ccda1392c0f89f7c6bec4e60da8df8054807eb0922;
0xaab27e6279952c7291f036918f0b279d3b1d9f8e4e8ac380da77ec2fc24ea0;
0x27737fcd76dd296c28817646d30b1168c4d00e1f764c4565caa3276defd15c7e;
0x110a5e84de09209e9363c03c22b537ac6a7aaba2f6a9d1a1f6bfab71a960a583];
[0x1a59b36b94f9d723577e504d600c493f2810f0e67112672c743abbb13abf43b8;
0x226b91e352c65de4fcee112445bff20e4a67af0e110957319b2860d5087406bb;
0x168e771e9f8f860c49367ef919a00d4f128bab01c13d7dd72ce8d36bc6d1d835;
0xb345890b33c23d167396c583d12e4f3d9efc904f261202512350190ab1961c5;
0x1815d4c2e6a18f4f3fa538a004146d7f540fbe80a4605857714fba2795615df9;
0x282a555f9ad4fb57698faa1fc3279bb8c28c1f8dc8c693225bd8520db4313489;
0x148ab15972a6925b714602710fe9e64c0a015053acb838d0e876a46cb5653f59;
0x8e13c2e61c446b53024d2116ab176c843600d00e676402c4641745158c243f8;
0x11cb83e01ff5803b049a2b59ae9915b3e0045e1db694a6df9de9c4e7152d191d;
0x119816862c8226e9e5dfabf3167b3b2bf7fb3d19063989b24a16d97c94bd53d7;
0xc61ec79b106e9dc6494a6359f175ff637839ca53ac8e7a13471c56646180390;
0x1e8ee641308ba6fe5600b2df492cf2f14f9892ba1025826c53c77aeb7bcdb04b;
0x16b61b242d41e1975843309a01a36a14397d7c8e7beb4afbd9233b453aaccdba;
0x13822dcc3f6271b71549c2cd917b859cdac36af6848804d15a354d4de0f67ef9];
[0x1a4b186b77cd53f961c8ccb7815d9781cef7a52af64d0bf746cb522512d3d0af;
0xac5b86128ee47944c12af531cf1458042c35adfcd9e5b6a7531973714559de7;
0xc2a439067121449c1ef3dba6be1ff84f6ab7fac4bbd54ad7539e61826ca1971;
0x4f7f1fafee121bb811344f73f54f4a3583076739dd9dfc462b3ae6343c93cb0;
0x18f6c40e3ccf885804b374433af0a962b2963fb9aa01e8bae8cc834b3e17a31d;
0x174c1a1095e95d4f098c8d60826776c2f73691db37ec3b937835b65b01ba13d6;
0x1f7f9704cab1cfea2b2471d579ef99d193b234af90e62ca09b5a671c2428a515;
0x1fa02616024cd9bedf643ea36d262d1b24f38a557a77a82c686618c3c33edf9;
0x2e1c292e06b7f8a6e4344f10540675a63ca49e452f69565fcfbcd43bac0f3af4;
0x6fbced52576a913e6cdc5c5c96fdc8f9f4e931fa90beeb46d9b3c2d775e1e36;
0x2cec67e62320bc6a0ca32518ec81c74363a4b6d259bd275a63425d6cede468d8;
0x276e2623828949e6a2fdc917e2ed45dce0ee503cdaffc9add815f6d1d3c4f9d5;
0xc75ba60f8e0f6afa126e75703b83d9908116147b8b2db45ef24f3156b8f1855;
0x85e380905eb2cb7e753d0ab0ff4918b232c734418b6bfe1331de492fc76b21c]].
Definition tabP_14 : list (list Z) :=
[[0xe30a774c353a2cbf244d3d014d1a0e5ff0bac5e242673ae33f1bb2030feff68;
0x2525da24e1d134d9e989838304af65260bc9e8f31225ca603420c6f22782a31;
0x138f42d30ae01982ed697be56da923021ca5ec09fd9fdeafecaf1b815a8eb44d;
0xb68eaed660cd2cafd2ac447e6b5f44a4acc0acc59379fa1e1d6d6c23e29fd18;
0x23a87eff7dac26756048b8a99cef16bbd4ed93f085177da15c763bfbdd413a72;
0x298b224b535d0d32e971977b9fc2b3f83df09ab550af80b838c2e1308a388aff;
0x21fd7ef66c4ff374e85b552f0c1162831af7f2e1feaa30e4d42c9ffe585e730;
0x2a75ec0f43bf0249456ef5cb1e58b4716e135e1033791b706c1198e370cf5912;
0x217005316ff983a988abb4150d5b89fd58f5e7ef95d275207afab9bc736dcf79;
0xd200fbac6500899253294ec3394f5fc2374ca3e3243c34cd97c5f8f31f78edb;
0x225829f1730cfeb97ccdb5b1df418bac0f761d57293a39d5ec293014c78f38cc;
0x17b09625ab3ab20b7be3da6740eac6450972d5297ef55ff4bee47857841685e1;
0xb98d9ccb5cd1979a0c45a9ff8f87be8f15ba1cb758c602775d2a5711dab8f70;
0x26c6a596dcfab11f05dda86122034b6f2046c51c0024c4c673dd93c63ecca6e8];
[0x12186bb22000ad84b6bf29179ade2d4e7e94ff07e51627e09580571061fa8ce8;
0x945c0594d96052f702d1c0c8d423cc5f054bca11e54a939531e5c6616696a8a;
0x1a8993400bafdba532b42fe60fa719ee2bb70744c9684c87431ad462b69f6234;
0x271684ec4ed2564694dd8fd7f7ce52f573c22c72e8268ecffdb3f3256cf94d86;
0x199d5f44df92c42cdedb75daae78948bd1b812ef63e72c6d01d77c9d513bc32;
0x1554c7a78e970212db02a0c7478c02343ddeaf350d52ad460966c2198475e5d5;
0x222ab7be52097210638f70d1bcf3ad6842230e0561e1ae556519ed6e44ab56a9;
0x391e74d9ce9444812f42cfbe156e7403ec00c10888b716132c819542982da3a;
0x145f48fde51a4c7f0469cca2a20bd5c5794c594c08ea063412b82e4c21fb67ac;
0x1c346dc47106b6a9c0e34f2b6a59aa07c0e23a7f0dcd72f98698b6bbe2440a9e;
0x1d881f9bc6c0a69ad8c4cf8ae0854f5e39d7f120543ee72fc776156a6dc41e25;
0x1d6405c7bbef29b6526df75b9b3a43749f55a7cd60c2956e61ce35446a14055e;
0xe1f6e07f1a7310ed0af6b08fba57b93adf17ac40ad5b334a7b5b8d2b21822b6;
0x1dc01119987d2a025898bddb1d79385b99960e97c100208b5e992d9dc74ee608];
[0x2399faa648aedf9024c6ac3ceafea248216e24a9e56caf5acd29ce2546a9f6b2;
0x14a0f9e89a7bd2f9e93a28113256f5909e18bd8f2d4c6a4b91fa764f5d6e9813;
0x223cf3744fa802eecb6e33bb5d345a4e2e494e2e0868296a075010d891596cf3;
0x1cae3329696575edb1c98df16a20e97a0dba9988601fe24a6ac327233edbd7ef;
0x2d2d2d79eedb473fc052705abd07b5d7d13aa9a52bfa0a34b29bccb2768ce812;
0x13d95f949c83e09efec7464df18f95b0f569fb43aacf2e2b2b0d1b8d6a4ad5e;
0xdb367b50c96c5ad714104e535fcde5cc2d98a7358dd85bd98cd4e7398985874;
0x24d565383969b188f2900ee27741e48500dfaab461965ccf6acc7290c5c07b38;
0x2c08d33aa07452ec8d30fed9ac5f8218885c18de68857395b7361d06d5d50c64;
0x2eb969d5960104432dbec4c924f829411bcd4eb2582508844fb46c57e4b971de;
0x1899d3ef6a66651b27035f47a0030d77085b988bfb2595392d46a09eca668e9;
0xdcd018b542eb51472ef63566573192f167b8a41b243d2f9cf7efe0427bdc769;
0x1e76abfe0e0c0907983d49bc07cd22392c9a9fba1cad773f87877d8514e4103;
0x270775b57362a96f142cf0560a3c1f28f8b8f84b1695cfa20b271217cb9460b8];
[0x3add29fe398ed2d44f233125ecd1509e3cede77e6be08b94af4fec87eb3e48e;
0x292e485c257794ef8e1fec5dacdd6ca69f168408249a6e203853615080cd2cd5;
0x22a26c25e3631f154c6447ba2e8543b1d0f8454bd027168e715f21c86d09d399;
0x2013efe5dd2c054f547d532fd6f38d63bf3cdc07c1b3beae0b830c536936dfc2;
0x10b99b04d7a8e09059e28c723db16cb75528957858c3f9988f0050d18a30e660;
0x17e35329c9aaa754c345d6eb317c368788b093ed1d2d136714ea1b2f793da580;
0x28ec7da8ea43b28add669ec05c0866c2498ffe99bfdfbec896bbd70d08720f64;
0x145115518f4ddc7a878c4a4c3a0cda353142b420cbfcaf2f2eb7d67c6817ed1b;
0x21c96a22d60f44c34f543b5086ab4fcdec036b280b9f5a64a3a2003a2a79e906;
0x2fe67a3792bfa46545ba3633c2d504d9735e7d03b58f9208f584a3ffb3f04a82;
0xc27c0b2f86856b2350007a8501222d7c7d89c02919d2a310032c4ede9da6d5b;
0x76eb0679a3bc5901abf1204e92462dd0049c8b80f0d0b110ea12ca6d9da5808;
0x28b6ca5d7278ca2537b3167bd0e8c8094a06ff3453e060a1f52f077ce3c0f9cb;
0xf7036425c9f4bc087576419d0534698adef68a0ded0fda90b211bdcda6e05d5];
[0x121af61f4dc5bb24890abeb9251e5cea94770ab062dc0c28bb8995dd8f183635;
0x1b75bf6cc3265511f786609179f18b582a1b6261e9e6a9f05ac7e9a4bb015a3a;
0x26b90bebc295253c79bbc8d0324cec9805f3730a7c7e3c8cfe7220cc90b2ea91;
0xca34892eb7fa3d7bb497043be8462cb387ed055f83566b165a7dabc75bcc623;
0x1ce0f7ea351be6aa78e3ded0a3d69d69de3890cabc1bfcf40583226decc32d54;
0x1b5b9f9ac26a2e054deca324c9c92bf4d64b0b7be729631f2350c4db32232768;
0x94707149dc563db7a45c5cdd80091c3972bf52a6ee3f8eaf0e6bcc6ac0e3976;
0x25ceea2ec9fe11994d5d6c2e2af196963dfbe8112cfbcdb49c5b80615cbddecb;
0x2952f32d846a2cff15c9f028f02fb60bfcd8a7b34ed120ab6e393a1ec2794a4b;
0x930264343e7f5af2b7e5a4f7f25d0be85825666a68d5c02c5a813e958c3253c;
0x3f289db20976c1ec1aafcd0daba9c386dd8edb8e577311dda9ae8082369891a;
0x183e186c2c72f4a35c4fbb1eef8237e1aaa2379dd8d61facc59d6e5f44da0a83;
0x1c921c4536be42aa8a93ec0ab11a37231dcbc0ca9ab7749e3d5cf9913adefa8b;
0x8ecaa57e55d210f56d9c8141f70394e59185625df57435ee2cc924602212203];
[0x2ca8ffee2d58f2945297b00cd0b511da167080d53949b3f1fceaca9616b6143d;
0x23894e025a72e4ffd1580bfc4748a2725ab6f214a8f84e40d266e5183c6db8ed;
0x2600d56e9f728b982f23746da7a2993bce578e7204b9edd1f474405bd7593103;
0x23e3b3568798af43a561614af2c8aee40d2249d9f58452847c453594dc8f38d4;
0x2145a0959a46b3c43bc559b8811d309d48a452423025b85cbb3febcb24f4066e;
0x2f172acf4fcd26f6f939157d0da15bcbffa981ef6b22f7525c69f9ebf801192d;
0x28f529934ce9fece64356acf523f32443178669ff77a0ad6e7b86020e413ca4e;
0x9385ccdd032e8784bde4412886e9a590ec85ff5cbfee02a6c5dafcaeb90250e;
0x2a4b9eb8b2f9e4c4f2fd334185a45d0d2349163bcd7b808815b2e89543c09412;
0x3bb2a5b659f1f5c2c82bbe5824ad64a260e21e688f5fe01c61632fcda348adb;
0x29e0c22a0db446552403a18473a2e5d923f0d2a81b23f593877de4657fb1e877;
0xbb85f352ad58d8e5998cac57a0fba1d49349aae47164fba3343ae32ccbe4206;
0x24e9c71c5607519169015cca5f0be8e416f21194fc7d610a38d3e48df56dd40f;
0xa098b67cc231ed6a2b72bee29f823702b67dd0bca78f7316543097856b478cc];
[0x2c99ef5e064147da9782b914a294b6c14d21ea7eec1f72e8761671069d82a134;
0x1605b0bd96a60af6d3ce4feeaba7498571b693596f79c09a3485cb6e37b1480f;
0x1b322f4a92d336fb2b92e1347e0f73037655b344fa6ceb1275eda5baabf61dd6;
0xde44974e91df8151d38ddb337dbefb7b2423f8c2db33c95249664256049447e;
0x1cbf2e32e48308fd5254bc8466ee1b448825badcd0d038171d39d77bd61c122b;
0x1e25aef828ae1b75374d1806053383a3afeb4c247bb3f4fc602a31258129088f;
0x28796af2b46e4481c8c68767d755b2f28c2229892c093faa86ea6daccf4f403b;
0x2b9c2881bdbbcab60ca2981c28b4228f8ad48e64a7b393ef4ed080907e6a1774;
0xd00d400c8809e16db25f2f1593dba403ceabbe3d0b868399bf12c1ce2a6284d;
0x17767169e7d1636e0cdab5d29588e903e1d4343000d5b54f3e523e956af6fd58;
0x12e4b3d7107e8bbf73c227c3fe04ddc9277aae8cf8b15a769c7039d282661866;
0xf53bacde9c9005381ed7bd0d3a35048f9b04d99b54cad41bbffc9704a574abc;
0x241e0bb48bf63003f858adf8134bfec90214a7836f7af1bdd263f5ac91906803;
0x106f70b5c82b6a41e401fb3c05ed0d4a5c1d6ab66ab048d2a928a323556632f0];
[0xd7d07cd3798f44d832a6571c21706758693e5e93684ce2d1a5e8a53e0cc6709;
0xb6ea459a3eea9912c01005ac024cdcb60d77df03bf6d57f9de9277855f5669c;
0x26f749e039b1b58e9fd714e0b5edbadd2ba23f0faece28348ab8eb36126e4a7b;
0x1a8077b3370f7e65d450e0e536e1e73c9ce33596023de1cb2d4f1321896f5184;
0x2f6784fa0636348e5b73d52307c09dc7de28dac12256995b7d2d8014be1511d4;
0x1b4e7d76dd8cbb42c1e90574b4f832a07a53912dc74b2f1983440252c232ab0a;
0x9367ecd533634327435fbb0317bfd4de720261bd6c77f2348f0547d4dcd155f;
0x290e7fdfa796c9a6a1b3c2e6d746601f49febda2af0d2e7ede804b822400e81c;
0xd532c4429d77c08679ecb541865f7230787381786f7d98d62a06e8a7f33f3a8;
0x78ec6b19c1d89049a01ea1a959df4525e1fa2b5c6d9c7fe00ecd899af5b8693;
0x27932ea804885d901c0a89103c29995ef207e753574a7ed679b162342c54f27f;
0x20fdd250fd434a5fb9072c597b940cc96fec2986fd603526b2becc58e431c8a;
0x211dd323ffb6bf1f7a0c747597593c44053c3d5ad428b1145d04f0a728f4199a;
0x437b94aeaefff8e636816d1f7484e12de60de9199fe298c3a8466036fde9053];
[0x29195117106623ffffb0af525c838686d0d97259fc73a5194609ac7b7b171313;
0x16be4a147414ff8080b2a744735ee85e2327c3645e26a4d21846bbda0f5f6ac1;
0x15302004242f418b70c701b89e3585ac1d2cef27046b512c7fa841e1c7fe564d;
0x103099f79452ce6c8848e50bb04b50723aff5ef915d2d7ffa0b8f72bfbb6a906;
0x1cddc847d2f8d9e6c20ff55628cc4e9cefc59a283a38842462cbe60a9a1d0336;
0x29bb557aa48769cff8a9d0ab0e7149f835c5552e5e5ae7e6384043790e45c1ed;
0x1cb2f7fda98a18a6fd20de6fbf412d07f0f41fcdf2088dfcd0e0b852fdfb1aad;
0xcddfa96db02b40d78f740716d6aa26c2c6cf125772a9835c9a34a9046702db8;
0x1f0f734e95a45cf07b70b85846b65ffd3c1eac10a95e0b917f27ce25c0ee4afd;
0x14ec222b4b95c3b602c222640d8d6dcae21dabbf1e805637ec3bfd8984577c08;
0x18f31da4274218b2691aba9611a798cbc9e9405f111267cbf424a67799ef67ee;
0x18a38fbc04f4e85a687161544a2e3323bc7bf504a5ce34e8ba4335767cb4eedd;
0x218b8f679b6f2f6070519663f49d69fd9043ba6d1bcd7b7b85e825abf8bfecdc;
0x1a3d570d5a331ae41c938e81e8155ded345d180ad5ba49b4e1bb70eeab467a36];
[0x1b62d4b17de67375b58f248a88dbf707cc9d1491bce0095644ca0219a01e40a;
0x23dfcb4155e378ef7d127383d66785b33808a3223e22a226a3e3a0f7bc5200a8;
0x1bba25ef90c2742d6bab9309747fc14cc73e4024c803db5e58c7d2525839b2ae;
0x4b3c3687111107b6b39fde1f5eabb0de5e2fafb481c0845f0e9e3e5f90057b7;
0x189aeb454f60721eede010a005c4ce55509f152e6d0e93e8c5f9a9a6d3adbbd3;
0x18572091465cabeb96748f5482d37d3926bf7c1d6680dc932f45f55a7042b02d;
0x1a5ccf7ef451a14b3fdc531a52831728f5ec26b86ba77c952701db2913a698df;
0x152f38cb9808d5c942c23624abe88852a59f2813392030fdb7b1753025829991;
0x9e543a62e93aa3005be9112a49c5308f5b6f79591b4824f6355ae12300988e8;
0x1a145f49ae38f332ad67bd90734b8bf9d97dbc5912cbac8f57417e334f14230f;
0x8857c8b3f0b9a7649805371c01a74c84c67575d9a17be0e5590aab52143377e;
0x25fda357cdab4ca130314a01d381febf812c14473e4bc9b13ce8849eef1cbf96;
0x27b831fd2727802f6a873109adb4196ece489fb5b48113565d8113427aad42d7;
0xeb8c6eb7b2a00cb45db63f58e55d78f1130d92a56095b485c662be692644733];
[0x2e1681bc7c22d24c433f81dd3a326fd0242bfc7e2bdeb6307e4d2aca32adda1d;
0x22415ca10b65c83a039f1a749e649fbda0cfe2fe3403477a40c10689ad5af158;
0x21c92d239c137b9a280a728acbd058a8c75f321e0d254c346aef2b0f3390b07e;
0x41fc409e13a628d9632b87385d24bf4f2a712e3642a36c9875cbb5e90028065;
0x6850ae560ad9a7e89bf454f4300cac5f5184453afe49fd3552e63e44e72ac55;
0x291f4b78708af2e6d2021bc67b8b43177e7c0533ae1d89287612d85cbd16a4a3;
0x22aba2a6f80e91b2b4912240c72983f027a4c158910c03cc1cff66c545f8750c;
0x22e33116da2228316bf3d68b2f1506bb5b5b87ed556aafe4f1c1638f723b0a5d;
0x27885fcd66e6a1bda1f55599328bda53f0dbbf8fe39d8e025fd500e44ffdcee2;
0x28dfb66df089941c1b64c42f01e015b5f3bf8764452add9b24f4065b7d276244;
0x2e5ffb493cfee9eeaae1200f360829d0c2c09ddb592d37d0821363aff6ece299;
0x21157a29f47613a80bdfc774d1c8278abc3f76e15937ce9b24176e1b4c9e3b7e;
0x1cc9014506211730afa1e9e45c9f38b6e6218ec646e79dfd38ae0cb8d96ccffc;
0x210396c1be722404813dca0f052e321e183c00dd1671044b18bdf1560b04ed6f];
[0x65850d11d0eca87c3697b6f5e57f78ca86952bad1c9047dbd2eb6be9e9db30;
0x854fec1c464e2fbad9ed6737f451f4ea27b6a1d97349941928b5911b5b7e3b9;
0x2c240af2cced1a6d0d5aeddc36c875d3a8e74325772748ce1cbd5e01801b188f;
0x804921684796339f40259855eb51f118262da54c1ead0364ed73b7b6f328dce;
0xfea56a59a68a9d3131f96672be04f078937cfae01bb185c074be5f74a37b226;
0x11f61a3860411316eee42dfb735b05e0ab5a905a2478b9d446acd0fb1403d00d;
0xa80fee34581fae3188ac5f2c5aac9493e6db12ee7a2782a036aa65ed89f3825;
0x75c8623c44462e495ac4b62536c790a89875e9fb559e29fb51c32d6601ef297;
0xd4ee74163fe389031e01f793b3cd7f76971649372ef075dd3f2596333c5a6f8;
0x2a06bde137eb0fec584cfe2f11c2ca43be25ba8dc31e0522191cbb63ffc50b6d;
0x237277467500a6589f208fe577a0ed6bbd805f5bb1fc0543a22f21cb98b46108;
0xe20cd93d855c7f14979bcdb315d2f9891e09e4099cab4f82b66481d013eac94;
0x12dfaf2a058c0890bca0bc89b72eb4a575f10b43a009c6ae22207149884b4638;
0x299298324b7b1e7cfb05fa7c62c2c471b5a8dcb233f8c9e1becf67d8bdcb4416];
[0x1a59b36b94f9d723577e504d600c493f2810f0e67112672c743abbb13abf43b8;
0x258e09e408d6f662f3539a649aa156f18cb46302fd0fe34f007b731db06825ac;
0x2049f9cf12d0e210a7d82a56694e58c76d2f1c5ac572aaf9b6fb770c09f8dfae;
0x2d4687de2ad43600f6852c2a191cf74d0c3e4a7ca0506f974610833fa201a72b;
0x2803e055305e45f9ba2d154206439c02a37e8a5c3fa8eb38d883c75137d96216;
0x7ec1b96a04d4eb1f0728f1fa0493019c6f1a95456997ba5003bc2bfdcf43ba0;
0x1dece2bd9b515875c114246d055fbd55492a7d26aa8022227192600fb17c8c82;
0xa1973619cf434b77422536477683d092d710c68a3644946e11dfc5daf4c3e35;
0x1e4a2c836090a5c960931f020bd616629e93cb093ee02285f8b9d850a74f8b57;
0x2a12cbb75facd8548f0d464d85c961acb166b73aeb3422edcd1c3c0400824673;
0x2ba25258891906648372370673f8b9701a7a17f5159c26f83acd03dbddecb683;
0x19e70fe4bddddbd1a2010dd7f35ad802004b8486a6a1296b75fe87c2c5246908;
0x27d1991b6be57840c86c76792fd9c3b44cc9bc56569d8f5d78012c17c9d01b20;
0x26a6b81d5d4c3e4df5e93aeb39266b56a536c153210b9f4dec10ece36e3f9e];
[0x1a4b186b77cd53f961c8ccb7815d9781cef7a52af64d0bf746cb522512d3d0af;
0x8b39f702949a0a1a5906339e83e663519b264c3039aba4688bf2e3788b3ecb6;
0x152877c59e07350aa9f0b36db00c436234c76249dd0099607b03567b4e7f056f;
0x1156a55febc770d3e72337b4db1bd2fd680594a9c9dad08777aa5d898510e5c;
0x1e2cdbd10cd7e2993c0a41fb073400ff938f590e30b3db6855f12c129d681f12;
0x4f089c87cb7babaf031a4d0d0f5c08e00bfc99cc7befcdb22e55256170cfea5;
0x2ebc3e6c61ae6901d3047afb5095d5f86071a28026a7351945d6fc4626c2f1f9;
0x230959791080b2d262131ee7b43c2de9422a9b3a59ee1241e762ff0da380856c;
0x10bf2e728bec374033c31e16bab6772056a1ace43bb4c3333a086256e0ed9d8e;
0xcf6a0317dc98ba7fbcb0dcef53d804271bb932225cf3c2fb8c0564b898c13b;
0x1306e43717156fb4e21ac64165dc5fd04b3f5dcbf52314fc0c84d09ba5b6578f;
0x9a6e0063c05651d63e8365f4e17415f0ab59d07df4916e9f3c6f649c4f10250;
0x211a3b4e93de320852f06668c192079c3d65a00de2a7cfab966ce0fbf9322ec0;
0x63781e7bb64e40ef54a4ac17d47785b8fae5da0c4b3bdfe4de8edbda7029bef]].
Definition tabS_14 : list Z :=
[0xe30a774c353a2cbf244d3d014d1a0e5ff0bac5e242673ae33f1bb2030feff68;
0x1578623ddfe303311ac327a432aee9ac8552cf37d7be9b4323c9a792c5776c4;
0x17536451518c265209c2d9d8512a80f5abe4df372bd9aeb5eebc2b799fb1d978;
0x1025b7c8b5b38ccd6fff7dbea3215f6a1cc80c64973d8972c0bc7674c733a157;
0x1a7c14617cefb39cde217f3c2583bf35d538750ca9818e2f04268322c282012e;
0x27993e8fd8e80385b78a6214675405361deecbf2c86441634eafb7c99fcdda8d;
0xeb7c2b5ac700501da181caaa6d42837f6f51713924eb3e5d6543801ee3c974d;
0x22313b179534e4b6af14a56f8eec32f02c41988093cc7f4fefb281956250b170;
0x277988ddf7fa2eccfb2560b2b169e12a48dd0b3707ba3cf1c0a514c4852ca68;
0x2aff90506172c4300c94d20c37a877bdd98630c899aaa00bc83f1b7d99e6c943;
0xad7537b0825edcd460d01970323bf5f0c336d57b4ec04b155e361068216f859;
0x16573e4361e87edabb67f04a10a84b8655a796aadaf0ace71d282a03ef73369e;
0x7befd625351a2e970860afe5ef0eab07dc7dd518eb6145de77252bc4769a4b4;
0x250d2c639105c9c5a3ce4b6df01973cc41819fb85be886084076f4114fa0e654;
0xcd782c85933dd07ae0f3f6b0e3c440acbfd915c2fd7da79cab1cfa57f634f4c;
0x23b6198a0c85767848c17cbe8708eb23bf53938a60a99576e4c2a7caca25d18a;
0x1f7e50e68a089b2286a3ab4c8764b2cb8d0da8b26b85c0f3a468c781f7cc114;
0x258ebf40c08515d8976fb6d05da5f7a43455448d998e8682aa49acf25a307d24;
0xde67b3b49cb60cf0f2074e36325065707c58c2fed40ac7a1e2856a8fcc3211c;
0x178c746273a2650cb608c7abed3bab595e8c1403a7d01f8a8d1cb4197e3e96d5;
0x2ab3c9a0a6988f6fe5e3739e7ab333de77084e6177b0778931f004083f807de6;
0x2d86755d3a375e8b14ef5aae6e2eeb5105e7ec1607de4d61258de2617f790ea;
0x196725d332dc50d6d916a1a6347fd70973f461d2a1fc2b941ab891aa04b3f5e6;
0x132d62cf82833c79ff5136eb2e396d5719f76ec0c556565b5a7869234afda829;
0xae37c618053667860b08f31cd97e4e266191da715708bb84444741d9eb591e;
0x604994f682990576a6e1c907633bcae2b29d2b91ef8af1911b41fd3fd168;
0x182aa4ce666d170a3aa6bb17e7ec00bd00dcbfebd02f3fa500e8a01d6b094a49;
0xe30a774c353a2cbf244d3d014d1a0e5ff0bac5e242673ae33f1bb2030feff68;
0x10f8dbfade79085f2d9cc0a15334272898e50848407cf0d1b6866cde260a043a;
0x1953bff54ebfac7d02d5cb8e079d56c84eed51d6f341dea31c6eeabf1a65967;
0x1344c0e662baa299ac79300aef7ef1387b1926b0c323ea279be046775a8ead2d;
0x2f027dae71476ebb6b5f3b1630f9a92126bb31a72e50cfbbe9e19ba8942feda4;
0x2b5570a23123c5568920deaa8d1f8882ecc0404bf73bec01f67562b600568862;
0x2485dc5ae845e8acc0c38c7ac313607479e4ceeb25f35ebcecab10d829fba247;
0x25b7907ad098b9a7ec9773bdef17a1d315baccf502a2a303ae9292fcf24cf86e;
0x25bb66388a0f8630d499fd04740c16ae3f6f8481b2f9637a370e921489558902;
0x2a00221d8edc58656999ae7406d58758e795a9741c004d3b99e0624d1ed9651f;
0x41ea47bbe1f576a1bf165e9eb6c82b74cacc22011c02d1295aa68a734108477;
0x2fa5eca22a4bfc0739f0671dadb74de19a49bcdbc6b23b3e4acd659b3ab7e2ad;
0x1a103aceb4a30c1289f86ee6d359ee808a1075dbaa86a9b590da829f89e0e56a;
0xea6e1b215fdc970b74cf8f31e3e78129cfad0e545939cb6ea55b4e72f348838;
0x1017db78c2c1d169597ed69a3dcd02467e30071dd418eb6e9db209805314814a;
0x22002c2422ecc59939f303b6e3d02d35aafd288b4f7936838314e2047b669672;
0x7c83bfe3e0cd2efa62ff8cdf694ccf8b3268c2356be960335b45c9d57751940;
0x256b5d75847a3cfd5c4a79c7890ff08c58b73a31f14bd07247241b70e3b892d4;
0xaa8d8fe4f42d5ec00f582f56d0d64aad9977a43b185d66000c139614d9ea30c;
0x221dd9b914aee821ea23c359b337345a22da01eef81613e55c97fe275b42c4b7;
0x7a71841bdf7ee0dcf51ae4195cc8adf79be1563616fa5f6b5d932eab3cf4d9e;
0x3f7813649d46bcc7419f8ef37cf29e9b486e285da3045d96b5e3c6b636643f;
0x2e4b8a3c581c527e8a12b4778ff69d8405b2dbef389d6bc8ed143f72cf2e3b89;
0x17c1a87f4f960d913f5eea140959526f4c8ed7a7fbc2744fe37ed332e26bfabb;
0x2c46585ae9f6cb77c3217988da69423b71724cff7fbd8cd879a0c4479af148bb;
0x2d54300c647a770fdc4340e7422d79b643596ee6ac6f7e1b3b6339022a1768fb;
0x1bfe46241f2211c6ed0e7723765850aa6da18b5d6c692d33eea7647a73d097f2;
0xe30a774c353a2cbf244d3d014d1a0e5ff0bac5e242673ae33f1bb2030feff68;
0xe2cbddf65c2ae0452e3eb2578ac21a1e5279c42481e4a41affbad2969721705;
0x16ac1278c3b044618e61a767b13dee22fe364509ef89845b2fad1a47c2b9b5ad;
0x224149478db068fb7141fdf2746d34283ea9e42313f8bfa3e9dca597a23ffd95;
0x1a8f0b2c1be34d3d04ea78b2c38118f6e05ec781ab95c964e9fec00e9da70f45;
0x9ac6d36b9a63d40259a98a78c9a223de633299b75cd49a944ef361e6f9fb9d7;
0x12810af0ee251f24fb86894b758bc4e0db0db4522260a9bd5406baae536b23e;
0x13e21a7cb8f49dfb990df144ce9b950ace2762a38331d90bfd5121a7d8cbeaf6;
0xbf46bbc35ce9bab54a45c3b9a308df40b6b771b3a0c82634e86f0e8369aa2e6;
0x2d3905ba22fd54bb55e4ca78722d0c3c6d922ebee33c024e3b530414b0e27819;
0x21e94a20b029bd68674fbe1179ca813dfe61b3ac9a2cbec68fc63f4625ddf20d;
0x2eda11aa8cf8a13cc36a5ee865c465bc8a7b91e41061abe33ba2a48945be03b2;
0x1e86878d1a99e02c9108ca361563f8120dd46552dee8cd864599bd965905acfd;
0x213f9fb0da20d21d4bd549eb2cd60f2e951cdf11bbaed2e8347637c28e90dccd;
0x9ec04662663c012175d047b3badb9cefdd56abd0e1bb8824f8b1af84c81cea2;
0x2cf6e22ebf6b69c9dcfb9b5e66d03f2c9dead8b168be2671fa0c900dc0349c62;
0x1cb3909eae030fd0ae2a623232e8daf5a527642386e6a1a5cf8cbf36e49c9f41;
0x2a954bb1d6463b7b6723ea7a79b331b5201cff98ebdf77311f8eaab7a4bac880;
0x1d232685a73dc553d0e1b8099acd8936bddf42a40813d52edb2ba0e2a72a3853;
0x252d7955742982802013cedab484c8d461f9315fd6c30a13a076ee1fd84ac652;
0x2144739dc6440cf4f08908cadc61413b30e9fdea3d600ff64f05c5afe2742a52;
0x26d2ef597c02295f490a26be40bf56c9505e4a977f017b0ee1b4539bab40f92b;
0x2effc6807ad79b837e532bf4a9f65a83f920df891e563011c34c585b8b5118ff;
0x2e095a7e1c68ccf1cebbfd1d9e6b10661fb3cef485f2ecc8dedeb107be1a99d2;
0x226f0b52596d08e12c5d979f74cd74461c37b9ca4b74c2d3d72a467f682f67a1;
0x27e4dc61b7f4c719754040db80c2c2103197f34a54a5de92fde3460eccf92b38;
0x2a0121e238a13d0dfb1507f0ca6c1686f838aac334cc1ecb2f7d1ffb7b89c130;
0xe30a774c353a2cbf244d3d014d1a0e5ff0bac5e242673ae33f1bb2030feff68;
0x33c6d4d77acdece9099b3b1c2820a64c2f753582562ace2cc24fb4bf2099d13;
0x8158a4f4a451c60b9c190787757dc064f45712636cf0171e54775a94bdf1954;
0x1d18e0af711abc6617c0385617d21b4c1896f0199ba927f33692b3c1171294cf;
0xc8ff9debc6b5b90f826623c99e25cc8ba5b83f810b1c2be42298e445cd1e516;
0x7455ff7474bf2511d200716e916cb97e0842864cb89a42fdb87a479a63f5055;
0x2b796bc4350006ffb852f826d4261ff6fc792aebc1cd37f273e652180dcdd65d;
0x2231f46d69ae4d0ae2429ba6080b7fe51f3f934c3d6607aea12139450e394dd1;
0x2e37b2806360065a4e80fa3e6f3acf0cc90fbfee5e8e29fe20367345f8979dc5;
0x1e52b1dad965f7d359b8dec0592575d918b48baf65dc217a442db727e46ff8b9;
0x266f2edefdeedb61c866a0ea64d019f31d1ddeff9607667a5e89412393765810;
0x622b99a4f10e3ea4c1a9f0a2c0823602a1f37fcf2d70b6e729f8a50751dde06;
0x20b6fa4bb93ba74bb91a9680f4dc15e2436baaa16cbd85173881a89d2d39bf07;
0x1edf9a959b552bfa30461615955d8bd5ab7a2d826fb2b440d363029b7d8a16c6;
0x2352faffb1f4d71dcc7870bade6df391c49d4046451de035837feed53448ef50;
0xbb1c8476707800ecb7b2cf40d86e6a7d5aed4214b9d535b21a0292790294b29;
0x1a004861dbc666a632c6ef9fca6214a36256e7b0ca97cee63d02d5740f7f72fa;
0x115cc0fb69c30646288e34277bb9d59f5cffd364b3a48dc5df13936780e452cf;
0x20b9d6ea816b25eef2eae178eb85edf16d922e259758611f8ca73a8560e5f612;
0x1b7650b9721a1589244d0bb8910acba3020e5a849738c729261d229252d7570d;
0x228969388482a46d9d2c33e3cee3f07ce2c8d2438e0023a20c7d5e7c1c84bdfb;
0x1a1c5996f580dd93a0d48654c03d9fbd053a6d4a64b21d4487b7d16d586b9575;
0x25c69df2d6d1a1203df21d682d24907f08c34b941f5351caa2b3c26efff3d1cc;
0x12848ecece4c7385b709ff7c98962c528865e86bbb652a874c495e5931986f75;
0x76bd3756046b7989e8aa9115b57abc352f470b3e8e981200cf37548edcc00fd;
0x2884069a9ac9139181cef297a585728448ac6a74a26a6fe56bf9ef62d13ec6a3;
0x7feff811d5e99b474c5fa155004bea6a6fcdf03a681acfef2e25ad334f71e5c;
0xe30a774c353a2cbf244d3d014d1a0e5ff0bac5e242673ae33f1bb2030feff68;
0x1d20333ffc3cf745d561f12c425d8e1148000b7d042aeb5f26c5dc223fe31865;
0x28abbec7c9caa428c519415063a6f2d5e1a0d349e3061f05c40ef35803686d42;
0x3a8e10fe7fabee8686830b8234275a3abf3cf888d9ac500bfc643c47d476c3a;
0x18c2e2dc3d8b832d050468b7a71e26bc0d6e887165176ed06c07fbecd3d15a5c;
0xd50f1334b2bcbc0cdb0117a17c5542080751590a269f4530441ee1a428cf53d;
0x13806f8807551b28f4a063f853d51c621cf08b2f67259b03c7b1b10734945688;
0x2b08fe6c94ebbbcaa380b0dd6bf50430c5bead290a5cefef3e75aeaeaf7b63fd;
0x20196101b753985b8d81c33fed2d02bfc0594ed7b25aec355a1efdee746c5633;
0x3745c143e9794534ba8e09393a84d537e45a0d9f4777e77fbc14d22daa2f067;
0x23e0047f3bcd71895bdb2030e2656ed5ba74f2340b2cc87626a6739b65b69299;
0x2b7432db324f5d63ee6df8a327ad7d03752feaea63b8483523e1b1ac50af5356;
0x3230e5463fa892ae37f38ff6bffcfdb09a881baeb117cd45199c5f78498334e;
0x6d227987110bba2e393ccee1a5d01fb046f88e9e82c975d69c25505fbe2f7e0;
0x2137c2037b936b9af605dda34fe4424a2f095aa784956c7e1a8410602381d2e;
0x1b85811f361794bfad1d365f9278b8ecccae2e29f16e81a4e81f8a76980b06df;
0x18ce9e29cabc3a88ae1032aa09a664a307f07c41d0d495fd88f4729fa471d83b;
0x16117eb08d088c3146a297600420e21723b75d24767e3e927a465ce543a442e9;
0x143137a07224a1f3df382f66ed1eaa0000006ace56412ba51954dcecd725f03e;
0x104d16d80f93f2955a067d5b615b3169cffa4c95c7bd28c57df7a098608b52cb;
0x1d486d6cc1ce7b6f2b3aadc680d663e9afed57c6df3948a99edfd8d21f3283e8;
0x26b9676c3f4be27618037e6b8681c624cc2badc95e3dcc2858f44e4227b90ec5;
0x1b9d6e78b161f530bc835a17a56ce26bb302ca73846a159744389cba664d9309;
0x133c6470bb5a345bbb1e3a3650b9a5f39295bcfb97ce888cb775b07188be130e;
0x2eb4042daaad9726c71a3b6be579dee9df64b6aca59cbcdd4e014ddaf860cc82;
0x2b7e6bf97ec1a114b17e6bc4b4808ddff15614a70e43318f7840ed715603338f;
0xa1125917e9750fdb258e4113f2e3beff8cd77b2e4840d2a0a3efae84324f1fd;
0xe30a774c353a2cbf244d3d014d1a0e5ff0bac5e242673ae33f1bb2030feff68;
0x28f2406d5b2006a8163fa449cab775337ec435075e08f76dcb360575f1d0f9a8;
0x2833ed76d81d99573f405e2418760ecbfad333f71b35f293fb3fb2550d32fd32;
0x1329680ba1700fd38f42d6f88a166d7128ee68baed48025f1bd8273c6d13d5b9;
0x2e406c465948d552b82b4d0443d9b4393e9d034c1eb96779b25554850f8d582c;
0x16870864c7481c37732c1226601c0fd0912ecaec9c4986893da2ecf1e7e9bea5;
0x16f0206a256a1eaf579b789362d74a6df9b4e8f4c3bc43a69d5d84f8e2b86e1b;
0xd3769821a46417d7c41de7fd8a44cf0e6b03851b33d35f9105b91fd045f4364;
0x208072d81c7b1e0c7fb8bcf2e372a3a6142d3643084a78bfad3232dbc4d0421b;
0x1b00364bfd8258bc091a61caf85bdb512a8319ce47c9dce782e62103c2c7a71a;
0x39d9478f244268c4803f9dd0dd5e63217be3c8118476c3c36c463acecc573cd;
0x1702787253c770367113ca024f835dbae15b5c16bcb2121cf3d89bf60993d771;
0xd424c24ab70fe46dc0b70ac44f1560b98a7c179b6fd59f87b51cb1580404f3b;
0xc8eec67747155b02438d197c9d55437492eae235c05e385f5aff238ecbff493;
0x19318a85cac2967adc34c434ced1261abf43e1bf1184a43a0897436121191ff7;
0x100d0e39b0ac4162d13e523a8308b3d1185ff1abc0a44f80aab198f4d4af2e77;
0x1dc9edb515bd622a09d6f164eaaf2cb987aca23e7a0a79c8e00d02ab44c71cdf;
0x2cb0a4d99188559afba7226f3a7dc66b1293a6d5dd7ebf396ac96d3bb1b0dc69;
0x457e9defe2b2e3ace40217181c5cf8a361c3303bae8d1b867e62386ee0aec8d;
0x27cb603ef3700431472d85ceaca537bcaa301d220e8cd68c8db9b2e1f53e99d2;
0x2a0f737481bfdbd65f8fa4cb4463e56a31bec6e77c94e27216f4d5aa734df9ed;
0x88e30685326b92f6007d6efa42d8af737bdf42ec7e1c4d565318181d8295ea0;
0x185dee7ffc1c09332fc1436f1c6d67eb3c6dccb36bb98177de5f2802302c68a8;
0x1a3c2ca9dcba78005a28af3b621e50155295f14ac746057dcce986f6368d3d98;
0x2c899f8d46c18eea46b9b431d69f5449bf5c896b07343a5199e587c748443f7e;
0x12b7b81c78c7112c7f79de2eba33f1859e77ee9bfe54d5f3ee15bbae2d6b90aa;
0xa9c41fcacf18941604fb129682761803f162c0e7cc1152f70bb76a28995aee8;
0xe30a774c353a2cbf244d3d014d1a0e5ff0bac5e242673ae33f1bb2030feff68;
0x18c2c80c193bf893f8e24328bb79195e1cb8ec5c30fa4d0aeb228c820e7edc8;
0x840212cc8df69cdec9a5d73b33f77e6630cd08a0462709391407c8857b09be1;
0x23a2a69b4c1f2a9d5da9bbc185ddfc88facc9958428e06fba83d67a6bb7cca8e;
0x2990a00237ce280ba705df85715600a7d425d4ebe2b13ed3b42b1b44ae48fe01;
0x268d4b3af37b5f5ec11836ac54c1ced9c569390d0463c316c2caaf71ff452c50;
0x151286c34d2d1a88fc9f696e6c762e833309a6710e03831212d317296b1c211c;
0x5a0f37b771fcb8d26bea09722510af9bf510ae84c5f0106d3824aa274e80f4c;
0x2186448573dabfd800c596cf64703bb0bb45ef5b8a91fa21009862ae3aae0c0;
0x27ac5eed415340d9907c6b414708cde2b99de1a550be1c26d6ef95c6ed5fb9ac;
0x118baf60eb743773cde629142c30f86d49d633c5879f1977aeb8496971b3b956;
0x2206f4af9dc21a5e94a00775629d9eb46a104ecaf0d2188122187fbd9c5f666e;
0x1874fa5cd6fedd8dce56a38552b35512bbbc6ca56a4bc6410406ad149bd30589;
0xf22dcdbfea00f4bc89dbfeac7b3dee60b16ee9a74f13588f5879ba714c827aa;
0xedf94bf49c040df972e27701e16229766d84197b29f023406564e32cfd8358b;
0x2d24ceb96532b06e751d109a7efcd29ba741e61e3472bece30c7128c47042813;
0x26fb8b8eb2d90ed4886b9982bd3255b9df4690f84047ccd4bdf21810720bda44;
0x1952641fff4b577803eac12d290acc39f4728e3fc086f3f76313fb2b78da5b20;
0x2233ba51923c10394d1ef8718a6e82d84d9054de8c8498bd05d52787faa25e32;
0x10550f7d00d83f1e7fb7e1c9772f545e32e0a60ca3ba0ae168c750147df29eec;
0x7e5e890c3e62c5109e3790d2bd1406f8425883abfdde19cbba3b5aa7b7f2bfe;
0xd611acfe2f91f645a07af0ed66ea813d7395b09b4e4b3cb92afc27a31e7cfb6;
0x1fc4f96fd7c7a69fee8092b6d11c7bada79e851324da48e658a166d00e66820c;
0x10b23d2c5bd7e976228e19064ff33921faa59f2eb4c8652d39546479d26ecb7a;
0x2f21166be2ed1b2da47425d6bbf4ea1f2c5aac82b83265913f6ea70a3321cdf0;
0x2ab0952fb29bbeb0d5728f07aa4d67431c1d3c348a0f1db6126e47cbefdde394;
0x2a10c76f857e47245d3c145ce70c87a1995448579647698c122d3c7f8087639b;
0xe30a774c353a2cbf244d3d014d1a0e5ff0bac5e242673ae33f1bb2030feff68;
0xe8bed4d86934cc84383480e2301331becf2a8756e9098c8a5541d39b3be2084;
0xbdb68bb05cbd1a32bea32b8daee97ede7a999c31e66621b4ecc57e806e9b68b;
0x1c68215101419d83d15a0260a0d19456d8a4d552edcef12b8eb3c8d0fce018b6;
0x14c45f6a32e995585ac81545545d2803fdd9cd0fa462a89f2cc8d2f2869289fe;
0x3c63147df05188262fe56d1991f872b8069a6c07b7358d166003ab422a2bf67;
0x27b093996711ee7e4d1d6566008eb46b53bc45925a385ba64c4b314e68f5f939;
0x1a67fc8776cf402c94587340f50ff6a0037570c50f24daf71d3b14f12c37515a;
0x368384bc98a519dd78434f63f92be511aa6ebe497a0f202c40dad53cc9ac41d;
0x1cb8fa7ce16b44e38432742589d4857c290e41ddecf1c04d19475381588dbe15;
0x23597b850f364b4569de68f1ac728565dc30fa8ca25fbc7cb04de5d7c4b97c62;
0xdd8ff19d5e1308fe4266a519030fcbe2a9dad492bf87320fee1b56378548b74;
0x20feb7de1a5e96b834f33f0cfd2be704639c024c4d40b2e130272ee52abd43b1;
0x20885682bab854ad9b308b29e93bcd9744b30a32a86b43656eb9eb398958c569;
0x19d3a25bcaa553994b945b1966f0e88877b49a0eba7cfb7436425ac980d1f4b1;
0x2ac8cfd84802b67174c30e48b6b805af5ae5c0e308beb82cf3734fab1cebda79;
0xe7309eb986b717f72684842ee44266078aa935820e854ecc26e86b304a3aaf8;
0x2bf7eab7ccb382e902533c265b264ffa63278fa298fd28467cd075a7e3bc332e;
0x83dd2953c55d5c2b9f2835c418fabe9f31d712601bb68964101149a09100404;
0x714ed30fb5590de5189a271e1a8c643e52ab0e5f138671efefe328d85eee14b;
0x21148f9fd3b0722bd321a3f3fb59dfb18dec828c71a820e50e2dc0b77ba06c28;
0x2232e4d97bfb4af6fa023ed73bdf899e040c85e086ec61f64d9e76bc8aefda1e;
0x2f130c81592d14daa4a108219e2381a3c3d43f9a7fd9407eac791568a7290d97;
0x1bc3006aeca257aa1e0a79238a6aeca17b61c6dd8c5e38ff259cecc70c6d957b;
0x1e2cd754d9765e6bf4ee604c3027dd1553e6bc4c96f0a1860de5ec1ed4e7789d;
0x1b03008489762f18d350e6f59491be94b91125f6d564810b226020fbf1266feb;
0x4139587c94008d2ae2862f17f4623e00a60f095650f0f954d33e2b3e028c8a3;
0xe30a774c353a2cbf244d3d014d1a0e5ff0bac5e242673ae33f1bb2030feff68;
0x2e92d0d003478aad469bcb62a9ca4fc6a4b8b7b54aa20082421047b49526bc1b;
0x2fa9f127e186da4adc277ed2d0fe8ecf65d7686171b3dd9b5ba57a41d94be782;
0x16b524b227c91d14ae22fece795ab7b4e0672f93bc0be11a4bfdedba618ec632;
0x1bae132d3cb67233efb7501a87ef7d5304d43d84795422a5980fef6deb8d9e0f;
0xd64e85826004f524fa9633ff3dbd2acfe2147df88df435e71935e5184c0b5df;
0x7a8991e9213182f06e7f27126e583ff1002b732d48fe69898c3dd1854468c4;
0x78a71ff06f3a7037e3acea1df2f04e326774ddb20d6717052065d5b48e4d9c6;
0x2bdbcc0653dff0b864ba7c35a2053688b9a13ccf83fc78b5857a91183c634ba0;
0x135c4770b984ca724061061017f6fac63ce3fd5f42e3271af748221eafa486dc;
0xbe4b3d77e216a0284da484fa0ec171130980d6648a10e81494264284df500af;
0x1d33a1eac83aa2e8e33f90bf9ac51bdaa186d7714de7cee4357b5768bdaa03cf;
0xc80a19a319c0095d10de1473bde0636e199b13b8d838336a0133f86e9fd280c;
0x1fb00a5d5448228839fca9b108ddf4cbeee2e5c6a7cb8d6bbbb33daf72e5dff0;
0x3428c5cf5139a60a19d3faabaf6d8571c01242000e216e3e417d37476da91cf;
0x15313c7636e93c90281b5946d1223bb25d849c6b05a9c6e58e3459d4058b424c;
0xbe94e5c44e86577fbf39b9db0d3ab08a8e90a14881360a3be8e77b1465d6a08;
0x215f4fc3b36e8ef41ea226080fa331489bb1f5d5b2e9924b5f419a2900390614;
0x16b0162d774c50882a9f2739bdb279317918d0f75e2fa75bf24e9ec3f1a21102;
0x12c30feb12fc441d6dd5059c269074f10a69decc148bd2283dfbe594d2a538a;
0x1649c52ddf7788ecb2150a1a48aad096b4dcda9f517ab877a11927cc3eb7fe9b;
0x6edf4bba85eb1927ffaa307aa9385c0e11eff4ba249a8e605d624f35af6f9db;
0xf61ad25f3641eacf1ca4fcee3830d5222f357f046c474ebdb732e0211e49e40;
0x2adcc2f96c95a40d796e0c8bddf303d75badc37ac9aa6cd3173b868f6d177dea;
0xa50edd8bd899b1d15dac22136bd3a3ce00ad0d581188aa6c2db96ff696613ba;
0x26a9ed9b96681106cac0e7706f4293fe79d078d918f25f07a9243b912f5d5238;
0x19595ba4019162353cf21250cafa1aa64a7c0597c0d0af5b1de0a18131520439;
0xe30a774c353a2cbf244d3d014d1a0e5ff0bac5e242673ae33f1bb2030feff68;
0x969363ad2fc56dedd932a66bf1193a1b96276f16e423f78cfd790850bf93477;
0xf364b0a5a1b00f7192697f5ca0960680b217e3fee2ccd320cd408fdca0fa7fb;
0x100fe28b46e80f15e12ef4d5759fddd560f76bf74cee6051f23ab10c8803f474;
0x2dd0aad73d277f8bc1c76d2133bd8c8a8ba8bbd573bdfc1adce1380345bf233d;
0x1ca5603c3bd89198d450960c8bef433ae368efe4be568d1f8f63418bc67ba269;
0x1eb4203b299398722feb50f86e2131f870ab2fee6f726876b9a213a69c8b34c5;
0x20d3eac3a69ed9d9963de0a1d4b554ce0b5e350033c7aab8742fd258af31392c;
0x38ba0b5c2b7c3d41293047fb42ed9df347056965c4d73994fd38e0b3d0c3c74;
0x226c68b53ad316f22f8aa803a90ffb02c489364fcb807ab2a6dae085a2c548e4;
0x1159ad22fb4656dab10da606d298a856831454bfb237a222fa393a997dada332;
0x22d898f074eadbe133b38174e7629a3fa47f8c92e8e67f62130a00fa7502b956;
0xe118395fc451a7aa4612da12097c4372c92f7b978f5af092a4771e09a13343c;
0x5b91237560989a738bbcf80a2175422656dd27e0f5f96741d141fd19392e462;
0x1bb3f133c2d5f7930a9decd0caf63f17c5528844db26efc336e5101f1868545c;
0xa39ee8089241c5cbd69954994abee040ccf43b9510d54a05056194912963bfe;
0x11d1a72d9666be10fe5fef74e6e06431532f5157ee24ada70683b9f0a586b585;
0x2a0872f23949f213b46b463ad828919ebe034950429f91fa3bffb275d722b47c;
0x1da2741d74cfe7a159666231eb9981749a40bde5cea6f1a069dea57cf460ed45;
0x225046f36d161704c26a8c378e2fa58859a2808f94d5242cdc3c742c530f60be;
0x2ac5e790d78a3b19e40fb98b247ed9caf78b47d884da4bbd70359482c2f4ac84;
0x2a9febeb411787c59c6b8e51108aef6d9dc63aa97cb314907602d5f6b702175b;
0x10519bf4b5d77f8397a4e51ad3dedf5b0dee2b25e08cb5b866eeb2a891e0a6b2;
0x21e9add284054cb149e67ec3fc4208b9e0f8a8c2011ab17bfb3c4e4419ee700f;
0x861419b33d1a9e2a944bd86a22a03490fc560a6e3f3922410b1f4ceadbf2fce;
0x204bee088f716345187c1c25fcfad33eef88a8be606b0441139f03be3d39de21;
0x21a8509dc07b690f149ace959540eee40d485db5a21e3a2ce9dbe808f621c92f;
0xe30a774c353a2cbf244d3d014d1a0e5ff0bac5e242673ae33f1bb2030feff68;
0x2bcc9e799065b89040280d6bfa90d9b0f98ac91d5051d683c4dc19c6d078592e;
0x2a2af9ccc8cd9b8976ec203de687836e6025e0197a9e756a094168da234c6255;
0x22cda8a2057a524f13ec0bfd8cf44482691536cecc3218c934ca7f21126903d4;
0x195abafa1531518d101c427496305c52e3d2c9e5f7192207f23985a15a85b384;
0x226c92973e2bf06e8800bce486d3b5c5b086e9717d93b79e4084a9a3cbf41dc8;
0x2d4b19bdffed4790eba5957e4545ccc65ffdc300d945b11fead52f83825cbbd7;
0x20c83290d5ef608ecbd330a998cde98936060e1fb520652c9d6eb1a57558f91a;
0x2baadcb57bf46a22bf299c393d1537bf2d612cfdc70413af5e5d8261f87dd73b;
0xf09875c2570527eb866d31f96e357946cf01307d89962db0c6f16a02097d08d;
0x2a29246703689c0d7c52136c2b548245b34bd6b6c341ed99c340e114b856e0fc;
0x2f05d7232622eba1583bf831f6a810ea116f0fd933e142650c58d6af1bcb66c3;
0x1afe5d1e1b64e7741039d6c26a054b7300ecb7d052d89e8df8ce8f1fdb5289e7;
0x1925f2484e57a2cf13139ddeddfdc2b9235640c4e40e7332d1d632c724801f88;
0x7752556340dcd48531bcb144583ec742cf7539c9ac2347363f9636ea060f39e;
0x43c28a9d6f38ca50f057fa71bb6f07c62295fca2197e056160e93a6c82fc15a;
0x417aaa17f575f42328eaa4ba22be7207ffe9d26564b42a24b41967f3e3173bd;
0xe6da876303fbed7ee756fd87a8f3e1636325532adf26bff8910198c92e0caf5;
0x27fa572643a35732cda21571d390600f9188739764febb8ddaf9c01bca807ff5;
0x1a510cee95e7b6f4efdba5612e8c5121c1ce9cca1a376d8379a1fdc206a55fc8;
0x14424c4b3e51ffba1869ff6527ce3ae53dc13cc1ea19ccb5c8792ca6be287753;
0x21a57d8854d6cae5d0818d294fcd9e1a2dc71691a2e3f9b227fc7889cb72182e;
0x225cb50db0b73b20058ef3f671fdbd2c0877a0defb8392630a01ceefda042d16;
0x58641892ea470cfc83e363c5b880eb8263212533f8ba6728527c4636f3e0113;
0x1f4505746ce4f65004b43f9f0017d2602e1bd44ee569e08fdf832d91531cc2a1;
0x2a076d8186db2528d94fa47dc41721629bcc2fe83eeedfc433c20e8cf4c3efce;
0x1dec0d6f62e19a1d2ab02d6c4d6a6d7a1dd1387a4a1fb15edc8622e1a3def5;
0xe30a774c353a2cbf244d3d014d1a0e5ff0bac5e242673ae33f1bb2030feff68;
0x2a48253491abad4561b2ca9cd08cc1ce7ae0335240facfa6efb4fc653a48efa4;
0xcfd514f09e0699217166e20a7eda9b00512b6146af51fc1776dd6980588083a;
0x1937a11923000d95131baf310078bfeb84b99a77e027e8d0d96201b918132ee9;
0x303cfb90a228509ecf58fc6e94dcfa0860d206b34b28a8368a3559a57add1cdf;
0x28930e4b9ec17c58ffa7934c216ab1af55df309d115d0789233f84f2c441a535;
0x18aabdce0da91d3b644bd5ecaf154ab7148f3c3326cb01b593f8af9efcad0728;
0x391f2ddcc9bd6fac600eb0c26e0b1a9a27571629e9b00f080d876ee2f1b648;
0x1d765c20a588ab7217fdda5e01dcccde23dcf9a9cccec4d8f424735f39e25f3b;
0xd914d807b0fda1cdd76d1955f170ab3616a35ce53516a81e315825f93165905;
0x22492619b16183d3180c15994c2508c83737ae2a42d968dac85af30392294e7d;
0x11b3baf3833cd4a6039f2bd42af1633a47f240fb88a7f0ac0902fae2a5be3510;
0x207c403b77244c8018d8845714e68566216fbfc49acd0107c55ebb88e0de3949;
0x2c9e431e04871524a5262b21286d04333dedb393a078f2fed92266ac22fefa6a;
0x1fd093032821a7772421e62b4e3c23a195d27ea4798f9a3f5a6c7d4d2db583e6;
0x2eaa82b7fd1c061940c2a77bdd2fb653842bf1b0466696b292cd304b490752eb;
0xf98f710e410dc1552fb69cc85076b89b4fde8f27428a30b58219f52e422d130;
0x12229b56730ba20a6a52d21bf8f7312696e8cf6537f1f6c50bfdcaaa4ed4a7ed;
0x1c2fb95b64a0f66b65d9060f1f065bb82ef882af760419aabdc6cd3529431e7d;
0x2f2fce632964228eef7908478c90107a5dde45af647f2323ad8a612e41c48154;
0x61849aba4451458f718c3be3f76a38347e512cf422d1f907a82da750dc21478;
0x2cd60c32d6ee36c374016bd4f1c0b273ff87315f6bfe1dc9a81fa0ecb1264599;
0xc3e897a8b91c108ad19b152e9842cfb87c4af0aec8dc950e0fa325ed4d69ab;
0x7a38f888ba67b2150b0e6431ce02408681d2ec80c8daca4c51e65b59d329fff;
0x1af524a87fddafaad82b5231a1e75e8076c66c44d3b527a259a15422870db619;
0x1159290a4743365d781e01a0d6bc626832260b07df2d0f288d15c95272eb1f9c;
0x9e51cd15182d20f87b09cf6966f9268578c3d9cc58b3e7f981f67502f9478e2;
0xe30a774c353a2cbf244d3d014d1a0e5ff0bac5e242673ae33f1bb2030feff68;
0xb0bceee45e31b08c0548711d59c548f51b7d1a80ccefe6599b5dbad0db4b738;
0x241c6fed92ae4e391bafe3af5103035f9fc1f727a6dc8ee5f61ba9b1e3eadb9f;
0x26aefffc4043b22cedde88f2bce76faf6fb3c21b4eda9d682c14dba06fb9e87a;
0x2673296dd62cd736659080d030b98914f6f799752403ba5c29bf9af6afccc8f1;
0x22ca97c4de769662b071f7cd75657c15e9cb20d744edd0a7911d78b6a4aaabe8;
0x188fa74b7eda792dc3660885901c82d57050e74b09a12b5f346d34e1e5f67614;
0xea0166cc4c51c2252e4f3dc92fcf33a03964a03050f9f125b87a7fe074dfea6;
0x2134da7fb4f089a21363011b08fb72aaa8fe767c618bdf08d7b87810d5fdb594;
0x2be62c9234dc7d3db66ac72c758b15628df1cdb781c90d0f2f23de2a29005105;
0x282ae8812d729f2eff86f2ec478a65707c4b63d33443bf6d8f872569c40e442b;
0x189e7984fa57098dd737293a19d6f60971ea7c74fec600b4e6fa20cc314f015b;
0x1e20cd3dbf4a75643421e4fa713f5ceaa35ed0197150182f653ae9663a9e45c3;
0x23bd66cfdc54f92e0d532ff413a2e2ff3cf6f561a344463e5e0a0a8c5a010304;
0x42657182ee4b72e3e4408528c19b71ccf1d4f5f38acb0e5a5efd641cdfc6b7f;
0xa11abc1daf1ff8ed6afb6b0a6370bd55fbbe7507f1da568f39b2ab9dbb6e340;
0x200edeab8b94daf3135eb6046388ccf8c7140d91873d2fef04b9c60f509c7de7;
0x58546b9e80b2dc22250fe5c53d66aa14be31d5d92b5c04a05e3525810fc78a8;
0x1670b9e07e02e88814eb40a43d83bdc010739e9ad6799c10bba24e1f40b8afd1;
0x1bf39f979c015af4af119c137d5c8a334ed0bd0d7f89626d4f79ef4793b91324;
0xe19dcdf5b4a1ae01fcb6c6579db3fb615bf176d53e6ad047ccf905861acd584;
0x28f22053f72ea545761afc9557c84b05c6f736ebe7bfd2c8c5c044d09bbd4d4;
0x56e7854a96d6bffb29945d76b51fb9e81f5f19ad767171c568b742e926054c9;
0x2aecacf169f418d8f47472db625ac3bdb5403667c61457666d4238bbf39d6638;
0x15b04e62d4167a166f14364bed196d1d0e49c8ccde5bd560e261600dda4d3c3f;
0x15f88c4b31508718af67c6e3c30cf3cf594fbf481a837e80e89156d9c2d1be74;
0x14e6645c7627e744f9e6140679c863325d1d95e1e4786e573a498b0a790b431;
0xe30a774c353a2cbf244d3d014d1a0e5ff0bac5e242673ae33f1bb2030feff68;
0x1afd97fac1f6e77c5cfe4bce848b93051a26a3b7d3d6b18dda048863a013cce4;
0xdf68cfb65503007db81044af06d38ce63fda1f569a7057f1848ee4597d87c01;
0x1086b32477529f9476fa324d6d9552bbab58956c2e2095548dd1bb20e9be078;
0x1611046b126acf5767561c32d31a36c5070d645bdf08684240a72b9832c3bf2a;
0x1bf3eb5fbf1e5bbde992521837a8d3a15a187921832989b4d357a1b2ced9b36d;
0x799a349b10cdde87ae631ad3959d6f9664ce23ee91e010679ddcc6017ef120e;
0xc55d0ca35aa0d453acbdd8993d05b479e13fce555b634fc6d3e470035b0de8;
0x20444c1bf67d6ce8afb0a20e79d6b691bac54bcb31ce4182b1579ee21ea9fc8a;
0x22e8f59cbb4f92639cf517fd119eb650704b00e6eb3f58e92eb31e713c1b91aa;
0x1b4841aeb035b2e896d64b59b47873cb9c74cd05ba12436e9d1865a4a74e8be7;
0x133d49d56c7809b942db891b424b30d56ca44ee7f73aa028a5e577e82f509968;
0x698faf29f83281d3fd421c78ebe694cf5eb371e29a09354741c59f4a4abc6ae;
0x9cf68b95e1a447226a8c39440513f965a41fff89a1e1618c70ae4be00e92c66;
0x57a0141a7ba203881e5a90e6d422e6d9001eac737fd9860344191026c5fe545;
0x1b71aca0b352c5ee4eb06dea7f4202fa1b908f08e2be55dc0834a1a873607597;
0x142915304bb01cec99a22a96d1af31c3133829bea002ae98d7011fa1516160d2;
0x4aad51b11363b30a26aef78b4af431dd8bd65dececfcd1a6673d8f96a0e6c16;
0xb63c18b78503b6a47a88f4d54c4da7a9c23fe346de39a8884224a2a85a9511a;
0xfe10d1f3c9b406bfb832e85b8a844c5c4dac7398f2dc3ce2541dfa71260d259;
0x2a42420809746917645806d70631564f61103186f9cc644df5b7b0ee4e6a27d5;
0x5a66c6f50d393da791e5768de874774d066f0874118f0f417b6a036a657dcb9;
0x21a4d71862dccb7c0a0a9b80945c5be92307f147f29917684378111cdbe9d2fd;
0x46f855f83e16426aed3c81f5a2f7f92bec7ceb71e3dc7e2453514c1081ca202;
0x185eb4c67d4f479827980a96827cdb79988cdf8d31c2f8d2532765f4155cbef7;
0x2a4294d3919b5debce649b27b63f40e5406b2f044e1d41d58411bc00719d3e7c;
0x2a802da0e4d59259bbaa7dc3227ea2d725f6cce50332661f0837cfb87af4af94;
0xe30a774c353a2cbf244d3d014d1a0e5ff0bac5e242673ae33f1bb2030feff68;
0x154eb8f04d175057207d617931b51ba18ec3c830e1afa755e8ade5bfa71c1d44;
0x1c5fbb238cd09b4ad76154a2fadb7e7d732bd534603ff3cbbee8031cdde7b994;
0x1c3a7fe14c3ef7f03426643cca0e6faad2806f9dee971ba41c0103d42f4f116a;
0x928a9730b25d647c4563b4a7273307c94c347565eee36c781c3b8adc53973f3;
0x2aefe39f4fea948261cdbe0accc5c7ccff6714fd741fbdcd6e298249560dd97a;
0x1feadf4aecbf7c7f1f526d0ab1ae1513f1b4fc8731187f9b65713377c9062037;
0xcd2f2d4d826d98ce3bf08da02ad5866f34c9b43f2068da4e5b33378d93c4c24;
0x2e7b56a6409134126d411b560967c46ddf3a46fa47dec457fb82a070bd448b05;
0x23ee37d1d1e1f8a3b10680bdcabcb89268a4958051e8230d14a0605af857d190;
0x1a910c02479a6795981001f40273c702cfbdcc1c00fd03de1f8057bf2809873a;
0x2786abcea27c34cf4ff274769e51787932001c0640033a7c89914f44bca3297f;
0xb27d402fc69e2f23ef8e60420a38e429da969f038cfceedb073e12f28a5a260;
0x5c8f462872ea76897742babd1099b0aca77864a1b165eaeb8dcbb3fbfb95286;
0xd29130c3cd0ab2358ab1683597256a2f7ee611376b9329b8aed30f69505bda1;
0x167beb74665c1a02b90450914870d4480472b6b2bd22563750afafe3de5fef8f;
0x2574275c7bc58879004d63dd307638b057eb9bf99388ad4788659f957ef5623;
0x1bafe22329c00fceba1e48c5f61bdc519b20eb352e183859b2434eba6cbfc4f;
0x40f25fb048f262d0b88e5a557234c4f35ab898d104cb2eb960905e1e8ba5a80;
0x2fc7cf259a1474e83243039afef87ae87f1a07bd433405084e3e4241c413aecf;
0x30144980af35b582d434cab99e08835bb09644dad47fbe036aefd9b19b713ae1;
0x140f2ab47ba1a08e4ff8c38a8245b79fc20c2916fc3470e4eaeb0b3654b4a6d8;
0x97cb1acd89b5b12e82e14571e4a4ef516f5c2693f0bf70d4c05cd4efc72dd9f;
0x30435adf792ba5a8a2c9fb599c91a1de531c7fa809f3fc364761e8e68f3c99de;
0x17acbbffacec919a115cdc4c303f9335febbb1dad12f0a1825fd41359ef73491;
0x45ac0782c8edd00c6d7c0eb594b799de598bf538c80f467fb7a4eb1f6b01d85;
0x1e15d1be8d2281c6f25efc56b33d72bfb59a61bd91518a3de93caf2a357d0256;
0xe30a774c353a2cbf244d3d014d1a0e5ff0bac5e242673ae33f1bb2030feff68;
0x125b96c678d2ef181f7e4bfbb795150eedb5b46a913d6571d1b204790a2c7b0f;
0x130be605c83bc01c1fa0e64c79ee75b27d4b4efd892368f66959cebd8ef1d79e;
0x3051c6918396878ef98b13b7c484c6695a093ad607bfdcd87f01b79d420e731d;
0x2635445a3f66389b4638ebb81a36f4ceb210d5fc5466209ec215c08023aca95f;
0x10bce0fbd3a8796152759cc25f72601dcd99b699a8c34686e43fd2b6d1b27d89;
0x17dae8299eebde0062043e9e93267fd1b38d6f0bcde5827c10822b137e4bbca4;
0x2664e95646ec5ed0536a1ae2ffc84165b5a3c295c21e58606c95037ab746a878;
0x2b8b53c8e90382786b60fa50994f281866ace7a311a40af07b633f3c30fc7776;
0x16ae53f5d4c63a81f4fd487793eaf5cd2cb03e3c8236be7ccab8c20372f911f8;
0x127dad336628ad2bc403718c4983c136f34cbfafdf3e45c616af7c7e1ca8793d;
0x10a10801dfd21422b4f5a264c2eff2121e0f716512a9dde5e6371eab17e6e7f8;
0xac6189eec8ef4ce3928d7756fac44685b425ce64bee3d4852698709e769f45d;
0x6f49e55c72efdc84f7ff6306157d770310b1c4e6e509ba3919b9466bdede393;
0xad1247adf1e4bc8665343425bee4d3f35429c54d6bf4a8ec3b16dfdd1dd3a45;
0x9f989c92995f86daf29a92cfeeadce5f105a0ae272b2253bb2de3758a771c26;
0x1fef396daa237f6467f62441a55b75cb5a09fa94cb1fdb270ac309487fa682be;
0x130d74deb88099e35362801333bf7fae8abf96165fae4b8179579761ae1de1d4;
0x1b1e63b7d8b5f8d9612dc59e1aa9422f962761a992079a8e8bfc91695ca204bf;
0x2d5d5c8feaed5dec95fb9d6674066c03d6cbd0d584084827214b09553adddbd3;
0x2278a2b596a3d0af0a9365f954adbdd2c8a1514cc906369d3b0402811c952a48;
0x11291006cc6718940fff0378cb6cefa09db4b7b7c84d447ab132a7a47573babb;
0x1e0bf04d48d54e8cbe871bcdbfe619ed38fe69bf9d2a61fb5def330b2d7f4078;
0x2b0907cd35c62152c10e47e930dca88d4b12c5afa7e2836c2637ae73500b765e;
0x2e5051c91020bf6c73339f653843436ce182cfd487c02a16578cfc96d27c31cf;
0x1227e0c86ab02adcaf01cfc56cffc815efeab33ece8c164c31bba50b28477b13;
0x103b328f8e9fef02f340e3f679d91d9508bb1eed21d98d569a41583aab595707;
0xe30a774c353a2cbf244d3d014d1a0e5ff0bac5e242673ae33f1bb2030feff68;
0x1e3d52642e16240dd7e2b0ee21cf4b3b4cc10c805fe52009dc7520457180945c;
0x1fde6f3b98df6104d07b84a703494892d8fd21cce53cfe9ea41c4ac6e5125269;
0x6934a63e04749754a1980371301caa1bc00ce38505933b1ed0e085a5755856e;
0x2897d663791c69c9bfe9b313759be1cea16299e667c3acb3e9f18079d39209b4;
0x2f30ba6752d0900a64be8d6be8b718eda67cf96af95a1e0dc91e720dde3eca49;
0x219898fe3438a5e5bdc5a79611084e0977456513586fde2b23b5e8e34d7eb7dc;
0xd90f0afc59b011d2949f998d7c5e4c2a53953aef58f971a458704fd88f6a27f;
0xf21f3710b4f641ddfdfcbb67d13f845216ed16a0f1c0b450acb82e81c85a93d;
0x2eb036baa89d926515281aba071798e7397122fb51f4504e07b6acccbaa17af5;
0x1adb3f0ad3c7e2300c717a6674e22ffa2611978d8c29e3d21012fbe7606ade6;
0x11e1d1fe7ad3865581a1a8930698e676212b04c64773601034223475f91a7b69;
0x14648747b8bb5b1e8b433222a964b95c4e143f70d6b26e6aa620e1c57c842ed6;
0x14558bf2daf718b30756ccb88e3890ec47f25b4b5e087cf9d47f33423e97a902;
0x2e6d0bac325dda6331e2117c682066a1be931e8b6bf889e5aa8f716bc14358b;
0x1bbe690c183e54f281bfb4bd843afb3961bd3e428c81dcfdaeb8220a3858736d;
0x23528de8742f3238128e65c88122a5e74f26fb2c1162fdba69f65f7d971d52c0;
0x13e395afe32392f6fd5c4c5c728eae324d9c247649a6c3412475c4d04c6b0ea7;
0x1ff38b45c4e5b8682a7357723d20949f7b792ec55dfca74c72dcb53fe68c92fe;
0x245ded3dbd6c3db094bc040def9c4e8a96e67498f9923224388fcbb441109dfb;
0x1f6ec4aeaf3545dbe65de9602ff4a22c48911ca6647bcc632c857ffc99a42d99;
0x2431b237299f1a5e8ef22569cf8db020247dd0e7a298716462106e5519d3fdfb;
0x2e4939b015f27fdc938f5f1ca55e5d7e912045ecbdcffedeefcf37ac77ddbe5a;
0x26c061cde477c7011c04505b0126eff13fa555d248df1968878956209d36e031;
0x1c6f21300d13f52bed69b2aeb3dba9760a94ed945673e3283848cfa5c4555c44;
0xaecfdb86a64315429605fd463ed664f224d10b2e0a32d35d3a5acab914655b4;
0x25a11f201fcfa64aede18e05fb19be93cfb4c15587759d5e5110420a267a44b7;
0xe30a774c353a2cbf244d3d014d1a0e5ff0bac5e242673ae33f1bb2030feff68;
0x133fbbd86858b9143bcc298a4d783e5b8b4ffc4290d1d61e87d1ce5fa4f9856a;
0x2cf3bb0c00e204f18bbac1f7f093b9febf2ca7542f44072be70cd915d2c43b53;
0x13c1a4bbd3a938e8d0399ff791d86962d7ef1504597419c2c00f421d4459c55e;
0x1b008db98dcf53332b67c287841ed73838203b2d8598187413c17308bd8cbe30;
0x1e42bc2844c8f32ca38ba9a1d029c7250d75a237eadd2d40969ed5674ff88fab;
0x5e9909d9b2a8645974d54fd3ce3e734fc0b99236a2a590e6fc564fa00c806d2;
0x1e26282b7dbf93f3aab257ba1e13eaac39ab22fc81b7252c079a192c113ed7f4;
0x102a6b3d3a90d1f67e639a27e76023612e096c02df65bf64110ba239361e35e9;
0x1f8d425b3b39db5096f4897d43838bb2cc77b4ed0f1d99a7208fdb45faa3b3d7;
0x3d122f74d869433e1457806b82f38cd91103972e456ced5ca9fbc375497ca3c;
0x17943c0d333da5d18d0856b442553e882c75af5684f2a8127a9d52123b350c43;
0x1cf484412484df0cb49e3916db14d6bed50eee93dfdfdd081480da21b5388ce1;
0x3e41d466271e7fc632ee7e0acd2c4c446957175ebebf55463ef9e16f48bb9f5;
0x2abd2c1f5f2ee158080419092b91d64876bb73f9aa94d20824e06448278f88c6;
0x1e979043b35e1d57826c8f7192a1866ce1b287772cb266eddbd177b3c6186d8e;
0xbdad4e92dc796512c4daf27a755b5c5dc6c666084c648c4bbff65ff662c667c;
0x305dfb6283eebb8f5bef8a33e0dad282ca92ba895e85853d210c7cc82f56aedb;
0x273238f0bf3b029f5064ad1beb0129b9539edf1ab828a4d113fa7652f12fd273;
0x14b12b9068950f98de141ba4b38cddb1e398b0093d7e118651d518a7980cf6e8;
0x3015c78de17c6ccb86e47c1ef08680b12b948b5a56da8a371e6e2e0147c42f51;
0x1989f7bfdc360a572379c14223f75aebdf04254a589c9a9aea6d80e020e13a21;
0x2a65e0ea8cc0ea69c631c16bd174828cc79e80143a51c35a8dcddc6a36e7e717;
0x718f6894c8d87898d8db2c9e3fe7e924b9e31221235f56a11d91c64e4d65fac;
0x26fcf8cceb403f4ba44219c27d6e595b794f4fa99db88133fe1a031cfd32b498;
0x78d5c5f6e5f3e7bc47044a82bab78a85279d741c5f9d5c8f3522d34da3d8b99;
0x8f0b5ea35e699ebc6443284da3218e73f20e8c7eefa51962ed8f0706db54bdd;
0xe30a774c353a2cbf244d3d014d1a0e5ff0bac5e242673ae33f1bb2030feff68;
0xfb6c5b68b5bf3fc0bf849c18e813e610eee228716ce01fad6f05e005802d35c;
0xc602aae4b39cd1a84195fc795b9f4650d45b791afe4368689339630feffbc6;
0x110455540d38fc9c7ae7fece8bcfeda5602ca72823a8162cc4edf21ff54867bd;
0xb380e9795f1ae5eef24029c17d3c2f1b77f2dfd1de38d84e4c95a344070ec48;
0x2ecac08767288364ad3ab00f106c9d45fe106b02e624bdbf2bda3f92739ff03e;
0x1743f85f877aa121f1a8ebde66a3ced16e0e2c61cfea1f89f8f050d872929332;
0x4d0cbd1d1dd0a87474e35d15e860233328e67057c1398d9921f930db1c32b97;
0x2d22b693ec70adb123adb300d69ae39ccdfe6873afbe66fbfed0fd1170f0e49c;
0xfc8ea8eec07829ad468e18f804cb685425a7f56702c78bf3ef9ce424d2ff611;
0xf4aa2f3aad32e709a407a80affce97c751d6d188b6c9ed4dd13bffe6ecdee76;
0x5374852d2261dadf1e1404368b67bf8377399ab2a4371ac71ec0c6ec525150c;
0x496f544992e33a4f0c52c8406887623656aad3f25ef8feb0f485903e94a2260;
0x18a9a16e6ed044b20459820025be1a938747b97db166552581a0372127a75ef9;
0xa2f1c011a921def0baeecda662d0cd96c5d54efccc20897ff67bc18e6359636;
0x22aec007a72e506f9b0708c0dcadd6a95a61bdde90849d9fa0f7d6ca4900252d;
0x12f1607ee6f4c110aaa5575fe992f47e024df0955ab3a985ff5797c7447db36c;
0x8a0e21aebd5298400802ad68a96d644378b580aed9c46cb70bc39408bb5d961;
0x77214bdfbecbffecf5bf823ee5dce410483c9af4906d7e5e3a6966e446924c0;
0xd8a51d698768c1f62ff879f0e478e98f1157ffc88ccc234f8322449689ac79d;
0x2ca7d5473e3a7a69e048db0b7eaf1cbe2d15bd97dd62c088cc222af396daf89b;
0x1db504c331d3895a78674b2f685fcab2081482fb20b16843abd4c34f91e754c2;
0x226760b82659919d5795bb171b21f92fdf931045381c5f341d772a6018d78f27;
0x2c6ee4af1e71f1f46a56943cd1a40ae76de4db5447ce6603eae52581f81b35cd;
0x18f11a6b7218237066ddf0f730b11e52404b6418028f591d2b03dde94bf407d8;
0x1c726bc6da34803fc45168badccfbd6d0e90838303b5256be9f3e29ff5f6b2a7;
0x230da928c59a36907165396cc12f5155e3358dbb891941e3a70d239183132785;
0xe30a774c353a2cbf244d3d014d1a0e5ff0bac5e242673ae33f1bb2030feff68;
0xa6958be4b971b6fb712329b991d9c28ff15be0c1eae89cdd4610ce27a2c7c12;
0x18fb79983ed105bbab4fffc7c6c532808676e702d5d4deeb82ac9bf3ae9118c9;
0x2cf2b459fd8fbeea84fe88a081b89db2e7b502d94d149126f6a532831e31764e;
0x24879d31eb0e13c6968d486a3bb01ebafbfe6fb47a67f3634d1294334d834e5;
0xb2103302dbc0c7c6c86efa0fc45ccff544cf89e07377b37bd81b2e8453d953b;
0x2e2e1fc4c5443e2ee84483bb71d753ac2c70e0993cb280e0d6f6e420763fb7fe;
0x1a9e105d58a6f8fca7fb505e6240b2fa3f7d84d1bdf1dc5d60baed683049b488;
0x2a1042ce88edc0b73ef4c2c44c12d6d9ca419b2f8144c4af86ed8df0379f02e4;
0xda87077919cafe94aba4f234b6fb078f93704bb4155e9a8d55f4c7c8b887529;
0x10df86ad83b48800b7b66fec0843926e7d958f1f69e0c2ce3305a5aad0d6b8ba;
0x5ca67cbd464f830c5633b84cf3d172f88acb852692358e4bed0a5b69fa194e7;
0x6f1f54b5acc18eb09f7ac569c51177a0248e9e8e9da408cda7f06826cf19cad;
0xedcfcb405af9c2132a3992aed66c0d945d01ef726888c65a260f3c56f208b2d;
0x3009525f3f6c8641daa9fce108036bee7bd265e758ad202810cd526101201528;
0x943a87f4b786f072e9637b5b58e280b0ef10cf747cf13729fd4edcb5c09d76e;
0x2fcfcd4647f625c42f4c129dc9d782771c761134be63d3140279960e6b5e3223;
0x12afa4b24ee867bc58bc57d2e55195215bdfc1f29d541b09bf8f1311d8dcdb7a;
0x27721fde56e70f248964e39185a35af7c38e46d8f86a160b508fd63b623489b0;
0x2bc75c98655a355c8ef7d48b0db3654bb2c579f0fdccdcee9cf277f2af834077;
0x1f49b0d6af4bba3a9d89764eb3fc5a63da95b559607ae0df206034450e40195f;
0x1ca12480c0ab186896c01ecc28e0a41014814b9a28de45fa0b79b90a7cc8cf9;
0x1040b4f3bbeedbd2ffafba407c214cdd8abd6555cb54d590f2edea7145d9a48b;
0x131f9b70a247303bf84112dacde19a9b953f26e7274279dc974b643314f51d61;
0x102a78fe962133773dcdc7e30a00f87fcf3a3ef135fe4f01f9a9517b572e0379;
0x1389adcc893fb4478e38b3f3477b8c23c41382aa0bffed4b8a54f8c87ccc6285;
0x59eb07efee98970dd36e2857a183c43d6ee9560b3c90fe54515a5dbe55621b;
0xe30a774c353a2cbf244d3d014d1a0e5ff0bac5e242673ae33f1bb2030feff68;
0x2ff7ccae4b6aed16c52d5cd2b2be44d66968914941d91a3c9c4d38d5c76ff881;
0x27404d8154cb43997a5d6576fa461096c9ac1d885a17188bb9d7417803697661;
0x41f16639e3d600cb3859f701e46e5e38b88927dc20e429030894d0d2bfa5f07;
0x280cbce70a5f719bdf3096cecac201b2c79693c13f01d40af06b7dae353685a9;
0xaeba2eab11f80d6527144cb8f13afaf2ec9cb4c55ef424bd00e2ac6f09cbbcf;
0x11473e38a5168c35404178e0c40b35a7b2e49584246518c521375af70e99e194;
0xdb9935eab2a555400c37dcf884cb2ccf1226c4d931ad3167493ff0a272fada4;
0xd9a481cfa6ef0c5c441c790cb8c9b30e2be0adfd2723ea5c1cf0b962dc7a40b;
0x2e8fefe6bb8a391222b65341bd25b01b02ce0d88b65a496a9c59abaf25ca0b5d;
0x19dad0c5b078ac863acab028bede54e6c1f5d8f4b8c8172176ccfb53740bb10b;
0x1dcdd9fbaeea72955e6752f92205e88e094fc5aa4e9b75fa0e173e0425a95e28;
0x125eb35ed67f035219169de7f612c1bb3eb788e3740b9054ec89352aab2e506;
0x1f64f0f4b2802abd8f6ec78b6a061bd3345ddd898998ab9160a12ba55f997760;
0x1fb921d2f30b13504d31f42d0cbc3b3e83714a37353246e6426f2a8da6d26c3d;
0x241438f09da43d99917952c9f600d47a3f30b79b5ec80924f4427326d284abae;
0x2ca504ece10e731645d09ebe52614c3e0fe99679b4e210297887f45f99f055d;
0xef909466b00c00c4d39e13ce788fce28c32eb73e1e4575f396110cd78c690ca;
0x28aa2ad31f21f32f1b898fd025f6a9d34abd75cbcf29694cc35178717db80d69;
0x2e7e619b01a79ef24869bb8a57f0c1668ace7d7b721e253167ad661f279f67be;
0x10925878a22951d216c53068b9e2b8d2a2d4c235ee483963c68e75b246392d9a;
0x25bf71cbaa22e93f533d72118b04e187d20eaf3c07c96b86a857e4435e870c2d;
0x2c12c98fe7f663cc207ffb753b9c099ddc0de2d774771a7c84fdb379fbadb65b;
0x2879d4cfc6efd84feb0d05d1546968f98e11c38374db3f72b753412d2cf2e3f9;
0x213c205c362aa0d41804809efa5f53a93c4c26ac9d1e91ecd081922fae6346ef;
0x1a65b2fcd5d9c0db8dad898a002a9c11ec40412378c107a8aa0ff70d7416d3aa;
0xd6ad0b286a355b4026058b97cc6a952a6ca1ae3ae23641e81bcb757831405f6;
0xe30a774c353a2cbf244d3d014d1a0e5ff0bac5e242673ae33f1bb2030feff68;
0x13b5aadba85b01644fae9e2e542b8ebd5003686bc751399421a798a1ffac6d84;
0x207a44c8e2044f2f2e6953c2bf4568e8abd69824f301cca26972266e0e18577c;
0x20366c61e53dc8718125d04f64ff70881d22e856a3f4d9224cf8633143a9555f;
0x7dd546b57abb0a5f0fc753b8a97526ef3417b06a79f30e5a2f2833d205bd29b;
0xbb6251b7bbceeedb0b366e3fb117676d1a31802d373e10117cb07c8ef4abac3;
0xc19b0d2fc9236505c7c7b6a4b1bea3f91f56b56d2d4d6b0dda2b6e0f428777e;
0x3238596803492252af333365adde8b43ba1ea6722b0bef2d89eb8b215e7a568;
0x119c3970cc386d6f0e39d351d0d1f308c857c3547373173d673b72c5d555fc96;
0x13574c0b39382b249280ca5e86593852ad435417157fcc4a7d7af23b1425bf3;
0x2c41dfb547330e3cd1ab36dcd14b2b65f6db6bff0cf3fc858d7b4555e1ad2c87;
0x151ac386d35911a265199613ddf17d28ccad77333887120cd6ec04b1ae5d7844;
0x2142f184dad54cfab54f49734a6dc8e858cdea2a2039dfdd261319fbd8ed1396;
0x232960591ef4ac647c6f02bd38cd0b4e0f26293eb1bbe703603714676de7e4ef;
0x2d33e28f33c118eaa8c9a50322e0796a657acca1822b9caa8368199501a577d9;
0x12da53680185973a1018f3c8ebda54b5fdbd196a2b192f27dd4e13bda2530a6c;
0x2cea06b27f51acf0607fc354f64c2c3687f86bcf5616dbe9e56385ed5f7246f1;
0x12ae9658e5e33252bbc1761824ec8131cddd4f006d354f1dcbd17c6133fd84ea;
0x1500265313eafa13e4db72b664aa06998f7d0f08603f3b59a2d4109263c8668d;
0x121cb82b95c9461189b38b4f9d1535debbe5e49954ed684767d191d8ffd5d613;
0x2792672831f5282bcdb13cb16e9049386e09bc11a74c1b34c2ae3a52a3d69dca;
0x9c49e3fde0a20b1aaa8e0cfea69eb95377ad867be9df04c11fa23e9e559ca3d;
0x2b2ef2807d34d975db74f912e385f76efedd545addecb765209f531b82c957df;
0x7a76c4304adb61e8611d9356708e26b98920a0a3fc54bf7e8341e9e189e365b;
0x1175aab1e1215106386e7d6ab6e8c8ab11898648556d135e9d779d932bd654e6;
0x95881e72157a04b0e21686523efcc318cd810a2d31afa2c20a49bfa3ceca7da;
0x1bc2595f9eb575721f2cc048180d6a1dfd39b2c9432c4288b896ff27338a0c15;
0xe30a774c353a2cbf244d3d014d1a0e5ff0bac5e242673ae33f1bb2030feff68;
0x2d72542a02d6093f229924f57769054f0c9f2341187cfcb456b25f659cca62ff;
0x2a00d2a68a415131906040f416d85a4293bfe098ef6c6cad01deb413ede2cec8;
0x1cb01e5cd271049bb0325eb6957d2e04fe46c4f43b88948edd3b0faea5b69528;
0x2e83b677673216f321facbd90699c9f22c2e2629191c76f7ef99b51449c8f763;
0x2575e049e33d2f09c8ced4d3f663f7721007dccad5ef54af1bf0503a545d78c0;
0x27885d131c5352064f2b1dfd7eccc9c1eb563d86f3d11a4901a4ced089dd2537;
0xbe09ca0f50c25da57ac348af3c0c51483babda2e62b2c3b55d00f1eab40c7c3;
0x20ea980b40600cbe365168750117a9d40e156e1e7633ff512573544ee7be34cf;
0x3f0218ea64202e828409a7c012c47419edcf7ff1c2902792c117fe42756ef64;
0xe6a42b289d3df7f5355f32dcf2a507735a0b4e6b4ad2ec1dbe976187f62eadf;
0x224853c3ca29c4fa226d98c4e2497e21000225c6a0e0902b3d801d8522606b2f;
0xc5295480691ee73d8098e95570a794cff16c70ce743bb8a42dd627715648416;
0x148645a642117f6c5870fe24306f9b0401ffa1da04908e1aa0f6b9423986badb;
0xbe448a3f7e892d80d18a4f34e16919f8547536c517b49ca457fc4ec9162a334;
0x2bc573630f948a668f64606f9128f8f0105c11b08a9dce89aff3b02a00f0a5c8;
0x2519650010b2b9642414e33338b47f1d33ce4976d19f1fabf8298db70deca1ee;
0x2825ddb803da718800beef69a8630fc7f3b58206f06c008c9876772d5227736f;
0x2f2c24da651d81f403fdb4dce59e64a2a6bf17e83f562426a52b79ab5e7401cb;
0x3bfdef37744dd23f5ac9e47fde12035773eb7a1c666890f3d8115a0c0f1749a;
0x2df9d9e9d2c54cc87d0cacacc229d561566b56b0cd00a68b31dc706e3f06351b;
0x14c29bac822f6d9d454c11d35520dea723fd79b06110c8135e178536120a0b8f;
0x8b6fe4157191851acee98ca63208dda32c9bf73c833dd1caf158e992847a5a;
0x25a3dfe68d7513c1a26bcda26c412412a2f7ae80cfda7afbf996bc81cfbccc54;
0x2d3c0299af854fc8e64fde3e0ed04c3bc54292273adb103f74bf623e889691d2;
0x8cc27272e1668638fe3f85e5ec76f5ee1595328112a949263afc8d1406d3e48;
0x2aeb2bd0a8da3fcb57f5b428f850f41790fa68f5b54b506794af4db04a30a1d2;
0xe30a774c353a2cbf244d3d014d1a0e5ff0bac5e242673ae33f1bb2030feff68;
0x11ef04a3823d72d4a7e073114b2e6791e38b5b6aed376228ac4a20b2eea244d3;
0x101022055653fcd3d2659d6a42694578ebd518b5738e6cc884192e1091f58878;
0x180f05913fdc0f67f5074c976b3ce2137afcd1c1b2940eb951b8de723397d036;
0x29ecb8a00aff8bb64fe2df4221cc57bb0cd6eb6b002eef1f735b0231a72c7e91;
0x16156078057591db5810dade70d6c21de3a782d5fa3143211da32ed8f22c0e8c;
0x29af8f09441dc2c0e1344abf63fd38ba7f08490f435fca75a26390b4e59b9ba1;
0x24d8bef242f5ea95cd238844e9134d9519d6682b7448d40bc9f1ed8920eb49bb;
0x2b76b5027eafdd7a6a3902665416cb07e713952521c74857cec4a829375fcba0;
0x293dcd5247e1143980134b15f9efbdcad3e7700b6effaa97e17339745e004a5f;
0x2ac6a13e798388a97a5d9b856f8fa5aee5036fd0422f9444749f3b8c4b9e884d;
0x1f5dc64952b9c1bb892ddae76de8212aa15c49508cb760a4f579d608c665eb68;
0xeb5587c5c438db178f2725efc1b739d53d261f52cc4340f6488a8242b74913d;
0x2f58f77c4c03e9591ab2cc38567d41272c1dcca473cc4bcdd0a4783d2b07bcda;
0x1c908cf8e41976b7d63c3f59cdddcf83cab22433870351c60e4bea21aaf373cf;
0x23581184440c2ce0f3acbd6ef778e504f6162f1930e06688417c82d85a83e9dd;
0x2fca62a378c65e6d2a0b3b6d89489e8ea6bf5d95cf27f40b16c58a15f05e0ee9;
0x2390511812e8b21ad50a44d1eaad9690f187541f7ffb8a0ff44e35ce3b2733c7;
0x24660a052455c262cfb78be90a43345338dbd808c422e880eed6b19a76a42d9e;
0xdb011c8a8f6df9cc0163eec3eba51b230837db2013659415ffb24b3958cf107;
0x1bdd458fa2cd40ad49ba12709f1bd117ba67639f7b52a7732c56b98e6df5b2f8;
0x21fd3e66b238769774a650e1159c04c47ea364a48157df08d90d4eb53974c15;
0x7556eebb12fbeed954d3e9dc4d5da1ffadd578d4ccaf273acdcc0635edc98aa;
0x200a1f0fa4e71fb1aa1c9b45949185769e97d29d11caf13185fab33fab36e09c;
0x1795336032f18e1f4e392b03b65bc3dd268813b2f9bebbec00548a18ba37900f;
0xb3d2d7ddc758d320c61ee6ea8137f08d2f31f3d159bc918b0fae895c42fedbc;
0x2bf1a39486382c117a286a19ab96d73bdaa9c9b45096518f69491f157df85c0e;
0xe30a774c353a2cbf244d3d014d1a0e5ff0bac5e242673ae33f1bb2030feff68;
0x22dc5c692d9baea0fa2685d2c25fc510a43bafde0315da1c52c108124bd40b0f;
0x1c9a763950a409e9363997de4e3beaa0944b0f1feb3d917238409584e9c8fb68;
0x15761f0591d99bc354aa0bc4a11153cfb0b5335993e4e600d4da4ed88fb33199;
0x19374736f4b0ebf7dd3aecf4e7cbb669a53b4dfba1ddd4b951769ee44c51edc0;
0x1616bc37e489b1559a3e813544f2d3f6c05a33dd8a39c644e0179aeebc274cc8;
0x2fbed52ea54d56a8aae40a2f16262b5cab2bee4e964f32acba16067841ef5edf;
0x1ee85a9999931500883944493baf240eb51de8e8015fabdcb9ea68797bb03696;
0x2b78ea79b23365607e821a947bb4ba8035f28820f1ddddf1caba7edae1eb2919;
0xe84e11e29a4b9ac41c2e953f61cc86d33254120f426e217d2e5727424cdd81d;
0x2f28c96987a9aeea275da5f6bd86a15986784da79796f308fe96d7b28bc3b2f4;
0x2c14cf8c8c895efacd96c501d5461df5c2f9494911100a4c1baa5b40f8751ae7;
0xd311aba1168e2352b438015bd49b31d9f5ca1e8460801bbe65ebf019776ce17;
0x2d1ff9afaca2339c66e640fde96fdbe0e586e71d79e76d145acdd126066c119f;
0x1c5ec2267db567e8d5f1880899e3add17e7ee0c611605320bf32fa2d3b1842d1;
0x202908d4f1a4ebead7acbd09fcecf10a8fe557435ecf51e30834bf136827a83;
0x188d37c6825523715475a10e21e432d21a8f921b32665cdaa6dc91d31913d982;
0xd976b5ddbc8409fb64b65e1c5f458bd058ff8d789386fdd595eef3a064eabc8;
0x19268d14b34ccccd93947b6ec6455b6dbaeeda1ca9cba82f33d6e4e682066db6;
0x68d38aec68f918213eeb15a3d5e65b3a3a4ff930b59b733e34b0b295f6db1b0;
0x24cf117219d823994d2210d2bc2b60585cbf6d667eaffbc726c2b68a3fe466f0;
0x122577912131a547f85c741fffc4d5aa5f6e45453119a63c3004f64651e821c7;
0x1996ff6a6f3dafad0245a77ba200d39de3371ca2be5264952657ac703241d4fb;
0x1c84f6cd3c3b1d091534dff90e04f0675e6c6e60aa660c3dc4366eaab3ddfd33;
0x11f23290442ae048c2622f3be83e52ab302660bc6df31171f26bd42a5f356fe7;
0x2311bcb36c72d2a3f8b103c39583be307ab91a5b020252f7c8015e1c9ae7e56c;
0x125707cf76963d6475a5dc5c1f832166070dad40eaab70cd31b51e83ccadbcfc;
0xe30a774c353a2cbf244d3d014d1a0e5ff0bac5e242673ae33f1bb2030feff68;
0xb4b8a05506a055387dd95d95f3c91bf6a1da689ded43e1f548f703649486988;
0x1d0c6ac842eccd47045e4ddb34e04c1938f9e93aa78b5fe2c0f44b00c6131ae6;
0x8eae224067879f0830f967241ed0821f41b0e20f9cd8a6121f07aac10e30cc8;
0x73f79694b751847664cd5da30f38013f2a52fc2530a56f01a10901cef975cdc;
0x1294381efbe257c11ce6136df76cae6caa4ca5ec1934f1a7f5d4895e97391a5f;
0xc80e686ab09da319588f7c17b27db8dc60981c0feb8b2dd58be98ff6b3f553c;
0x28b442efb75aa8e6b0d277ac13613d59b09959b3a1e90b457f7d93fa7bae6766;
0x302904181cdfa19f33aa2838f6ba83cf0202f22054856155d5c10a0d5970042c;
0x2b17dcbf694b6ee011663776b422100989f2576d78504227d547db889adc4dc9;
0xb89fd0b5f5fcb94a3fc154664390d7dbc7a8f028db060b7a594f205eb554de6;
0x29643b0ab6cd148bffeb6bad54e34bf13cca00ea98c538d900e949f8a223d1c0;
0x25ac40e12ff5d3ab47779044da20a35fd1ec747e7f9804f951d3e3994f0be643;
0x22b19dae475254f480d6ff651654f808e6c99cf54186094f5a4fcb3d9c992524;
0x1c5591a266c5ac14f1c83848bbe3f9bc926c83b4a19031af0334da64ebcc0f57;
0x22dfd894770188e65c40390d7ef1a907800ab916118530a0c1b736c885a42643;
0x3ce73087e6cf15f4c0c9e94c05b1490f58f2cc4ad3fc746bbace3ee6134f65f;
0x2d391381bc0ec52a224a9add14af01b875b9ffd69dc115e348c1d6c3c743ce29;
0x1561f352a096cb328906c091a612b9ab92a4433f5d65f4f55e78b02c4f84414b;
0x25de146f3cc4f32b6cf8694fdd876a1c9f0269e89d63d48a8ae9ca064ab2ae64;
0xf410294c8d91a9bcc60d25f4c73a4797913a27067d1f664771da8d1284a77e9;
0x11a522b6b25687e258df304954bb84ceb1aaa9d977ba292ef1ba49c652b033d5;
0xd061366179c02608f06b6984ad53a5adc8b1effc60275817e79e7eb031f5dd1;
0x14b4604d095f37b5974254e48d7dbccb68da55306e08d00fbbb8f06bebf15f8b;
0x2f0d5f558fd4454b062fa33f1e52c5a6559ac1379ae507aab152104f511eb53b;
0x11b307ffd788170d196853547920b916d6a6fb63a15d4cab5452e215f62674c2;
0x2c4b021e2b757863b41bced2e1aa5be7e77c152e396026fbaa09cea515001c35;
0xe30a774c353a2cbf244d3d014d1a0e5ff0bac5e242673ae33f1bb2030feff68;
0x32fbae1fe345271632403da8c2a96a35805c2a3e87c4457c8a251137bcde383;
0x197360c47371eb2f8266e052762cbf42283dd8c4ff1446213c1c11752c6c30d1;
0x213ae97ea4c10ec4a64720db8810df370ce3e9d8492f6806e06c871f0dcc4ba0;
0x23ea027e72e70e5db4ef89316ef3a127454fa082bd84b255763878395ce18af3;
0x1a522fc99812fc6ade296385a9f64cefbabdc59b664d33b02cb1c805465e0bac;
0x282bdd7da996a1d58ccd9e4797e17d6a30224531f3d773b48ef23daa5077298b;
0x278f051ff5a35ad9a0f1e5ce9a99c9e1b669f58b127b174b1573e76b9a95cb66;
0x14d2d438ddd5fd9756f4afe9649c2ff2c9ddaf2e6d1ad10b8dc4550862f7424c;
0x18dbca4af7f465ad6968bc7a1837c03d10d09a94f03c3e7fd3f2767e86be7b9f;
0xb2f4c4bb0ad8c2047f62d2e6b1024da131588d16986b03e63e8ce9ede6c7fe0;
0x21316797b3870762390b31a48e8b33b319da5dab6cd4a0c28170eeea58f782;
0x6b3f86ee68e72580f8949c7ce7e789b629efeecb5e71a64d17cb1e8f4b57211;
0x21a36423378fe8ddd4d3ac4a6ded8b65b8ba023593a99758ab917ca0b67a324a;
0x1ff68d97b4ee71f22110b03e7e9f14641d8e98513a9b70c9e1eff000fd537006;
0x2e0d1aad3b8bf21314fd506d418cd7f78887789585a28aaed747cdacf7765b7f;
0x148bd4a9f6dcf19bbda66f4531eb4e876443c729ece0612fc005dd89c808efa4;
0xc11decd7766f5601e8d5dc09960399e2a441254b57aa25bb3bb80724a8510d5;
0x653950fb31c1384207cb5f22e6adbe9392e0fd3b6fbbc9eb25f4064656e5b7;
0x61c7be518e2a7e7d9ff8af58dcacfcb3f0499cf7c35ed13929affaf57c95818;
0x632546dddba57da93cb55ae4fd8dd0065ec22c94686a63cafb6b151d94fefa3;
0x1458d6428e6cbba4df84a44ba6aad2a9cb0d1c9041283c1ec5277b2990418750;
0x1c58296b3da9f61460610a21dff1ba812b726a9011f0180e4f457874f7d8b8fa;
0x11b039dcb0af8c795298f360dc7f55aca201c35487b1b81cf009fefc204bdcc3;
0x1fcdbcfd2065473d499a075bf5857bacba94563f2814577e5705a020211dd0e6;
0x2d9f02a658742633b88fe4185dc29bc4297d7aa9dd473740183ae46042dfb040;
0x100e915a9be179a7cb25c2332a3d48481deec2ed9196214a55d765309cbc8af5;
0xe30a774c353a2cbf244d3d014d1a0e5ff0bac5e242673ae33f1bb2030feff68;
0x1a618c68dba0afe90df2de9e4aa3091ae73582b53555822bc903932747e520b7;
0x2cc1683d5312031d06b89710f03b3889066006177c574ce3cadb093e7ff5a301;
0x16e6197f7c10ac35b2432c0ca10249b3b39a8e3eb83d702482ffdd8a0888fe09;
0x221e4bff156c6a15260b4c5651064fbe3b3cf8f10721e87ee9f72e7021759490;
0x17ce9f46591fb9ea7e5794a6fa66b1434fec12507de6e8fbc1e4472d27109b28;
0x22fce270c4b0961c89d92325c52c85141461e0994e04132d632ee19d9c51e556;
0x15cfedfe30848fa55432b62e7791109698a457ecd5469ecaeddb9f083f66590f;
0x3343e9088cfc374b61b75ad600de6236aacc4769e5ee8b9aec9f07bd0969f51;
0x233d73ed21179810ccace1227dc72f2f8c80ddb446861d6e833a29c4084d44b7;
0x20c8fd20ca1ef20c39e6c99478f2bde9c46dbbc0afa8c840ed93cb153fbc0be3;
0x696b187d4df08aaa80aaf272d12f72352f6be2e67568dc45b9b22df83b4c672;
0x26242eaea95d43830574a5378f27299753c7907135c9350cc0afa30c1873c429;
0x2db7e74c58283b55cf6be1fe422fb2f2523020e04549b7cb88815694bdc078ca;
0x1c3db6fc9f3fab8d9e62d048cb1a820bea78c43a71f202f779b8996a1559d821;
0x14eaa8042ada3a2a7d247d46b7cc0138b9fd124674823942d207c7c6a330d395;
0x7de2b61b5d7796c55c6c9cf4808569d61c78671f7484453d201d29cbe419aa4;
0x1db38a0c262bf63e0aa7929777ac0914eda83aab24aa47d84e60ac4ff18bfc4d;
0x2f2c6dc0cbcc26d091d95038e04a2886fbe8f4b368a738beeb995255fff09df9;
0xcc224d62b63572de577993e48205d0a7f574cf32add5cbe518e55163cf540c7;
0xf301c14380b822e1f0319cd575d63e603ec8666f361b500d1d6c28494c309a6;
0x2e5cbdd4c1599557d596522efbd078c8e2f9deca7503fa533ea5230b622e7a9c;
0x2b7b5611c6e8b5f05fe9fd010bda63b3d6bec1a90dd4e4d95da40bb720503d53;
0xac828155aa6627ebf486d5491bac13c32b61cecb4d3178cd4701369c2740155;
0x1946be8c11cae21fdd176eafd23fd635352031a5df260edc493c820fe05b00c3;
0x19f2dfcfbf6dfb65a8051d60ccc08795e63fa53e3a4acf89b85259e6f85f0030;
0xfe752a9169dff4e402c76a809563f0d83c6e26d9ed3ab2a3b0e4070ee7baa4e;
0xe30a774c353a2cbf244d3d014d1a0e5ff0bac5e242673ae33f1bb2030feff68;
0x275833d56c1035de1383b7eb6759e6971286af950f5b5b98ceb2a2a9fc52f45b;
0x2c02e7a87debeb5cacd4f9c776b5999b8216f0621e87720a8f672ffd3051198f;
0x3a6f6d6dbbd957561e33bff1e7f97ce1b8bcbb97e5e363a58810cef7ee91851;
0x116fa8d34d5c67d290555db1263b34d2bb0ce83a89a81c5a0bd4110976efda34;
0x1e81d2d2d04f5cc16db99fdb340df3e85d75e9c305b541d2d933f8b808b6e075;
0x284898f56dcde9b85983aabb51a7324472955b62538c8c6fbe554080a871497c;
0x1ff3a909f501d15420e9efb7f8071c0f4c55649d5e0f81a4de0fe31bc4e694a9;
0x47be1a9fcf3bc7845474b57d44fb1218bde905cfa1da8c052a9614280bd9cdc;
0x2a3787a31e5611ca3856cc840fad2b0a07bbfb4172859fa6fe527b7e0d5b35d9;
0x2eb3bf4b3a98c7da655259991393cf7b87eb9f4908c475f00facfc5572c885b2;
0x26aa5f863ce3498db1f5b71c96457cf97232cff235365a2a1091b6a85fc94d6d;
0x19a6bc7f148d056a10ed1610f5f9b22a827ba85e51144c0414400ff4d2e91edf;
0x196f5c78726e289ecfca7a2d2f6f2a5e82f51df54cd54d4ced1627b9e7f30a72;
0x1118c048d3dead019a262810944ef9fe5fa017f472d5cbe8d27b7ffd2041db4d;
0x4c7b810ff3f0ded46f2d4cf346e22e402a529d4793314a3bc85f963a6bb428;
0x2e843295db044df4ab207a6c7aae26693f37a5e5765663f22c6809e22fa0ed24;
0x17cbf9e9e90196672fcf0d0530c0a02ddf4879954bccd82f75bfefb4833842e8;
0x27ea08561c8d05998b53f428166ca0a25ceccde43a9ca8bd275b4f7c537eee18;
0x3491984564105af9bbe74e7d14e96eea58d73c39727a8ae616bdccb8a2451f8;
0x287011118b922300780d5ba09878c898c662b7d5bcc838fdd8750170b643eeaf;
0x19af1b66a5d2c6e5a4c34856b37a5a2aa1992546461d6cb65190f74d731e7b82;
0x438f8d1a68e04ded124f370274324e9db5b35c0114b3d5e19fbea7d867e1b5c;
0x1b7df25e02c2d88bafb19b2f9725a3ddac024746f30b4b0232518d3d4b8e9f1c;
0x2fca63f9577b3f88ce614fdf17473f7d033bd30f104931fac24fb3878cbbe2bc;
0x1a782b1c4732869014b1ef8926206360460ee6e9b7541f5eb0bea1a0ef184db4;
0x16bcba1157829125674fa67f49a62a3da742c2639c62cab43c92362c29c8c186;
0xe30a774c353a2cbf244d3d014d1a0e5ff0bac5e242673ae33f1bb2030feff68;
0xfaa456a4f334a6d64ec7443330027c0f6fdc3d0232029ec5e0b7299ea372295;
0x21ae168025d871601564cb94712b6fd70efc57a75bd794f96e09556ac9fa499f;
0x2659b387d06b87d28b97c58326d60f8a8e9e20956925cb774f4fb99cb0fc7bf2;
0x6ecd6537384d3f96bcfd794a53b1cb3d4ac7574d23c753e20185ac05641a510;
0x2c47b359757b6aadaf39168580ca135268ee4030f857e83079409db9f61a7a88;
0x2e3c4551ba4ea1bd2f3bb46f4b411ca86accc38c54777867e6b6de8b6381e60f;
0x1aaa42d6777c0cccdf6dd9c4628cfb4f9091c8c4e19b218d13c5ce8d41b02747;
0x101d7175ecd398cf6b5e339400ed17866953ffde1fd49caf2327ae39ea805e2e;
0x47aac02ad51c60e7b013d7e76e0219a33395d4103c62d76426b97fb8a720bdb;
0x2159734df6ba0ebfcbdb4412f5e985870f836d55eac7278057bdb5fa002139a6;
0x12c80a7f80bc5789e17e76a5323cc6e879e26b2eec7f70adc14e91a679d715fc;
0xb37ff835c21aa08cf5e82063ef6dec2dfeddcc987e7fe222a78bc9827c797ad;
0x136a6d023c29c33b1812073bf0cf9fb61603ad40ddeb3cadf8f202598cb3f7db;
0xbdbf9722d2aed63d0059307617c47ac2688d9d01a8bb20f4a61b95252dd7b32;
0x1d90c4f4c52e4c8157ec6ecb3fe1a70937ac8c365100935c3ec4c359137d468d;
0x25d8cfba9177d817bfe2db087ca7ff74f3a4ef92986c6e5cfdea5703affac237;
0x30562348197f23b21238c777e3d7f366cc9e69e796cb218281b210ac3f1a142;
0x2e6b5b67a5f7449b426e3fd32efe3df98af0bfad5006d6370b574b40c645c1e0;
0x60c72ab89831fbcfd1084cd3dc94aa8f69794540671bee622d6837d41add442;
0x949047c842cce9e422d779c80fa13ecf5aca5859086ae9c3759cd3b02d7476b;
0x8c9031e3f9fcc8fef60f82e8026db19bdbb5113c77a4c06fa4af3dd7bdaeb45;
0x2850905ce0c275e427478ffb5bf44685dd95cf1f57056bc19108d6c85c3e7cd2;
0xc76f19ff9f52168d20cb4f0cc0d10bce93d28b3acd6d479ea38b8a96f944455;
0xb66fa2f9d2feda710dca114c22cabeaf616c70ed2bb793a7eaa328ea1ca3c99;
0x6198754cf90bc048b64a8e925c41c9298890c946aba20953090e05e55e768ca;
0xc637cab8864b9bff868591c6bd14424892702a1d3e654037d0625b258126c6b;
0xe30a774c353a2cbf244d3d014d1a0e5ff0bac5e242673ae33f1bb2030feff68;
0x21325a5b2ae982ee23a4c911b190b63005919d1ace55a101818397c73be72f7a;
0x48d6872b84e860e934e439b065e7a162d5705b576d4fc14c47535d9e08bec23;
0xde725e2f88af9c238e880d725e71d8a1d79c4be4421fd9529cbda976462ed81;
0x27eb4b06d352a3404e16264a0fb08537ddcac2add0782481c2e7735d7ef1803;
0x1b47254e3cdd4412e01829f03e74fbfcaf9f882b745358294012761106a0955a;
0x1b4332f4bc0f47d8728dac5d12fe99070a53ab0ed1462c6add9ba42c2323f755;
0x218d22d5f13b09ace89e377cd7e02d3b52b74a1285072d62540842686f728ae5;
0x68ad6997a9ced270daca95813e82527f7e6a4d5cc4911c7e0fdde7a1a062d03;
0x67a187bc1e0d1740ebc7f7343397b235ce0034bd6f6fdbe43fc50394edd65cd;
0x26d27d9b4d504feb1adc50f40bc7171e56e9cc7b17086d68ac09bd337ab9a756;
0x6e901afc5dc879d75ef7d324c7b7c8cb8772f7948829dbd2293ab032a9ce962;
0x14c8e19997ea7bb4131f9765ed587425a2fe5f91aa4f4c918201e74110bc7526;
0x273abe5cd98541349618c993b7192c978fb02fc236bd40dc3a4a4f61dbce96fc;
0x715d346135f3b13f84a62b794f2d00bc19cab24d35d168d1f95429d8856e296;
0x2b9bcfa6deb252ccf6a2550e198f21b5fe0800fd3af70329500481a1f472f174;
0x239f7dc3817df74d0e93174b1564fbdb7e4010b69b32ad0618a169748e496c9c;
0x21978d48e2d9c7b097fd4d0cb72c238855c33bc79834ef7b08405b1b6a25b3f6;
0x269c70c27b7564c9d24a631fd3604d4238528e20b010912916e2c1927df5b950;
0x2c583dc96a0a9dc9f9efaac1de85327f007597a5e812fd564df9e490b5dd8f68;
0x121e4187606e3b3382106069e0d56de26dddd453c81d009647a9cb5f48418094;
0xbeeab0c615c4acfb17eb9f8dd647bf03917e1169c9c38d0f397c10e9dad80ee;
0x1e07049aefd34f62eb9b702cdd93e84e4f5bc2bf88ac583ee4c8f7f358638c3b;
0x59c6422f0c9d34dc813948bfdbd3d525a5050122abaa725261b21794a4bb03f;
0xada60827cce301bb3aba3c0dbc1a32d14cf5723ab4a85abd48baa37b85b318a;
0x10370b82fad9fa38906fc9afd3d2103760b279a5a79803039ac6d7b47fbfb080;
0x22b53d470c374ee90f3477d1bb36a57a7cd3e39305dbf4895d1a38df65828962;
0xe30a774c353a2cbf244d3d014d1a0e5ff0bac5e242673ae33f1bb2030feff68;
0x121bac144ebf731b7e106308001501b5aba39256622dc16b6832959ef32d6a8d;
0x2ce538366c9cee7a91c93252cb96b7c42b4e4b26a6be57c1e5448524e5acf376;
0xe1eb214d4443a823686062d4f44fbecbe3cac0513ec37dc6969a24a5c2f34ea;
0x2b10f3aa519015cb9f2d8e03efc3e54d82cdaa8825760f40856158eea75583de;
0x13dcdc97aaf8d23d666426b008a02be78565ea485fc5b3175f2a36d3c6589a4a;
0x1e179f5a8d8cf761188a1af7f3aabfd0c6586a3ba2da4ac2e609406494d8b04d;
0x26350c1076435ab7615ef9103dbd8224d3780d72055c5bf265bd8f5bc459c5cd;
0x2569aad1663fbf0c512be5d7549b856f5058b8d9254ba788ab4b67f957703dd6;
0x21d296071bb18ffc608d41b9284b25f99e896f90b73c4b6ebc6c7e845dd2756b;
0x3403ad2e4edbad53108b19db3580bbeb575989bf763939ace10bf3ac11ac946;
0x2e87a068e7e10cd0a27806e4eb87fc4a909b75602e7ef4d9b49732d30f8f68b2;
0xfecb01322ccd429e5afeee9ec8f3888c528252874e09ee6c82110bc67e1133d;
0x21b1a2e21480c8623fbf9fec55cda799a152e941e99d0d6426d24666ecd9a7ed;
0x10787afe51951f551c5ea3de6eecc8c08adae2debcf2c0add7a578db5db669a;
0x129a75842ce7f380f4adce069972a00aa0550841e41ad2f46d1665177576f052;
0x33844a0d5987a19e66c014e83db7c903b6aa7baff5cae3ec6f2e7f9870a7102;
0x2af0d00127c68081dd29a5c0858f6bb0d20d0e8c8c1fa50d0d539436a66b4950;
0x2452bc4a8de2db1f282d2d8063ab568d11cf00ddd0ccfb165523b0e7199b4278;
0x7053595c4f99205b79bf985336e456422650f494c2f79670c0d34257ec689f1;
0x1bad1a52d292401b1a8335df15429443cd8dc8c5e856e185b8c5f9d0c9bd2a24;
0x24635b7d3ad41a5bc44a3a17d80a7818355ff8f18379004e5344a7b1713a31b7;
0x2e7876129f03a5f90702ccaaa35e3d3c2709756360421113997cfdfb1ed927be;
0x1f6028d50d8a7ee644320cef9612807c7ef8fe40223751dbf8f791ac516fa897;
0x771c9d46f602c613a689a8334d46e0e5cd1d214a4831ebbc53525ab2d80e5bc;
0x269f052ff6df5ae60f76c891df96d8e4a23e80371c82349ef960088ef64b141e;
0x2961710040a2b2d6ac5101cb03a28f3bc2fe649baa6efc5100592077f15de362;
0xe30a774c353a2cbf244d3d014d1a0e5ff0bac5e242673ae33f1bb2030feff68;
0x10740ce6766bd5d45ef53a0b79f688c0c9a075938902c676cefec8a82c3da53b;
0x27f3dbcb60ac79ca5eeba26c3971c64600543857b0d7a6019b292df5d6084e02;
0x21093160140db2a25e4a17cc7600123cee22ba57790926c04610b8c95f1fd186;
0x891be8d562bb6feb60c7571f367d6048c3b083b2adb097a27e62e336cb27a47;
0x2ffb17d674958fcb7a8da2d38554bc5571c6efebc77e89514688212c68d50a1f;
0x94c68828cd769c940b27f645dba1922d26898c64fef55d5638fd6e1d357b75;
0xd55cbcf35eb4b2a41cab995bd1b90571e4a87677a90e62793f6073343e798f0;
0x18e91bc3e095f9b687fe66cfdbbf8c234c27af317f13fc27707d271e871e7061;
0xec0612f29bc32d89f73f7f0926fe0b3f3587dd7eed49c772b3aef2c5d41019;
0xccf5311099aecc81a34b567999eb4c663d907a8bf4b22c2f2ab63a324ac3451;
0x183ffbe622900edf9b6a8021ab80db00676f619dbc1732dcc8fad67128772d26;
0x8f4331aefe28fb6f009e17ff632db3505b18ffaa61c6b0d341fe0b6387ce2bf;
0x9eb7f33498704db8dff1c8777ff539d1ded2bd207fae4bb7465c375b8747161;
0xa531199830d7120018b3039c7afa9a084d529d930f865c38fadcdc40bb008e5;
0x194b3cf28d7b62413f9b837b687bbb4804733c8e174e76bed846f92068c066f1;
0x1b8604e1486a35ebe8e6b900127d0dbb54dc8aaca97a4eb0c8956773035f3ef6;
0x9b8de36766da341c7e0b810a53903be22879912b707e1f3f752e6f079ade75c;
0x1a435eb920d2b84fe3c0b803ca2cf85a6721d31f21778706d4a87a923ad0ac35;
0x2566d9e893c2afd892f4702accbcbb979c7cceb980d234de549a3c6c34bdaf59;
0x18df8272b0340557ca8fa98dc6e75c6d788484702d389f13fb82bb09dd5edb19;
0x20b183f7293c68cc2324f01a2693d3edacf0c28691685520cb6c1ff79f25bb29;
0x128c7a2624a1bc92093ebab7ea53e0d5d53b059e21004b19cb0d2bb3dba74f31;
0x40287c11b5a3f980d59ec06db46c6fa3b54e9d4fe0f474ca15a7aad1ad0ec1;
0x21d7fa42bc56b52d557e34b091518d6a694595207a099c718b87b6f216ffcd7f;
0x169dc2796511017c3e4ebefbe57d6f93194a77513fda84ef7457afbada8a5d58;
0x1d74ad732a1dc804b9584e557a9c18c0b497200e0d27312bd2432691470566cc;
0xe30a774c353a2cbf244d3d014d1a0e5ff0bac5e242673ae33f1bb2030feff68;
0x2aca8e251964d1a3261f98ec83cb17d611d17f5758aeb8b34a8121121f7eec67;
0x12e284f43dd76a9f1751d11335d43514ef963ffdf2036171cdfd4f47c99eb5b3;
0x5071e18392facabeab0a39fea36c393572e98073e18330d9c4c7e654572065e;
0x260d7455c8470a5ca5cb7a63c39b0d1fcca3eb1029d2994c5f2c19a39086eae7;
0x1cf8584e37677b19fb7a05446448d550fe72a4fc79c92e93e7576f101dd05099;
0x2d19dba2b7658adf60d8840e9c7b115fc37503198335c9050470ca3c098cafce;
0xd98ea1ad72116cea32da96c74565bdb292b6f62671c5cc9de0904e1ac8a3918;
0x24ac021320aa1f1addee655d4feaf537e470915474a285ab11b80fd166a20cf0;
0x216feb63069f6947beb294a1c7240b202d132ae945f7cb81368a2c79223d1131;
0x20ecca83ee5156e6092763d78973859dab5cbf438b6782f4d4727f07e7951bb;
0x1e632a42fc326036c1f3313f372803cf8912d762b3026cb4b868ffbec464da38;
0x2e652d54941af14d90b4347529d6e8734e184f48c5827373e35e96a0441d56b1;
0x251ff531befaaafc6933e195e6327a853e70f7956ea16f99bae74ce703e13eee;
0x12ac47acb9b712578207e429b989e017e010e2f8e513e5fdca0d5d70cf69cfa2;
0xcccf17e0d61b8413ac667303d31b27e5bbdbe2de4fb79272fd26a96a6033c00;
0x20f2060a29ea58ae11aed61e371eeaedf8c49f7d2d310a20daa4b08742a9c195;
0x1cb9f0d68dd3c14610ff690400ac156b0f88ddb3496842a82976bec878c1fcd0;
0x1e75fd54061e8660fb82a6f24ca385580d37c17fc731ecb67aae86ddcbd2c363;
0x2d29ebc4f807741c6975700aac34dd02857b9ca3f389a34d281aee269e9509da;
0x1871cf71711f4036a0104f07506e2211c40ed44327c7e19acbc2400345eb7bbf;
0x630b7ea40ac6a040959e71933395a414a78ef993f03d2306233b0aaffe4a814;
0x1ea87ac112d60f22961d5b2da26c0a06bd4dc1e73788a388ca3bee772cc78e7f;
0x26a7a6c245da9cf530f87c9b20ed86af369087bde004bb6dc3eee8b32882c7cf;
0x1adf5a028ce2b8a0787eca43ebcf427dce7bb7b3ac19fe0a8c0b7016afb25e6c;
0x5e2e3348c9fb090e628aa40101db8b4f46b6adfc7d31fa82e1f6c9fe5b55a1d;
0x81d87bc2e14f185b9c19f4cec48fa501d99c70a2bc881ccd6ec4f6e677721aa;
0xe30a774c353a2cbf244d3d014d1a0e5ff0bac5e242673ae33f1bb2030feff68;
0x2a7ab507906adcb6522c043a1b2cb2f221e5470822f048220ba731b3933f3212;
0x1e0791ec0c83cd1f3a0007ff027dd589fb0866c6257c181d293cfb70b62abe59;
0x19ad62da7c5d8766ef927edd0f7fbd997d0e6c6555a6c38fdbee7f5299b26d8c;
0x1cf518d282e00b1894f86c42ccaa292dd208bd0d3576ecd1cb1c45d426f660cc;
0x86e5c668f2c7540e65a379bb9738416e1f43e0b41619cdc040c321aa89db7c7;
0x2bcd694a683fb621601f2a5f0f900f6bab1f4291d65bb8c26537029484b38496;
0x2b6f0a65bade0adb23efce9c6e3629a07cefca2718b3949029362c6da4baebaa;
0x12b25f49fb1cd92da7fe1fdfdbcf0ab1d715ee92ae7e2c0b2a60b8f4106abbfd;
0x797c7a863ba81aa2acc620e089ac0afe2f713e46fe4d52ccc637953a4ac2f02;
0x113166107727b2ccd9e2bde6285860c912a318ff3cbe1cca006973f444238f17;
0x29d8beab8a793123bdb47e3bd56d6e0d6e4c9d957b38d6ac7ca7d53a30fdc94c;
0x68f99bd269ec2bcca30a5c05afd5136feb63a3315e05dadb2acad3caad1c7b0;
0x1d8a2e95f5012b9744d33e3db84253261797fadda47ae08eebd349753511d342;
0x26a6dfcbfcd2a98fa147bd0b18f3e4f66e1f1a329a168e3a61336e4da3bb8f80;
0x1d5bdb15bbcfd215d8caa665e9687c2d8add0b51cf54c5226ed9b89866f767c5;
0x2bea457b568fc29ac1a23ff4322caed5463a9cd648769e8a1a118aae84df1309;
0x1dbe7419ee59dd580a0ab4305440a57fb651830f979f8d21656ff28b1590ce4d;
0x17ab1d55da8ff17391ba874c4b6e52c77dfd316a0cd9566d1e28c5dc9308d309;
0x4a3a0d0f9e1b091bdd336acd117c4ede9d64621c6b2ea4f07726e065f17e2cb;
0x2634ad4e91d1f63da6e2534c1161abec660d92371ed85e8f0e39aa91523b9e60;
0x1afec968060a10697a3889bf3456a23a4e98c3781d0ee88e29334b14cf7614c1;
0x23a5fd23ec8919d62176ff3954f983577d5ea821cee695387f096c7fbb93808f;
0x283039c47dab36071299505922ebc21482295f95632d17c49fb8f07e382641ff;
0x1a0084bc1b3e951aeb3dc6388708f8ebb52247527a393209664d43a1812e13;
0x16fdfa540f269b40f27696610cac06faa7eba7d87542dfa42d28d3f453a70622;
0x638bad28fc8427c2349d2930b08631be095bf0c03572131f3a8132f38f4c0a8;
0xe30a774c353a2cbf244d3d014d1a0e5ff0bac5e242673ae33f1bb2030feff68;
0x2b960b4aa6bdb5968fd27106ed926399bf40c9ef7a0abce38158191156d94b47;
0x21ee2ffd320737215ba399d91f5287b56286e5f286441b29e7f4950f2a108d82;
0x1a912af8a3a82ac944bc34390ad7af703d1e4a8f32996ea0eca203709bd526c4;
0x1e2d77fe49d12a919d8ee0b0bdc15475f9d3d5dda831b098a921ef8547542ab2;
0x1e461b0bfa65838c31b66e8973fd153308af46e6563e523b4c97bad304ce6bce;
0x1222b1bba586c324581ddde55054315ea378754416b7b74406a44d90468839d3;
0x231cb90d301a6e6e3f6c47a07a3f262f14370bda5a9844a4c128076b5fdde8ac;
0xe3e66e543fb59290a8d57f5fda43c4b74b235e00adf1e1440859d8f252fde19;
0x1bcae3acb52de61f2f907f6fc16c142016e053640c8ad9b4e3baecff97b2c13d;
0x2a2e7e286f90e3554ac96ed8f80267a3bd9f747d787fb2533bb98f465931f724;
0x1729e7b06ac26c624dc5c6cc6d761f94d93875ca170cd57f87cff909e922223d;
0x9565b3ec6e63401bcd15d12f12d8c805ec5c8936c2223ca4dd510a57afb12c1;
0x1ade0fa28ee13df4d382a505b3893baf5b4568bcce7121b5d48d29567da13a9e;
0x2301dc6a1236420c051aaf16a095e77aa88f23f63cb30b410a323ba77f21f7f0;
0x158c6a01fb01f542f7dd93ddf2ba1771d726cfaa7c39ba5260a5f6bbbce3b9de;
0x2757b9eec4cb27d4e4274cca6e00289f2d12e987465c267b1fa104b02932a84b;
0x3043d8b0cdac25b084aeab7475766326ccfd15758870a4b47a8783f73f5e4f36;
0x1a1739fefe6488c79c6c32818ff62a65afdefb9dc62a23bcb3d46428cae5cd88;
0x56f91cf9e2444d0d477c13c994388d88a2d8e1b88d6080b5a415a53117643ca;
0x28c8f42ca93036c7226451ee7ae0c1a7b87b0c560de7b11350dc7f74e4ae51e6;
0x18dcb540315a43872fc246fe3f6779a237c61ef5527e87a400b24b3eda058469;
0x1ba374f70de60473f60fb7452d42c59f4748debdd345afdcf94d09305b601a3d;
0x1b40af6c2e106fd4756b548837d64bcf6dbfb9d9380e1a70e010769efc2281ba;
0x2578f4a6e3dbbf2ccc5e1837b4038327925cffd00f96e8d2fdac677f2b0faa3d;
0x2ea53ec4f2f8900d39df68853f2ae9e969819d33bbe6ab9686e1185c37933660;
0x1cb7cd707a851d764b7c3d2da544afa59cb87f6ae19971eef7f403342c205aea;
0xe30a774c353a2cbf244d3d014d1a0e5ff0bac5e242673ae33f1bb2030feff68;
0x6bd8c397b1e2d8e3b0d32ef2594a311d49a259567ae4c635582de9cd15689bf;
0x291adb6944892dabcf5217145ff77361815e58600ea6248b0c0069802557ddad;
0x96477873e56e5691171631e4eb74c7d2f9b2806b4f0e45508220739587a890e;
0x1ff4f6ed8be43e079ad849d03ff3147fd6b1fc0db8c1b8477d65c096d4b25a48;
0x9e5e4056e55464d9d5e6ecdf7127667de411a716e88014861d5436cffeabcb7;
0xa73b0495d174fe15185e4bc010a545402736752585288200ea5922c5f8d29a6;
0x108e0279556e28f04c5570a6274d115d4b3b1bffd7fbcc289cebae7053f40427;
0x20d97451d83aecfb5c0f6cded427ddd517ada729de160d4ebe2429dba9d28a53;
0x2d8a77024da1f633ae52a6cf17898c5b908f50ae49fdbe65b4662853337cc919;
0x10571ff92352d4e69df05c3cdc65c0e52747e03f86476850a47f092bc272b263;
0x18f7cada1c661e5f8f2074f16e72baaa705c2ce42b68e16fdb4d6945a33054e8;
0x786ff337450d3614fc75c4d314a61395b71473e735332d78a7aeb270443cb93;
0xcefe88f60cb9a382d5eeded9e7bacac15e7c906dead35cec09ee6e6d0016b3d;
0xf163a2012b2484e1de36b5991e59ab0ffd4a531574f6c72382fe92576ce82e8;
0x63dc4f07d9f069d06a30e7c5a96830d2731ca8165abd9ed89d187753f29c682;
0x71a3293473c1dcd0ccd5a08dec6a321265ac88dac53eea581264663e1dff0d7;
0x41b8d2a056f60d8d3ce5e3780a341b97592920b170625c1a69f2a23e1290268;
0x2deddd6775308aa027b3449357f8abb6a6d10e11cc3a14d0feff23e3a8597ff4;
0xac050f54534015c810863a63b7354a35fe52279ce4b7a142b48f5502702a4f9;
0x215bca7ae4832c5946f9ad54abc0b3e7c547f8a5a962e4df85d0b82dce914799;
0x1efcb27d3c098f574e7fd799e2a585ccf54a59147400ce00c86da0ae0ce90684;
0x24ddc6ad9a48856da363007a1923d1106affa889e44ffa7959bf41edba382efb;
0x2ef8e41f289aa4c64244554413eb515b9759a6b5ed9e2562d1a674267171650c;
0x2f1c219c4d272380eb411db7ef93f6e692eca339fa507b656e0d532801c0e205;
0x5f18c83d3464488a90182139c312e753a60ca4499e3c2c13f7c2e72fbf47395;
0x179165ec0d175758f57172f5a9f7d1ce6e435a4a1351d77139b92c6ebec86da;
0xe30a774c353a2cbf244d3d014d1a0e5ff0bac5e242673ae33f1bb2030feff68;
0x11c208a0495e0e7c3e473f98dd1e8c61b27b44de88dae7850122421cda7cfbe1;
0x297f95f2fbd4565360712a71bf3c80b798b17dfac6c54d884d99f3aa7d673dc8;
0x224ceefcf32d746010d8069e79d356d69671e3aa9403f39892e5882a1891e718;
0x2732b23001c43c62c459cf0a1f48790deedbdc489a6372138594a5a74e5f85ef;
0xcffe59dbecf21803d789c62b67f94bb027de571a963be229c54c84ab106f9f1;
0x29b8feb4a9a3585ec376063cff8e0f5a4292f37f7a4b7b1ff228f03f5fac0510;
0x26a0c0e60a2ffa10be7d6b2c878312de74cc43fcc7f9eba49e05fcfcaa3a8b90;
0x2e570656db41e2f88c3de3c09d68baba727e76e3511dd4d1291443db29aa5f70;
0x12bb58e4672200ef2816a8237dfcdf70a9fb07b2ddc8789b748d0b559b7cbb78;
0x216e369c8afad59e15e88e3ffdfbb1e137e9b314785632ad2c7c81bab01a77dd;
0x2279e39d7921b8e04b6f36503059b1bf2ed79a3b94f15af97b9720bff85ac25a;
0x60564813a0ce62e4ac21a85ba36fe359b53e84244f908b866568084e31c4afd;
0x2268a405631dae60e8eac4f408fbd5268b40b1c254970e3c22eab22fb8ecc554;
0x300263f7d8a2567496a37ab94c57e2015442257c062ecad9d8412f6c6ddc0089;
0x1963bc7aa03a152df1eb518cd9588bd04f3fd21a318314fe0e54c1f369be3c0e;
0x136b67c2b78e28a9c5276c6fedd9afad286d344700fac868de5548c404abee95;
0x29a329f4a94c6c6c9fc81e8cd90f7f1c9e5f6c89875a280dd9ea0b4b90b8ad2f;
0xc3d92aec4b647cb21e6f0ebb98ef3c65c3450672ce4694f49f39919ce6da1df;
0x2f5235ceb5912869936811f841c3ee0f648bafc9edebcba4aad0168d03f9b52;
0x63a760609f24b3692d205c9b3bebfe088c215877de8d79deaa84dff83abb2cb;
0x1965360730aaa2fb621c470e9042cf5db28c4824575c994b255c92b02d0b6524;
0x1838e4b596dc759d6a97b0b763d959bdffc4ba10f84ab4b1c4c71d50a924d179;
0x258cf09bdda431facd55b62aa65712248056e3edd9428b010a809ec78c41ac86;
0x1e587e52329f0a29bf3db7337442690422a9722e228dec682be39df28b3bf14a;
0x120effe3050205b3ed1c06aa186bcacbe860b61e77bd06b9b71e78a710a09500;
0x18213dc619ab928f68d5aac28df923f90282b6ec64d5ac376880d31fa3bc1d5a;
0xe30a774c353a2cbf244d3d014d1a0e5ff0bac5e242673ae33f1bb2030feff68;
0x1f02f7e2e07843a88bcaa2797d91edf88cbd70ad743e938e35396628fff818c5;
0xdc5a85d95f105d8e4b18eded697c62a032136374296ea9b14f54cb0ecadb9ee;
0x219b60e6d5a22578775e83f4474206559204025913238a98fe09297e6c473c8f;
0x435530e014db11e2bfcd58362982d8a33e222783a5bd6db56bbd327cc5237d7;
0x28c1ffc5c10600c0dc9dc3d193bc58552b235922bdf46161b6f8c4cb5a6cea5f;
0x1bf7a2f7bf358cd12302582a3b02600994fce154fffc218ae6442bb46026f98a;
0x179d43fb87170d3d97f4a0166d1663da78664d328cadb544dbf5d6c5d611de99;
0x8cabf5f7d8a6d458bb6576754fba5a716ae9e484a668217adced3296b7cccc1;
0x177be1eacf22f916417a28651e18d379eb44e5c2000e329c1d3c8df516c1194e;
0xa5fae0f09f85d5ab6b22833947da6cba0daa2a9671ade494b7f9d8367394987;
0x28df87b43e795b370762f1d3f9dc2685e91bbb7a6854acc152f705c89db4938d;
0x58de2c0fe8e6f09f1b853dac8eaa473e4f6f80fc20e0f4190875d94cada6ecc;
0x1ba657cd2bdb97e5d24bdadfe5cc11a7543f54c18e65039c0e616e138de5e368;
0xea5b3a4116ce4ad61e32cfbf9662a60c542aac16016d551149c76700ecc44f7;
0x2c219d3a2b0e433c1ff243db27a237fe15c733edf0f0084d7a5ba40123fb7361;
0x19ad974a2285cbd14d04045c6414f199a891524b798cf1e3d692b742cd6d89f6;
0x2c7d9c944d792ce4b7535207891386b722458c54fbd627ba39521ab9cbc1ebc7;
0x2e71a3a451566f8919a27edb83647652520bc5b920531fcdcb2859a5ec77bf73;
0x6a4b1b530cc5e64e84e725629950bd7644f65e7223dfd4986161de535cee83b;
0xf55042c0a72b5b62d2107153b60482981bda1190bc8b8ce4e30ad101fac7464;
0x20378dc7686d64b35b84440493ca10a587a5505169d380fc5c5f4a9ee803fc11;
0x26c526f859170915382b65592aa1957e73f3145c970cd7c891dc86b7d3cd41b3;
0x194c4e5ab7214877317adfd216f34310e5bc07da13b67139dec08cc25bf2a052;
0x29e0d646063e27cfaf0e4ffc0546f1b309333958e0ecaa3632bb9fbdcd0388aa;
0x121b4451014b6382209a13bb0fd2727e59f0702a081fd34e04c8ddeb87d349fd;
0x3018ea843d3f3f525b9f96b6c6c07e5c86d4a113d183cf66141aa80960048ef7;
0xe30a774c353a2cbf244d3d014d1a0e5ff0bac5e242673ae33f1bb2030feff68;
0x26a889065a9131ee8541587286f27b8ab978d106cf21e7cba567839eb83cf5c7;
0x12f2322938e02f96227e539152719a6fa62147cf82937a0c980eb011c62b01d6;
0x2a7052a220aa258284d8bcb1e0646c0266349044ca3c17bd0bb628ec5422a75b;
0x1e01d825bd60d76a2040b5de5e43b90d1bfbb0876dabf550baa3a5dd47ad62d7;
0x3002ff6560000420d0de98e87d335432be4a58ff3eea053d2d332354cbc22da9;
0x3d28736a2952e396f2de28f3a567902027214706657773431d54cd10c0a0464;
0x27716d5bd3e14b61afb8d6ba91b27739f9075ff2630b19c6c2c26c5d5496e195;
0x13cde7afb44e0f9b6db2793a51226e40aee9d5e7fc75ed7c663fc2d06e9b8526;
0x503aae89801bbfc5f702f60ffa566477a634dc17aff8f9747d1fd1fbb3cd336;
0x1ea910a5da3ba8d8a39930b38b64ffce7616fc9c8bc7fc1fdcf12b650d04089c;
0xeb1ff569a325e123ede757ea250df5f41f75dd2b75c6532ab96dfe64cf7f3e2;
0x16cc1752c575ce984729208e79714c336bc3224f951fd6cd0b82a2ac4d43f892;
0x2653378743d2eea387c330a375bb80e67878a9740fc2425a36315206a140175a;
0x175b14e3bd393d825ff9560dc4ee5834c69beaceb5f8580156ef162c6d36369b;
0x162b65eff59b3bc39a2ddc923c77da7a17dfe79b7557b8383367922fdd8aa5e6;
0x297d9796101df9152043297c780dd5137e6bb2d9a25a8fa92187b5de2399affc;
0x292db1438ce4bced35048fa12b049bfa359709bca7dc314c937f0514679f0d24;
0x19c2715e87c332adbcd530ce981d8704f0a207e822f190baab421d4d03d24bd9;
0x139bf2e121b6694f773a58f70956cb782a37e4949e482d87dc820b034ffd0f28;
0x281e06a2a3e9c7ad29265b2ef8c1f4814adc59e5b3b605a05c3cce8a59e321d3;
0xbaa4181dbff92f83386e95c6cae0c8efa07f0cd6e822bd3769e4ae8c64e7d9f;
0x2288cd08659c856e697d93558197d16c03fac590096ede68e959636d09956d9f;
0x2af86b3b3cafb3ace42a0cba5c99dcce7b0fc35313b2edddf0401bc029373c1d;
0x173806fe4b0512b715cb7e3cc8679d3a7a4c2b7174e8cd710574b3c142b8197d;
0x25b66da637a8d92f088d8faecf034ab77e2b2c3f88fce5c560922f648eef960d;
0x12f5922b95ad36bc7a81c2fe8ffc729342bd3aeb1555969590bf2248d70a3e91;
0xe30a774c353a2cbf244d3d014d1a0e5ff0bac5e242673ae33f1bb2030feff68;
0x170bcf0294ae4059d95f36684abb4fc2cd0369a67be4bb919fe185aa39467569;
0x17d247983fbaecafd39c9dbb1fc2633ee7ccf02383978abe8bba05e7bf498144;
0x275c74ba59d68ebd78d02ea7bfc087b17708544436bb5438b41b053072df4836;
0xb97a196195430ef69cf23dfd0906653e5808c3593449bf58c374242ef82bdc6;
0x25bf621be7fe04105e8a50b02ed9025840affde6bb3bbdd06df97f2fe9e02e38;
0x296928baa83c1016ead86e5c9011b134d5d24179b1970e68dc89794b73d024d0;
0x23e6fc3b8617b6b51f35d983c470a99546099a6361ee1626e6e44e5e3e2f7dbc;
0x1b9b57f457f685d54e7f7f332af4233d293106f56ac093a07c209205217108b6;
0x290f0ac712987d7956e8b4dbdd8b6706399adce9506e3373d229d45605637311;
0x262a3b6b3986c250d387fcb734cd914f5e8bb751b571fad1ff366a479e3e6538;
0x295b88ac50fee49245bfd9bd911734324c8d00abea718917a4dc6c21b3e507de;
0x2e7a6894330ce6d6478206619aff889fb1bbdcec80e6f09de69398f344a4f6e1;
0xc3bf1bb2ee94489afed3633b8ec12dbaa4b6a2003eac80e7f1668ff340bbefc;
0x2d61629d203317ea4449e200880be2ed8421aa6f2de73aaa56810fc304eeaae5;
0x1d94aec8d967eabceea3de4acbd2c3b19fee00212d2dece58d5ae53bfe6037b6;
0x2f76d72fd59722c377e315583f91b326ea792968fbe6bf73582aaf7af697d3dc;
0xd243da739e905f8b000912519379de3a3bad6de3c3aaf91cfd78f9735b0c1bd;
0xacfdf5f69c09506cb85199eacdba0b9b3c5a0fa1a60cf283877ff7efaf3bcf7;
0x44de47687196189473b125ea91ec1ceb1481f8f49fcd47becef1b01f4c9fe09;
0x27e155dea5a1134466a8e2ba58e2b03cad8c38c20716a7d3e78c483b019e79b0;
0x2860ac51f3e70148561d5c109abdb096225aaf9b7bbc17bd7aa31ad26e243e75;
0x1a33e054ae45916951f73826b9badc032ed3d0f3c21acc7dd18d46f268cd2a86;
0x237acb3608d9158738b6b37b6f6b287531d9683bbe16b463c946b752c089ab8;
0x9328966036d95ecd345f77dc984391d09732acf567d010b855e0422365c6209;
0x6a41ffd9721ef018d7e9e2d67b8d9820d6a80be401e1617e07b29b3c5f8e53a;
0x1bac3b3b9cd40ec41b542b47ff0dbda03997f88a37aa23de69d0d5113e5b448e;
0xe30a774c353a2cbf244d3d014d1a0e5ff0bac5e242673ae33f1bb2030feff68;
0x17dedb52641d9f9e688a673980bf47c462346d1d6731db6bbf0c27ccb2565173;
0xd947949f35e75c29a986ed662cf1e1d85c2e3f3a9489da6d7a6a6573bf3bdff;
0x2bdb20a8327ea3f509eea1f81865ac34f7e7c5dc43d516294a29c208cd0bac7e;
0x2fecb170873731d070ccec6d88733be3275e5be22a47cd294ad7247cd75247f6;
0x1183c981f815c35119fe4558a0aea9f533f9d7980195d96d75a80cb1fed40c02;
0x5fa320ab5dae365f8a114d10921a5fa13f79f44f18b57021a483eedc2c5bba8;
0x2b951512add2c708a010d1ca59bed166f3726cae5cb1525dd379156d810e6c2c;
0x11f646514881127c9f1067238c06a7ca39b9c1a0234eb1b8658c2bc70404578f;
0x72413e94aca278eeebaca63c7941b548147387d21578f97e58ec27198fd4e58;
0x2aace8cefc1be4d4175001aebebe91fc87a46a280be0a90886383ff2d561d7b7;
0x69e64230343d9ac3c6130b300cfa24cec6086c85a1aa1c8edd073a7d33adb2;
0x1ce84829e4e67cd9fd3bcc8d1169a15c731e06ba76c77ad60e84b045d5d731aa;
0x23b52a113ac4ea90a8330c189a63fe9520f2d73db94406abea72150ea2b7ea0e;
0x160218f2b7e2d22653b3ca12190f5538563aeb27ad8ac8f2f71943bbdb0c5928;
0x84c1a87e7fed6aa9c80f455dd132e06f897f43b6bc12f3f5ff56a4297eaa153;
0xcecba653fff37ab5fb266ae654c23b2cab83b0f7ba92c706a078b4de3221adc;
0x2ef80d5e15aba6b2652fef7e0419167f804f2cf713200eecf30682cd138781d1;
0x14bd930a77fef4cdf7d47bcb46ee6fa596c43e9dd40ba87a488c613d5968cb58;
0x1ced050594cb02e43a97cf4126a5dead21217e9b5dec28ffd803a381ada6dbc0;
0x2efdbbe781cc22b39fdc48af3424a354c48ceb17113136ec794a9b3319fc9429;
0x2070e4e04671601ccd0842cb7a374ff2b93838af86ae464f82ceae2f1539c1d8;
0x123741e7f63e77fa3e2d8abd9f222b23dbba1c14e8af53385cad56594f065e1e;
0x1b75035c35b201efc55a1d47aada8976f5fb0dc1da22482a6b61d33d555eceb6;
0x25d76dabc919ef40ebe597d4bae43fdbd2197e9b0f7b7dda83a1360295e9fcf6;
0x666b59c9ad666ed3fc9d1e9af97fcf7ab94ba3387573d8d31f03084f9e5c976;
0x654f99795543eefc6e1b1e646108896ea5161c9c9a5e174f2e1cb9093809b4c;
0xe30a774c353a2cbf244d3d014d1a0e5ff0bac5e242673ae33f1bb2030feff68;
0x2a4984518cf4d03a9b3598bdc254484a1805160612b943ff7b509637f12a70cc;
0x36731a2bdca86fe011dd7bde4043f89ca492084165aefa6ad9f74717ed54536;
0xf5fc4d1e67992e65abcde194f07cb07b72800a4f4a26e5020e96c5d4ae3a952;
0x20d02c9669942a2fda0de7a67b8c5cfca08b2e914f65652a71044ac9a09190be;
0x20b3c785c2072c1016dc316a7933ad541fffa7df2d289b32799e106dc4f9c1b4;
0x1007df7ccc98951aae782b87985756784a1444531492615315080e2c80a33131;
0x223a10997957b12816110049ac7b56d550cd7a5c0b47bebc1f8b35167189b2da;
0x358632186da4fff1765d4d688ccf425c333995bd7438240be0cce1428717270;
0x216b1f88bf14a781c99ad7a394781182d40162fddaa8391917aca465382be039;
0x108441368a058a30c565ac01d4145056d5a5614892879844c07a1c0289b2c928;
0x3df1a412eb02d17bcc82088f46cb5f77ec6279ff7161856c52480d00554a366;
0x2cf2d9f080d1219e2dd3d7cda1442b178464a583260e6d9632e12812b08c38b;
0xff8f5f8d239c9afc6c9d041ff0805ee22c3ef3cf5248fa2ab198a303597d82f;
0x22baee6a9025f961d95afb122fe50ce73d0acd9a913f2fc8d07a050f4de65dd2;
0x1131e942fc36296247e9d9013e71cc89498a7090a683bf08bdd23e267340fe1e;
0xac6a1c394f929725acb0a1b5e11ad9e28aa1c79da25624596451b04645d8a76;
0x3cc80ba68d89cdcc935b0d872d775b3b8f2a0cd50df89edbc3a6269290d6950;
0x1db513c2f29ae454a99bf928ffc2d93fbc363d0bb6cd0bcd93106d1bfe5f789a;
0xd05dae2a4b1ec3585f98d84bee7d10717da3b17a71281672e3451916260a301;
0x2adcd4c6f191ccdbcd5a98bdc6050ba95009e2039de7f0fd9bbeecf0c4f1ecef;
0x4d0d5708e1d87ca69eb4d44350313730d9d8403801606def36f035183ae03e3;
0x11184dfa1ada7118e79f8890036facdd47001b7b63b74c3d2983fceecf3ecae5;
0xd32f8b975e939f7efa097c2a3d4cee8340deae3012758e3b3a4ee0a2fd193b4;
0x1a24e9162049895bdba49f57cee0396e4734bcab60d8ec4305a5b685b3ca66ed;
0x19873998ebfde4a585f34a40a6e1fa702b7fbd29b09aa141c5a878e448e48e2a;
0x2d055b284ae3e229cbe0d4901ce6b687eef40d815da38cde743f3851c774fbc5;
0xe30a774c353a2cbf244d3d014d1a0e5ff0bac5e242673ae33f1bb2030feff68;
0x301d2bd94a2a85a3c802d0467c1cfb28e2aee547d2f7d51c2af108a549462a23;
0x19ef6ff9413f7a05af63f528a7f80dac32bb3fe601e02ca15feb99f91a844d0c;
0xf1cb5dd8ea58b523d3e9d9de030ea9db932b770ed97d2755da22a1512696ebb;
0x151ec2edecad41d2a4a74e8b09748ac3d11acff9c8a825e0f0c539376313fc8e;
0xbf605154c6e6cfca764590093b09ecec2e38a0426d4f8f0f6f9ce771d4ccfcd;
0x10d1c2b4f3622195ccd9bc64ab73145907e7358d92beb85826770d174810cf56;
0x79c01911499171a82059606f1a0e1683eb2f076a4a72314e51924b61259fb79;
0x1886095782a7c6abf9faf6549080c2a72f8ececc22bf58073df90be6920473dc;
0x261c4081f13edba795488c906dfa2b59917affb44cedf1727cb27da0b0b2c20a;
0x2cfdc7ffc3609e9d82b3bd1f2f1d42e15d1e0b7eb24719123e0b67d060800dca;
0x3c9ce71c00e243a950dff0d9e0a5d3c42f823983f6c1d3d50e0de1822993d84;
0x13714ab10fbbc54e15fa5ff0d6bca9846fc940a9c6bdd87b044868600f89bbee;
0x134d4838b8c77e7270460739fb444e60580e951d914a5a20493a2b03d294890a;
0x1e6f53eed7f86f7291436624847ef6451457756a213c168c3bd7a5945a4f2873;
0x8c4e9815652721c5293235dec1eae97fb8f93ac48d86c37ad6adfa77055665c;
0x18d007112ac9205d16ff209b80cf0b5260387ce770d4e6978edee9e0003fabec;
0x5140e8f5d27d7248a3e50e84c6bf700fa31c1a1a7ac144390f4bcff5ad61243;
0x19f153d66e44c662af026dbe5be9be834a10a3dfeae59729555d709d61e38f7c;
0x11e0299ac3f3ed3ee71377dce3b85768cd2a6b65e9d3bea24743d150e19f943c;
0x190ab7e9ed8c741d54fc558afc96b35d9319d317ff6d6332ae4ca77a8a3a7911;
0x5bf8fc4ad0126d42c22ed2c659b66f053ca3604f0968520ce5c7ef06c5a8793;
0x28c05200db6d51df10d8a4986cb65c078001f295343de608d68fae45cabdc5f0;
0x1d64d0d4143f869056ecb1026a361b48dd5162f38beefad1a6d139843d3dac9a;
0x56869389330224064b29f958f37fe90fc2bb4dc2454425b0d362b892be0fb73;
0x21124fa7acd6d96ec308ffca46465e5da69c44814c6e40e705b7c6b4d7eaa333;
0x210de4f22732824523dd4fd0587eebdd78cc339e8dc44fbdc2a317244132f7;
0xe30a774c353a2cbf244d3d014d1a0e5ff0bac5e242673ae33f1bb2030feff68;
0xc231a81780a5f9babc1f4137106d456a5cdf0a356e0c3b79b330982dde6c5db;
0xd2286ef77f15b562ba8316151a92458c52ab6979d36481abb6ee9420befc144;
0x14cd6adb239444df9b510c5e1c2a378f3ddfbc75b61371b688931bf3c6ec2563;
0x1f94577cc0cb87a180811923adfca9a8cc77b8ef41c0efef36e1b319679f0f10;
0x2bf8ecc53796cac7b1b4b8e8cbfe8f92c31f726dba638783eb063b675fa96064;
0x2443dff5793f12826c9195fc95caf2162cb739d837c4e15d426e65eb20c44884;
0x28807445f05857e5db18c6ba6c0f3d67cfd08d7ee0a1b5a3ec259c11e57f6581;
0x2d7181a0eb717fc3d9554bb1996ee527cc29fa9dd3ddebabf346725d84389a45;
0x1d467a0dad4ca6c95707e95f8780ca40fcc983a7e1171b111a8874b122574488;
0x2cd6049a0ad06e9a9a9eef6333566fe7558db0007e6e92d71250ce582189453;
0x2ec06f373cb79c1143d0ead6ea94a531574b642a2a88ed6cb21bbafbe2932c57;
0xdadde1785a6e8705856c47207ee42045dd0360c3cb332e866dd032ef9bad925;
0x26ef0863b7b4eb4223c88b5864b903526d84ff81c099ea942fa99ffa0e376678;
0x26f1a2490186a61de95667c8672dffbee6bc1451ac11fe2e9d159d308f87caf9;
0x913a0a4317ae24b6cbef39c87f10a3f47b4fa74b6e7f9286a6991027af81d6c;
0x101d691311e602f1bf45e2bad29994880376f57804517525eb169240d21ef3b9;
0x1c55eab0a94644305995dd5b9a4f2724390d88fd3e982be43b01a627accf5b16;
0x1f788dca1edff5172b4e948868bc18e7c0ef3602033d72ef3227f8776bcd40b8;
0xc5dc41e36fe501aacb4d8f8d33b12da167a12fcdc10626a1cdfc90cc25cd819;
0x18a6e567865d428f2dbbb6e9bf298ab8958c5d1737618e5f1c5679c76787bac7;
0xcdfb3e5975fb90caee98497768f37dd465586e1669d6bfc512b32a3895c62f6;
0x30edc8429fa6230b5bf9553ce19f0a78055f2d68dec10957d0d64e8a3bdb3e;
0x5ff6dbf8c00e9f32a61f908e6fa7518e49ce0bc92dab519524887ad9bcb3a8f;
0x187c0035a20f42bb04a4d3f172d8dd71761fbe16405a0c73658a18e177012b32;
0x267e0e37151a8018949bd766e65170ad7944b54b191df4904b67d181a3b0341d;
0xde2f39c45dc6b47bad47d29d8ce587e60c432bf03f9924e3d70152bab232ead;
0xe30a774c353a2cbf244d3d014d1a0e5ff0bac5e242673ae33f1bb2030feff68;
0x284591632913e57214bc02159bb3e8e81c06bed2fe6f302a3d238f14152cb3e4;
0x2f6110333487576bb66188bb38170601a18b160a41c655f55b366e138ddc3c88;
0x10e8a25fd4ff737b1fd8eaa1ca0fdc107a1d9e48ffbcbd86fe2b388dd10ac80c;
0x934ae9d36b935e477c1d92c9ea1b80bcd2d81f3fe0e37a4df894293f7ee2e0c;
0x1d48097697bd76fe5b0fe21d8c182a9a032700c0aa94fa147765147a66c7a732;
0x26a007b8e7c5a0f095c47c27e9a68c6be8b08766863ba33854b2dfcb6c708f74;
0x1db9c979d26dc221830cfd85bb16b9bf6e6ed9032c917ed64046d24b19feca2d;
0xeb6abf55ab892abe5ed8ad7223d04460eb7cc6591216c260250ec0ea22852f4;
0xaf52963d2d8ca1d85fe433b3e20e360f488dc7ae40a074925f612959482fd7c;
0x21a08ad9c5da7fbfa096b1773acb293efdb29b76a2b0d54f107110e7f7e7ae8c;
0x6cbf675121397f0657bae080980b2b22566613e0501f74eff8f71826a5aef4b;
0x31a23d2ad653f7306b849eff0b4373a7a2eae9279e8f048279d90241561b192;
0x2f086707d317470467a8e0ae03ba725ef79ed1ef014395b67ad4da788237769c;
0x24360122ee8c5a9ceb21696d69d5456a3166419377b098388a2f19966ce62005;
0x17c0f7d233d0fbcc5c520f1ce3a5d4b095bd11fe8f39f090ab7e9d24ebca8195;
0x3f293140b7d07e158f63f94792f943632ced772d71cdbd93e171a98a2bdb1a9;
0x280d4d680de44f4a35a8d0baa4a1feb3701fec97a152e977b5352563c797f68b;
0x1633dd4196cf695bfb9e5138ccbb381b0bab619ad1b728802c0e9b35770503e5;
0x549cb9c6b3ab14ade93f695dc31df816e13e6cff79023f91c5ead9311fa37e0;
0x12dcea4ce3927ca8c308751550a77c5ce4e095e0e9a417108c18102e4b0aba31;
0x78331ac4c2c6702655cbabe212124d4f1a1f5005a75faf2c6fee507b9996541;
0x5674b32b037c937ab00bb7ef41befd1c0004014b66acc26b117bd0b462870b5;
0x165c541ff3c38f4a9af878034316bc4c08ec15fcccc77657e7aea32c982e26d9;
0x16477e2f6956b2a232be8389586b0569feefab7d635f173ebfcaaa06040441db;
0x1698424bc862b0a96fe6843dd5c7626ae0182d50f8323c338917bd9e8c8a8744;
0x1dfbc6764488855933fe75e10ddd60b09d67d98c622f36cb565931d97e922988;
0xe30a774c353a2cbf244d3d014d1a0e5ff0bac5e242673ae33f1bb2030feff68;
0x2f722fe53b252f8256f3c9d613fcb12205dc97de726ac8f23c6d4ee0a9575add;
0x4ce7f85039445253ecbcbf393061759062e52a54060331db27947bb0e04b101;
0x2ad1ccb6918b4dbb68bbe0389521d418f1930df1cffc91de8e8ee648a6a4e62f;
0x119ab9bbd433ff01c7e43079d288d053e7e0c4a76facdecde1a77d544906b4ed;
0x17d263f75f3d3f0d472bce50e641017a291f8466e6c03a768c138deb1b50f3f4;
0x248be6746b30e18cc13259078ec848411532ad11d4506ac6ccde131495c9fc42;
0xb02fe4295790760e1fa72811dd63502ea36bed8eb8652e6b35f4faf9b554312;
0x148b519dc0b5daa50f0073094e87db4449c8a068ccd109872696973f9eb806c0;
0x1bb5e7ef82c1a2a02827a2f16a34cbe60209f8475d3bfc0b6652e61f4113e6da;
0xfb76804e630b9b522d9af08f1b53880f5cdc691bb22c27151f541fc8e1bf2fb;
0x25f15fdbcc16e5c1ab1066d294bc774db9166ec45d4dcdadc4597ede1da532c8;
0x18cf6ec7ac6dd943c57b9472b58af18929a94dd92a340b3e43c074f62b7cffb9;
0x28993fba9683f72a8727701674e3e657fdccac4649f82879df4295e858857317;
0x1fdd6bf585ede657728a4e97eadf195c08f8e6144b28bd92ef6cb706e4f6b05e;
0x1810b0fdc26d123bac819ba150ffb6ac9455ada7dec6deabf178f0dfffab05d7;
0x17935bc39ce241e78bbd64ffc72166b8d8054be62c494f3b89abf88810808fcd;
0x23b66feb87a9b7a105923883b0ea0c73f795e445e3cb6f68c9217cc0ffea43ef;
0x9f6acc9470a3ca1b06e023cb2f6d68a46ca6c434c521b2d0a799cc3f7b29a9d;
0x7059db933a49a59d77c7dd8226ea452868ab183d14aa09ba3f62011a08ca31a;
0x110283c2d84ef498d54d8cc89f3ccd48990382ae73b8993a3644ab9961b71141;
0x2e0861925cc9b76c5b0046d8178cb36a13b26aa4ce4e5f7d3be453378928627d;
0x186d7f00229ad745a0123ad95fae9d1136d4dff9fb693f954ad9fca972ce9d89;
0x22c7a666156ed3e7813e98f60d15e23a461d2e9cf389a581dbf8be0bf5afd011;
0x1cdeb50c6bcc3f9cd2f59588fd72fb929034685f88506e891f41dd572c67c360;
0x2978a2a151c95155411e8acb3c12cdbcf929d675fb978e636c93da663800c33b;
0x167e72f7db7e8e21f7daf4f02fa830884851d562c3b51606b52ad3e80d4757bf;
0xe30a774c353a2cbf244d3d014d1a0e5ff0bac5e242673ae33f1bb2030feff68;
0x1957be621bd6207736b0374c7077ef66cdcfa4bf575a16d2724ec94e2d764876;
0x3b264ea2c2a171ce3bc6672fa95706ae37155fed16218080f33e469bc9b6e54;
0x1cac742468595a01d58239fa27bfd73e5e4c811d31bf2307e3ad7d9f7a440c82;
0x1308e2503e1623793102a3c6ef79b0041696191d4cd1a089d440e717d15675b6;
0x135997d11a8ab3d418e1b34376d3193d0b8355902aedfdb2f29aa43278e2790d;
0x6f8a541f16f9f3d8bb1757aaec5ed1fdfbe7990e7b046fe6deb8c6af212ff4a;
0x9a4037450ac7d74675a6abf0169890a2161dac550cbdbb257ca22f4026ee4e1;
0x1bb22813c573e8209b7100e77ef81cedf79e7ce616b229a7540505854c2612fa;
0xd5235d7acd8bad965dbeeaaac39d599543b2766dad81dfa738988f8c4fecacc;
0x24522e82642d0c00deb6406ab28a1867dfa50cd6d0ecaa0e18b6e5824005abaf;
0x51808f718e4a3898d1266b473a2e0fa470b9ab592f9e1efdfb177a8f1b1a863;
0x2ebf139bad53a7408b452fdfaf8847141346688e05da4e0e5b478c178bc36c17;
0x18f177bfdabe5eccaa6dc0fc28f75e20dbd9e470ad50337724be79e46f4b4298;
0x23f5e3e09744ca3e73ff2660e40ac6b8152e1c0a93e507f311090e6574458779;
0x23fc5867bd5b4d52686ae8ebe3c1454e266bc576aec1f682bf18f783853d8527;
0xde2e3ab296be75fe02af329d61d80c5c4d29886528315b4698223699ec70de3;
0x2f4c1d3cf6793b0f8a707de4909c1df3f888a37f5f8e382065b500936c33d207;
0x26bfb7031fd16e59d70dc1720d4d04301d97e07a0023e58765b2b6b735b02443;
0x8f0bea4f928caae9d19e71f19dd85c7d700b1b05b3170548784677bcc4dce73;
0x206dd86edb0388abd591546b376a7ae6dc433041b7d248ea75d908c4b3740afc;
0xbd896df632e39aad4e575444b0bf49de0e10183b09137b8f79f704cf2feebe6;
0x2188116488e4192be2569647ea81c6caa45d08b896ac14e497ded7a6b80d9852;
0xe95540fcc2df2d1f630191f9e5f48b7e4695fdd5f4e9a7c930f16598b3e9e53;
0x29d25da59f9b238929d0eb4c669216770673bba9a48a1160793ec66e75259040;
0x998c56e22c0fe57c936f19774ec4368ff33aca06589807db3a1e8138395b4f9;
0x1f460a24b80724cb88af9fd2b73b512e6d5fde9ad6d0b73801db0cae1d0c0357;
0xe30a774c353a2cbf244d3d014d1a0e5ff0bac5e242673ae33f1bb2030feff68;
0xdc5b4d3482661089384d18500ed0afdb1a635c006ec67b3137ef97cb03d27d0;
0x22c7492f2fa7b9f297c2f0365945ce0e262793331d3cda1cb73d083fc8a0e21d;
0x266af95c1174ed0a5781bad21a2397578ec4d16642d729c4daca8f14f6c86a91;
0x14c46169d20fa3e4a67fd8da381ac224d61cef48dd27c1971273519b6f9b703f;
0x1269bce1327ee515c7de22ced7aa99a4df202cf661ea0f2c520ce2a721a640f2;
0x172bcf2621fe4e5c2919490728ee5d19f6d1b3db328addcb2f70a792490e9bc0;
0xf26dd040a3d43e4788c20be85b4bf774763729fce73037ae53a5f490ab99c49;
0x2fe304bb2aad7c3a3fe30b77087600d1da7ca2d9053f7ed264c1865cc8231907;
0x2e365d1b4f6d9946faf2ba71fade06bbbf2f8475eec5a56fc4843765fb4a49fc;
0x25a82f1231627dd4fa32b82d274658a1b64e8ebad06ee903aab649e32ffadbcf;
0x2cb9324b95c056a7dac8511562fdb8049c4f08e6fbd3ee222bab96ecacb89c9a;
0x1e3c03ec4cccb96e93e7b8fa96f6915a0ea2f392b4f5ebac5b2f251013fcd3a7;
0x21011730617a2b7c760f7758dfe37725189c39224023ff0d819dbebb1a81c07;
0x28b05c0a2e98dbe8f090863730a24b597d97ec3adb4a00f3f1a176d02f495138;
0x27355701c30ec033287bc103652855c341a8e80aed9b0bf7a1633b3f0ab11a43;
0xfad7793054577536c56651b9585ad1ecc2af28c4065c6fae4ff47df4289d5f0;
0x21bb038dbba587b85cf0fbfcd5e69de9f329f6646bdd40e8e27a107161f624b3;
0x21b1f094f3e78cbf60067b3b785e3b3f24c4161c91c452318ee990e07e225524;
0x52d8b24d73c86adbc8311390a5b2c9b6300671f92717203ad7c463bbe0789df;
0xd7039ff767a3d8bb07fb62d6b2ebe8c543277e3da1531da94cc861d4574f648;
0x1b916f0851986c4edc2b927aa8bf9d92178ebe75b77552ce47a63ef70409bc03;
0x33cab9f4d3c360924e9227254f4f9bd52fa7712fb518e534f9fe69d04d994e;
0xe26a5327b3a023b0d1a432d4be5f7f0b09f8c4143ab881b985f2cf7e458fde4;
0x2ca57bd0c629753607a4c9e37b783668abbec7e8e306f75b88ba97772d371595;
0xb7533836731172ac9dbb56e54588a5eb800fd80d6754af74fdf13460c340ef3;
0x28c3653d647bd221d2b3c79f3da382a937cd1be9a33232748f04f8e1c880bdad;
0xe30a774c353a2cbf244d3d014d1a0e5ff0bac5e242673ae33f1bb2030feff68;
0x7fc230b6a36abb1c7f4b7504fa51ab01aa880f7b3c0a60eee1637ff68889dbe;
0xbbfe36421ba52a2fc87f6d7976aec0165e41aee0f71cbfc87f41b6b965ca6e6;
0xfd2424b028d4d8ac1a8c66e6306af2c3df213a3a7979e367c2957eb631f17af;
0x1b674725a1f99e1dfeeb07dffa4d961ec24a31d433d83f858cf3ffdfd2fabaeb;
0x12c9cc35e0ea2482935ddba214f21a8c08df3dc9d6b29f75619f9ffe0d055f10;
0x1ad3b10f3f584f4811c804d95b3709ded70c5a7d3bbbf6f91339943d85bbe21c;
0x2abfcda5b9f799b2d0af0861c17c33253781df51eb186a65eac958b34e8c35a5;
0xd9cf52fd20c189982504d02aa80500a5c732434dfc9e7cacaf08ddc0d0c76dd;
0xd87620da15c58c50af67bf3533b399edf83c1e7dbc0bd9773d40d5ea287aba4;
0x289e55051ec741e27389dce0eca1cfc0fa57be3381c12943fdfc6aa392b60af1;
0x285ec1799c195e638e16e4cc7fe5bb7ce06b1c82105cc4d61385dc2d2ecbb979;
0x284ce6e7141920ad4159f9c97ee921a24cd188718f7000f1ccb091067d4ddeed;
0x2403b3f3f99fd0daa8ad77cb3f8d515055cf80d1d5e8d32e4e4627e95489f57e;
0x2ef65bcc67502169c5c5d324e09297b7253302c82a337f00033c814aa33d9cee;
0x2b1ced8656b92329d623a85ee61e310495566ce4effcfefb6e6606ecfcdbff4e;
0x2cf6166a9183e66bd94be5aae54afff0f02cc6eb68d7456cdfdd86e0e7f0719d;
0x60d392a31de88d78b696e7238af3ca3eaa5e412437c66e59d7049b69d2507c0;
0xc2b62bd89e35735926f6474264c899eb2b5956738a478b6e76d792bf420cd16;
0xe070af64e603d24608847ce8677d0291e08d5c10ec31f23d898d716f1c39d1a;
0x2de645e3763155f48ca18d06dd21370f314e26382c6c9e883d84e387bd892893;
0x17deebc35147ac645572140ca181a81785e74dfce063b37e326ce6e79c66a6da;
0xb035d43bfeca4b7a464054eaa0f892cb035db06a3150ad9ce1ce45f6ad0b811;
0x100c78328ef5a499443541c1e27f78d0e77f65f93738e393bdcf4b098681be52;
0x180cd1e5a1262087a60bf156e8ed528070936923605d5fb078f4f6f956a55aef;
0x1409c9afb266f52723089bcc3b495bb15c9f10cb55b32b73dead030f87e6e24a;
0x100ee62d3a9d66d3b6360f540f954493d7af73e6cd95a10ddbcdd79d6739fd38;
0xe30a774c353a2cbf244d3d014d1a0e5ff0bac5e242673ae33f1bb2030feff68;
0xf8533b51bd9ed54a1703fa8399239d3a7fe77b0a55210917343e09342a0fd81;
0xa38a8515b1393a083782c40f7261e921d87155c081b7039db8f409beb2dc8f4;
0x1dbe26b8ab56c6de11196b0ffe7355348b99083a94d2f2966d227fde43821f7;
0x2fae58b811204fbf3232b298e274df120020289d06ba343bc9532fae7ccfa76a;
0x2c33c971128abcaffde44567163b071c1c845d5e04e4b3e4f3256c690cc61efd;
0x1d6879298603d7ce919895eaaf857157bfaf20b46ebad48c36e85927e004967d;
0x154e2b495b2894e24c7b64fb83c0473186b256f83de4e7b5f82abc3e97b9d176;
0x1108e6590ee097d6177f9b0e8f6df631e91ca6aad1744fdfc36a5a7cf73689c2;
0x30e4cc0defe07e0c0ffc72ec35cfa5f902e564359dc27e6f500c921db4f22c2;
0x1c4f81779c8633490f3e3e276603162c4a5e42fe6db58a53316f805c5c822922;
0x2954c55e5111eb033ad80c867317b4aaba9d750b9f9bedbfc48abe8430ba3c20;
0xd519d7237511791c479d178f6500e54532625fef17aef20782d15be156830b4;
0xb18f5604bef3748e0e8ecb40e7f636d2452a42ed19299820a5d41241e3e27ac;
0x2719c5dffb3c5e099e2ebe58e16855ef505dd10daf7cc2f213113ff647614b42;
0x16e635dbb0038d05bd950a92b785afacb3fd0e6b86cce3d242132d4f1c1c0ce;
0x3920a662038566aca072b265532745baf239bb3e60326891222047605015b23;
0x2c4f137391f3b5e4e6024a97f1c9cbdedb1297d123add7adf4d6461ae5a875bf;
0x2264a7d603db95df9f07582fb03dce9340e2de326cea846bba043b0946f812d9;
0x2f1f379f002c49094dd938433a986b519a123c4d9d0189d66533665d0745067c;
0xd29276a5ac511cfc3a3fe7b9244d4b7010cf0bdfa90d7df0d6c4000b9585d45;
0xac3ab6802fcf30b3b6d2b1a69e54b3699179b4f30b464e0b71b6b4b6b1124bf;
0x2dc0c34175e61183601ba4dcf9ffb457defd36abc2e24babedbb0a9450155fdd;
0x6fd088a7bca20b5570d68665ae17172c13bb3698f3640cce22ab74ead7c5663;
0x1de87003640c024ab5d55c378a74e14e1adea072f8d22ee932b49150dfd1126a;
0x2e01b475d78e669a868129b1f173a77a0b28d82a89b4ebbfa274a0a41eff3e06;
0x1ba9c82ee2f9ce1b70390faa1d3c40585d751775bc8596e32acf34bcfd58f814;
0xe30a774c353a2cbf244d3d014d1a0e5ff0bac5e242673ae33f1bb2030feff68;
0x2a61fb95295b3b5c0949c486673d1ce6ed7328f42c9dd1c82e27fa3dbb0e3bf8;
0x156befb6eeb13f52ba65eb7390b7c812ba6aabc5d1acfc189b95f71fb47db283;
0x13422f783a978ed5ce35e1540d99c3cbc67803de00a3a4fdbd37f7c120d7aac3;
0x1995d00ce7c99415c2727e89618e705a87fd4456149fbd899c40f43320d5ec8b;
0x24ebb318e440a45956fae1a46a3303ffabbcad5acb8cf98b6ee6805672ea84b3;
0x2c6c1b35e7979c2e34b071a03101db8cf753b5c26193f206e2ad214ed47387cc;
0x2fb55d17e5a50b80b168fcdd0d618f2da007510bdbc429c5ed7fc9e9a1ee5c0d;
0x117c39033ac0e1f5f8b57844220b7260e3085bb99925eaf937d4a43a06bcd2bf;
0x154a4ff3064027d0d4aaba2fccbb05fc4b074ad7bc4443132ed23c5f03d38ef1;
0x16ea33e7327d3fab4e15cf66ccc4e99104aa40a4ae0eefbd478517475c274d62;
0x7af162f6a41d5623cd47181367c6f1f5ee0be7b9e0b53fb8097789ea9a0cdfb;
0x1a732e3765405223cdb6eb28abd2d425dc7d1cdbe575e08568e1028d8ddbc398;
0x1208ce1a3a017db5d1024920a6a0f94fba55f5b88620ace2e180c3d517163641;
0xbf9ac6ccc83f71dfb86d40b19b7609b555fbc1ad465b09f9b47b21cb230e174;
0x1ae8cbc6e5e4b91ea924aa8045967abf4d22d687639e7f64df40e1baec14a3d0;
0x2a1be1e4d0fddc88eadca5e835f30bf7ee39b0aadd995b48a7ba601b87d16380;
0x1dcf4c29bab85ce96ae81703ff26262a09c8895f886a71c01413d440a2f783fc;
0x2bde5bc567bc599e209587d01a8e5b83c9f27fd4988c978294ed9b680b03047d;
0xd7f63416aaa46e1a5ab07653c98721b3848f7f40dda0cbe24f5be957249bfd6;
0x201c0d5ba18737cce0bcf6069d82ac70b7c6da968029939fd793e7dfc11997c1;
0xfd4dfde771c21adf5ff971e0bd0301b0f9c0079a5ccbebf6cc05a578218cf9f;
0x6e26ebfae0d7f5596bc1719d578b1645bdccb473c802820e8d1e73ba95fdae5;
0x153a90c4a4df503ade4670a019c1c539fa9abb1d7bd85c5627e2a236816e9e94;
0x268ddb0d3607d6d88ab21623db322f70881c865d1baa284eef7b6f504649f5ca;
0x10ad938c2c97c8785232011e8e9956ca87ab31b6e9947a3f5a9cb2dfa526c178;
0x100a9d42b7617d60e4b3aea5150d059bbe751456c4249f0d807247629e61f0c4;
0xe30a774c353a2cbf244d3d014d1a0e5ff0bac5e242673ae33f1bb2030feff68;
0x13bc85e2ad431df8a6705d1990ac925ccc3df1282405746025b8a5b9dea661fd;
0xcf2d89cb39c2d88605c0a34e07eb31436a77a2909604c6917c1c8ef5b490d8e;
0x2612eaba8d6b833432665b1334d612cd9bc430a3bfe2ebb3e34b7a9d878f4054;
0x17f2915802e376c5827e719a6890d90fb067762c96bb3bb86bb34f2f14211011;
0x1ec7edddf6e2543f5e457ad0adfe66ff55ec07302a6051d90797b65380b8f07e;
0x1d4406aa079fb976bf4d8a3bfac81347bcea2cc9b8ca732d3064f9413f202082;
0x29b71a20d311389c672d8a857b34b04e5b4c95624ca72067879cd312d8b17cb0;
0x6df0c4c7d3b8552c2298f518a19665ec355cdedba299b20eb193c67c0e72d43;
0x26779e10800437760c7bc212ceaa5d63d53a234368296d667f1d19784f47cda8;
0xed1c5edb7053068b07ee60910ed3d1c1e41684b276a0ade50c654de10a44cc;
0x24b4046af28ee5013cb1662a81ae6b60c9431724b3b16202a5d9d5ecdb0dd322;
0x2710607671674451e9da2932f51616f1478e7440017bcbe5f1df1031baa582fe;
0xba845a38009864ca2478e043645bb6d035ab0ae20053ae65c99ae914819878f;
0x15c5c54f3efc26d2836a2ce81c045bcb20e137945f8a64ec93b50b05fcea1624;
0x2f416e4189aeae931290aa08d84764da18dce217ec716ec1ad530d21d035c1a6;
0xc92385c63d6c451389a83dd7a46784f98852b6ded3100b65a8b7c5b96d89305;
0x222e8105aa188083af23785e36e1eb3b483fec353b832f97e2d66d79dd0e2926;
0xe98d7f5e45ac6610fd164ed687041f2952e6dd3c9fd12ebc8395a6893ae9fd;
0x11591f35ad1543a7a8398cc80d8d46980fb2d5a91848942956072a3b58c3fb7c;
0xfda43471cb17ed2c9e4ad1bcdaa962da09fb99a5bf74024d3223784df4e043d;
0xa12e81049a88849ad74b40f381be30c2c2e9ec8d8c50bacec5d1868f498285a;
0x7c6d194a73f848f7d716d6f30acb48ac7baec5affc571b6b8b6b84996168339;
0x194f847f3c7d048a1937426a78e0784cde6075dd3ecaad21a4d8b0c29e6dcc58;
0x478225c0df10ae1047eaa6bb766c7cba55d1b2f4ad2c92b579287d4afabd622;
0x7098d85221394b7dd9d5e01bb8d8fa324f52cc50a01d04959f7cf47a9d426ba;
0x152237727876536fb0492b77e2ca5083d39421c48dc34e5079a33fa3d2a86379;
0xe30a774c353a2cbf244d3d014d1a0e5ff0bac5e242673ae33f1bb2030feff68;
0x1420a14de2cbafff2579616faf1bfa74f7c6542b053a499ab551a3408f0170c1;
0xb9d1c211a3135cf248f2ce8bbd1fe9c687788d37dca581e76ef796a06abb333;
0x2d90ad8b96b95e07f313d485195a90e8cdee4c30fd11b740617caa864d20ba4f;
0x1841439f401d20be41e3aa8154a1ffb5b06a7cba6987fec7f41df5f92a6bc91d;
0x2388640642c291a6a1eb98d73ea78b7d176c2b70c6d9bb637abdb842c0f4a78;
0x26847393fc7364e97651b2b787111e2863ae61218c0a21b8ef93292d6d3f59a3;
0xa97aa86b7cbf546c5722540fbc3257e37e701c44023e6382785a6b8f5e2aa6d;
0x1e66c9e1d497faeee46a478ab27fbaf5f9af29f43fde16f9a6385e0d05b17930;
0x15dd9d1744c08352420e756cc25e76537e8dcfd70c5e0dcc445f77560b730ee8;
0x907dbd7263cf90b8cb5dfb3bf60610d4fd44beeea309945d8205cdaeadd2a2;
0x233dce7ca21fd1e909e98dcf2b584e9ad879edeb0f395bf9a44aa7fd588ff23d;
0x28d0f25cc88f3d33af54d011063c0a2900fb50e18d1517d52d63ce72b435a3a6;
0x20db88c936bfe7c6e86126581cbf8bd7edddff26237df67c02777070d012ac71;
0x27531eb0037dc5b938ef188fb167f38039f82f2cffbb8fb6511b05676af6e230;
0x174c8436d7632117178d777c3174aaa21b1908cedef20997afd4f9de59dbaf61;
0x610a7245fb111b8632cd43f8d356a839751a7ea383870e108f45815e7dfe527;
0x51ec3ebb56094e6fd5fb48401dc97a7aebc08c0321260a03ce15a64401d57f7;
0xe79a17117660b79651058aaa102bf530a98c0fc27890c0e572ecc6d6669c36e;
0xad64295a0a164517040af0cef26fa9e39b1ea67db4ab22db5d607c4fca3de99;
0x2861d3d53c2665d9ac962a2a78fa4fe8cb6e81e7ab229f66c432a80dde7116c7;
0x2ffa7a7a62d5e1bd03cbebfbc5c758444ae0d0734c4a5d667a158fba11a9ac8e;
0x2fceca53023c3cc3e8991961644decb60806c5e26bd2ee6459424033cbea06df;
0x1b315dd83c8b16a2aaeb9119436076344d2fa321f3359d6a9ef6cc15b45aaafa;
0x27c786865b0c424bc2e21f43f42168d668ece1b7707b62b6ea77682a60a4b1c8;
0x2f55ac5fe9c4deeb92cd318504423f31894b80e6a340fd21ada215856fcbf5b5;
0x8484c73576645af031da8d059f7cacd28c66906a7ae10ad91c196373601335b;
0xe30a774c353a2cbf244d3d014d1a0e5ff0bac5e242673ae33f1bb2030feff68;
0x1f1e99a24da4de93564a110744d481be210f6020ad98006f0bd4610a054bb397;
0x1313ce9497a6e074c155fc0218d858202308ed1c1241013fdb1b23967fa23167;
0x20dd2b7ad2c4f1f1d19f18b29a3ae436405b6866b8dfc4fbbf0877fbb3e7eb1d;
0x1d9a3b14077a7c4d585632de9c1e0d4a68c71203492d5911cb16f3afa68bd2e1;
0x1731badd5397325e2221f6739002faa9da0372fef8043ebf93e4627a3fad156c;
0x23e7e3fe8c10b5580a79f4c3298c8e1862b7f5237942f23a5455d4eac9275685;
0x2c014180a6ecc47452808fea233b82f39e3b7caf0175687777ace7544a29e37c;
0x292a5b755731fa19173af35e46536550ab67aaf5f7302a003d0f6df204e8976b;
0xed8c6981ca41600dba450a860b85784655bc05193481ddbe475de4f351d243a;
0x1a19597908036c20ac63ccefefe74a7d4a34247f7471bfa743f7d1858c8fbf19;
0x21d82813886827e8c1985bae1dd3b8377bfcaec6e7fbe0924232f059501eb278;
0x1a3ba88e071dfb03e2af64d4efbbab382517f94566c7268650899eb6bb1971d9;
0x1d48d408a857660c5fa36286c7fddd68d2a4831cb0cd055f950be3c3c9607347;
0x23a912ee06a717208ac5f8e94a3ef1c0dccb7cb14a2fc32be71d8d25e65827e0;
0x24f16318b8064d97d3543dc09c0c2895745bdfc96371bcc99b5c6d6ff6af3e13;
0x732c0b040e6bffbae6ac8cee5748cc4b1dd79559d2b84d73347e7868ee45e36;
0x28d961a33687f15d8e4239aaa2edaab1dcfd543bd30437afc151cba1d8b6f93f;
0x295338d4f509a0e6ac18622299635bd3930bbfaa4dec3b885b817bad870885dc;
0x20bfa91fd05c7fbc2fab0619637bf4fed31f95731d89c2f7040f4c893cfab9a3;
0x40df188035ab2406a932606a391e146c51463a5129c2bc5ab3416e6455dcc03;
0x2483ffcf685a6a42aba1af8b1c9af41b66796946957e69947f9790615422c61b;
0x285aaafdd3180b1543fc1994846ffac22fe06908e5a6bdd3fa3d22b3644b6ea7;
0x2dc5f343de5cf59a69c9429e96289dc1c4c8cf08fe69184b68690f33e233fdc5;
0x6e3d7b62ce4436fedd0a240d7a777adce79716f5a22b5efeeaad0abf1e8b5f2;
0x1482cba9741ff1dc43ea1fc5189a2a59fd5b2bc2f1959c164241662658f2507e;
0x1348498420e5f9e977c9db960818c96b1f93cf370a2380138bbd56e0c9d0d526;
0xe30a774c353a2cbf244d3d014d1a0e5ff0bac5e242673ae33f1bb2030feff68;
0x14fe503bb439d34ea8eaa57cfa1caae71e4284521ba6240b0afba874b93ae8f7;
0x1f9c9a83a952c1e72697d8a93b00a57bdb092d66ebde1ad8b169343f93c3f8e0;
0x24fbb0c0f2ace05a5faf061867d2cefb35494ed9fb7e5b590db562486c88b0ac;
0x10f738bd7905a3db9f0d6fb73b2cf3c4877dce60cea5925d5bbece78cc5516fd;
0x2a62e245b8b68d45298987ecf40a0a3419ea8653e4da0d6a6f55b2152d85ca67;
0x275b72887f4a3fd32bea4bbf47394106963761ef3e007f2f1e4460140896c168;
0x1552e36d16435150e476fa6665c4f058355854cf2202d91573072ba3dfd2807f;
0xbe9ef904aac486fbddd1b8da7d57f9ce8d1bc5fc7ba2abc179c1fa20873b597;
0x1e81ddff4f76a1b2dce1bd10aaa16530f8636a0e563bf33a02cb9801d7f762ea;
0x1c9d6fd38c151b16888ff3ee7dc7a8f653fead50f462a6045cc6bdaa72231de2;
0x249f6caee2d3f22549b753cc0857a89a85dc00258402594a5ebfbd7235c85a4f;
0xa5bae6c55380bc6c3c5cef4aadbee3d7ba2e30ace0dec7fa2c3e852bf030798;
0x1a591bd8ba8f5c6e64b984ad9274257d38caaf25b99cab177c84c8f0ace22c47;
0x2f14e7a4d071ec394f43f46d60b1552aa9980bb50e7c963d42f483da3211a0ee;
0x9dffc259c60af5ff5822cf8a170477695ac5775dc1b90104503cac64914f86f;
0x295af9152dc405a43b353775e93828dc0dd1ad4657f1f324f75e25fc67d355bc;
0x4ed39653bd52f01b25db50f75b0f9a7868dacf3c6f2999c23bf95f58cd5333c;
0x10e815500f22b57ba8056deff42b51f4a4130f6e6d364bc1de7117b9023c0b37;
0x2286d75a72832bab29d58395c45ad419d3d1273062c893a70c56fe9e38750886;
0x111df543f14f2ae7ada849b80d01be30e23fb49ae805d09afb7a1cc98057a27f;
0x25c1d1e13619f1ad04831b2339d163ad83da3809a89efc10610d5c62bc03da3d;
0x2fa4fe7aa2dc0ece1dd482768838b9ab913010539fd9a94c00528b037e4f8ec4;
0x1950f2d47f38a0976e8801a03edd51f982faa74392a70a0d381194dc258770ea;
0xe6945795a878954644fd4d36dbdfa856c6b1513c8c38dfd71e3f6f648d568cf;
0xf15e86e69bf0d747c7eb9d100a26930e44b558de46b2e9246c4cd269f4e0707;
0x132cccee9c47ea27484dc9d759d93d560988d9a42ac6f90be4737761e0d438f7;
0xe30a774c353a2cbf244d3d014d1a0e5ff0bac5e242673ae33f1bb2030feff68;
0x1f19d5b58c771b1022d6aea73259634d1c9e1db227bd7face0cf3d7ec6f04a89;
0x9e99a9892ec5c92fcb2db34f0a80d01f93db6675b839e54ac081e2616efff4c;
0x2e39982857d71f53bdfa8b2d2fd8481727267c00bf284a011e75de1090b5ea11;
0xa4c0ebe2118c2ac564272eb8f8996dc8ffc649480a144bda57e7c33f14ad552;
0x25451345b35213964ce431f6f9ecd15934443b435a7f175abd80d97d999fda60;
0xbbc4376c1f85523bc7c8ae9fcd8a172f4a4f9905d09f1de0a6d48e273ee9809;
0x2bdd1037469a47d75d5b8994731ede44306e137f4460f2ac7c178bde7bd9fc6e;
0xf677b2a55e756de8223dca8cbe59954989d27ca87f57b8b8e59078ee30b2748;
0x2fb0b17b679ed6fa3e528b009e444bb34b173fe18925971a3b6777863a936411;
0x8e4988e8ab1a27420dc600aa4fd13ea9d701291e005defdaa33e0df72d180b4;
0x2aa3f6fb81b544fa5d338c2a7299d28d499bf86f77109ef9cd91f3156595f0f2;
0x202ce667a6cefe69a1d12ec6f0b7674cae7fb0e02dde42e47fcfeb6afc011bd;
0x13fc451c175cd7d0ac88a8b7013cd460af9f68982753e01eb0b9ccccc2c7b57a;
0x1b86a2f0867f4a97d6f2ee4701f23d7e05c7700ae53c0d57284c69e170e90858;
0x1fbf812f6d014d7c0134b54d9d6aff50f0dd76d7889926aaf59e86e69c720821;
0x11ae5f1bc0b2f10956e35b2a125ded0ea4b312aa52707bd5e98452f6ed0d9d2b;
0xebfd2844a28d08df2ccbddc8d52e51bf9714e9279ae25b7f7015d37769c76a3;
0x1c9e2830d53d2fb38ec3fb2cd6f45061058949dd18312b212fde7082778eb970;
0x2c89a19cc675823c61843f218bdcb0cccb5b9b4f0069ddbf7e900fd643c2963b;
0x8da85ff8b6200e090cff0a2c2f05042e30c79e425907ad9a055a9a2a496e73d;
0x960180e5d5ff549130360038aac26bf7d2f5828e88327a1fbe2227194ee270c;
0x17ea53188c77a5760fd3da3213f549e5a45c743db6b27f4f1af87e4ef28609a;
0x1cd300160e5cbe7b9cd7ad1180598c065a08ea594897a8b2c667508e93aad2c6;
0x1b8db86cfd31fb27ffd05312139ac8594e4b9a587927f1d5fbb378be75fdff94;
0x9ce92eb753807b4cd89cefe94e7f31b0eae43b4cd6b97d8248731cca7817df9;
0xf953e8b043a5bce5c459ae0c1758ee52707f6f0dfbddc5e407483709df22a70;
0xe30a774c353a2cbf244d3d014d1a0e5ff0bac5e242673ae33f1bb2030feff68;
0xe61fb7e75ef9295c4189d5926940c65bef29f9460fd6acab96fed3d1be3e626;
0xda574faa3851b0f89ee096792e722ef02c0e09793b829579e62d43e9745078b;
0x29e8bfb4394174320d8c3521f9a665b547cb0560f726a0d70f52f613b0f24686;
0x138864a60c066835f127cc7fc18ad0bc92774eed55a5735b8f4e58f1c4de54b0;
0xc4061a8556cba5eb98d6966f7014b7f093e6c16ca1c498bab266918efd24982;
0x29a31f9aaa8ddea5ffe0debc4ca6968854ac196215df67c09fcbd03352180b8f;
0x1cf3ae0b1b9b5d99445a7f94998c5e59488c6041a6205045683c42f7417b8a57;
0x297c9cf4083fe500908bd1f4c886306df9b080e77569a534c558ab552bc61a14;
0x1fee3441a345869bbef74446fee4f51e9303d36e0a3316905b917db8b33ee846;
0x29f81a706163b55c6e55324777703a9303ef8bc5650160e0f46e5b800d62abce;
0x82ef985b1721ecc770cb73b1287f745769f9652c7aa177e43706ffb01683fcc;
0xd2909479aba19cdf059dfd28915cb101756fd0be6fdd65af27163d3d4db80a2;
0x2f9cd946fd1c2dc74bd0f3ce5737ac83b1071b7d4e720bbb2d8f138c24e9f336;
0x24ec8557ae626b291b510d9ec1bd354247dc3727f72832da7a79c4fcaf8cbc8c;
0xf11a41f841b89ce70505543d7028f8c852cc0df7c8d840917239c3724114e6e;
0x114bb82795b43471c48a7d4f21e17c270f98c6907c37f2fb1f99856266cb8089;
0x2b62ff5f01bbb491c744a8286db0aded602f287abaec3b1fb1b4212e58e6a4c1;
0x65601f8bdd487ec395b20fa5fc276d78ba591835f481113b3a5c59b005e499c;
0x1fc7286cd0168e84301b48ef87d7cab67e45883e166ce3d5b398389230d9ae4b;
0x795f23bad239c2e465601e109ffcb16e153f5e47a47354138940d99088c5069;
0x2e953e715e0c47fdcd618c2c5291215a73d3c1a29bcbcb7b9b7d362f211072c7;
0x577b3abeddb1cba0385cd479d5b80be73ac18ea5564d9726681d8c29857b509;
0x17f68ef80fe53b639194195275d6dd5671d2016e67b777a0600d69fd4e72384f;
0x20ff4e58659cb0932f9be3455d13d0e6591b12da8f4c61489013cf9060b12ede;
0x1e22384181c19d8b6c515b275db8401e900192f0ae54d144fa7c43c0295de2d2;
0x2b73bd9ba3aa22ee4fcb81ac91cf8ad03f66f640dfbb1cc7b61a83c4e7aa2ea8;
0xe30a774c353a2cbf244d3d014d1a0e5ff0bac5e242673ae33f1bb2030feff68;
0x6e077d5c2e4e5c9705827a87bf1d03ba0d1ad0d1ad6ca1d634d25e4c66a0a15;
0x121a212dacbbbc0ccf4c3b4292f681523da7c9e1a46e1ba0856b900911e4f84;
0x14a5405a71e3bf12ce347c54fde1d22398fc616db34d6d6ec57d8d0395589341;
0xf09fa7c4eeaba22ff000bda61bd7d4e87734f3f8195b38bfcecc6ff221d2863;
0x16c25869bd517bdef88345315641374ea86e66541f12724938ac7dff3fc14353;
0x293cf96970b904d201ef1baa8bdaca1321ad3ff0d67548d7ad07287d2908518b;
0xc5f2232813e8dd413410645a1385493ba715260b3d968149f307b53ecc793f8;
0x2e620a39a57898eba4992b7a1b2bd9b0c28573a1ff470f544c625a60ef624173;
0x1c68b64c8887d3dba495c6bb3608065f7b26b8d39050099770330891de2e8722;
0xfe00e735c41fd0086afc250224c2d48cd0e771edab73eb5e75c58f957082478;
0x1b668eca521af2f9222ae86819b5aef6d32d8179275e7b98f6b9c314b62653a9;
0x285025c188e98d4e6e58b0eb6dd46fd1f8d26ad5199eb9b647e99f70472dc4ba;
0x20dfdbeabb8900090725b38f84f661cd2ff5b11ceb3c6835ef698f7d8e02d2a0;
0x7d91adadd5a4f674b69907c533d124ee9f15988cb71a732d1c31888924d3729;
0x22c3db5b12155b945c7cc04c0cdb534db2f8836b88742cb32db40fd0e46c9f7e;
0x14b640a03dd9207764cffecd90500a5f0901946bf55e6f37b4fb1764baf8382;
0x1e9b912709e85957b58fa0e0d424c7262cfcf3c0840667012cab0d06542c6594;
0x1f4a75e965d66b9d9665ddb5a15ad09a9d688eb2b774fc8a86af46fd72796bd0;
0x3d5c637f69677e08331c185d53ba9759ae018a832da036e31f00dcee14513bc;
0x1e42641bb29a48b1b9c8a187dd6cdf6ba6029cb0760df90734b5d3bad8e212b4;
0x2d80ba897d626e0d3bb15479044bb007cb55262149e10f53e63f42a53b3e87fe;
0x2071abfa33f109a693fd07c4da6a5ca1175ff0413513d36add5bc72012e73a1b;
0x2857675a3c236532833e6c04c6c9cc91d4aa3e18eb8f38cea6e421c4933f058f;
0x9d0978a861b9d85265039a22191824e4974b2b113622dd453c71b0b1f8ec663;
0xb1ffb601c946e8089d531bbb8bc34d4a36e257e8596c47a3c773d71c68602b3;
0x1b8cfc651b9b2a51849dbfa72c4f39ae01b098997b226f58616383513c76ac0a;
0xe30a774c353a2cbf244d3d014d1a0e5ff0bac5e242673ae33f1bb2030feff68;
0x27d167fe78708447e11dd1f9e1342f67a9d2be1dcccb7c0bf1cac60b0d1f956f;
0x2d211a9a9b13bee0382fb707a0744ca47b3cc0f5a0afcdabb5c34e52dc8fa277;
0x41215a7139109b953e3f75f039c3019d9a32526461cb1e749bb5e4ae9e6df14;
0x139255318820d9f769864e4b9011bdcac24f5491a409c8d0088c0687554d0d28;
0x26dda446062c11b3ee8a7d9f8383db1f189859d91a03d35e92c2ae1399b994e5;
0x2a9d3359aa3ab359799d23c03f3ff677ece3080df978214c9ba08836846e31e7;
0x25571de296a11ec26c7f5b378dbc5837c3e8cf09679fc63da463d5a26e99f24;
0x2e9d042c2deb3cabd6d758a54cdeb282891e695d463cadaac01a44b64981e963;
0x1ccfe17477787c3bd72741265e5ac419cf04f60ebab95dda3cd74efebf34af95;
0x1aabcbbff42769176f05c33ed6e957f6efb3f404451d83c6c107313eb098d57d;
0x1c3a79dc7ac79b401429b1284780f82052b0217a69adc6ce431fb6de7075da31;
0x2451bc265dac3547353b487c443d19230f1d4f305ecb2d61baea643f183fd1da;
0x146ee9dc5bc8dddb22c7ce8a3be636d69c0c0609709b7d183bb8a5230f490c14;
0x1722db13180d33ba99b8199a7e6e14bfba7ddceec3bf35161a7e875c336fbdf3;
0xf90b19061d11f2a032bad6982196c3ec2132eae07e73a7d7b7aa1a1353712f6;
0x29dc1b8c70a75052d431288905d64240c6979f04290472b941f943deb7f7893a;
0x1cbd570d3b626cbff744b8fab455a37c54760431142aa6780e7b346a93f32fa5;
0x122e0d5aef6a9d944211b3087266a4dfdc64c2c1e129b146e4b45c93e8128789;
0x6a2e87f6c251c2f8a54661ac4c177f2ead8c66bd42cdbfcf0642e4b025375c1;
0x121b14b512f2b6767bc67691906e59d0c6f1f4be4b77e15e277526a51dbe1a62;
0x24337459df3d36f14130ef1c8950fd267b58a86b37c30ab87d57245719f3843c;
0x2d751407d72c38bd7803630b12fddc7a076db32d9016d3b0a938231b5f667540;
0x1fcfa3e97394e1057eb5ef247b47a0f610ed67d67225f4c8a246f54bde575cf5;
0x1ce46568fc2b31fc458c65d79893bacfb0cc96b0e08b51e85d4d5432e2447e84;
0x2a2035389af7aac382d3515d999e6a687c9c2e93918c56253c6ae9695d16d79f;
0xa7485a573492c38febb77b703b0675290ec615974c9f705fa63b175628b8548;
0xe30a774c353a2cbf244d3d014d1a0e5ff0bac5e242673ae33f1bb2030feff68;
0x3c0b95d22504012438e7da78b1a5dbeb4f95569d68fad5fa51f126e434251a;
0x12422748193dd5410de675c58584a4b6612ee3cb8fd929320a9e70720756cba9;
0x560d13602278afd0f96096d2554342cf3bc86970f27fc807dce69bcc0b874cc;
0x1339418b7b039d8e68260015f55b9d91fac69bf8232722f941738aabea21cdc3;
0x1cbb466b02755d32eb5d7924147801125833e9020af6f52be688e5d8c071bc77;
0xf5c38aa299be85be03b8f06c2908f0aafaf67662a714edaa407df93fd1a327f;
0x6445747eda857a8191b68e27d640cfd91d68273e54d888ff057001e476f00a3;
0x1604659a656d9ed6e5dec461a593c3eeb6a5be5dd722675425cf883debc696ce;
0x11fc146f9aa45f748a6cce102854720cbfb60f5297ed2f77b16c9f8ec9a4acd5;
0x22ebd4f9bcd07c59828633805fc99370cc17c8a818e04281fc862f425a83fae3;
0x51c3a4921bd206f65a1cab1bb83da2ec6128b927e2376508c74a7bba353712d;
0x1b04cf2d7a71282e57b33b3a67235c89acc5a03e6e5b8c2fc784891eaba9e221;
0x242de34ed5316ba97ae4f46f05aa9e7c2c1c15dad9dbf8695288c13171bea890;
0x2046c91a59d50c271c09271aa40ded980c91a88ea5f7e3b2b08858464e082c12;
0x26cd545999428c5142048b641af7077594238778d17196da2e5c8e1b253b36dc;
0x256b2f4800071aee94ac6b9031974f26fa6dc520938c96952878364f6f9790fd;
0x164a0f897508f50e81a4a51e1abe56413d3b53306c3761dd408e1743fb060a33;
0x1f7569343079826f0b1240702ec507915173f38d7a39bc75ad1c86cf79bd4414;
0x5272bb3e84e9d0cc586a7d6af710026f809ea06526ffe9da350fddccc09d1a3;
0x22ac9bed266b94c00d2f9d34f71a2d36c0d09bb30d9ef6587be752ed8b7fbc26;
0x7674836517777ed3779e8a584732a9509e49db9d94a77161b7870cef981c1e7;
0xffe7a0170bb48fb6c3e0b80e6244e1d6ef99ccf3e8a3061aa3136b1f7956cf1;
0x1afd9dce91b191147c5f764300d8eed362eee907616d0bd56c931aaa7683194d;
0x1ae34688936fcc0968249cf2077a1a982df5358dd5abc8deceb6f33b848b455c;
0x3386d6e82aedb6f4bc05d34e96805cf875bbdcd9f59da3b3b95f7063442b228;
0x1a1c06ea0926bd024640936f97377319fab6833349ac323240167651f3a01037;
0xe30a774c353a2cbf244d3d014d1a0e5ff0bac5e242673ae33f1bb2030feff68;
0x30192336409d16bb77389625d09d75f79f82e3e249b9b80a56d541a463184498;
0x19c8967febcf45820a2fac7a8f7475b591f3dc87e263392789d247b39eb74b29;
0x97570b91ed5d59d977e8e71ee895a590b529db6ee364fd82bda34ac18fd21c8;
0x1a4393d778fea4efd093c5a43b4f0fb318caedd91ed30e2affe80054b6cd8e4d;
0x31f540e1c1038a98ad3b80d8fc9bdfaea35d1d153da0011063b2472004b67b;
0x165f001bcb8a3a0f9d4e00eeaed05614063d65735dec8c39737a83da4a293f6b;
0x22e6b223b3e435309ee74f4920584e681c03c0382ad4d4d45f7f1e04c8f1e29;
0x153d4c74f674e56647007566cfc575d08220dd89f88e9199174e81006f4bc589;
0x46d4654e5ea12ef7d79ea7b540efd8cfcb0f8c803be7a9f3133227f8b673919;
0x872d96c258f6400c031024c81eb9e49f1aefbad34225fa5633347f615910152;
0x15e8a238d295f566b70246488ae7ffd1465a0efd12d2d688ceb2ad1cce50fb28;
0xa7c019933d1c0a25cb8de67da2926591274ac799ae7a0800e79dfb1a66b09ac;
0x1271c70f8805321068c895e1e0370f17bd49d7b75cf8e055b87f7615892c6c3;
0x11356c90cf6bd40bdd299859f2439cd098f43baf710198aaa457bed29b78dcd3;
0x1cfed55f4f804d76ddbdc211f248a7a7b9441ff124e31bae6f9f7a734f75abc0;
0x2f9fc15fa8a7aa7217dfcb63bc31e6e9a2ec67668ef14499eb4a6b932234aa3;
0x682ca8b867c78c917f04c2a7745a9a79182816677c65a771b019e64eff93abb;
0x21dca8a6aba3d3f01bc0e27ea518f049bd57897f1354141d461b4a0c8682e484;
0x227615abf38c854ee4abdef8b53b2687832b44eb05210ca355082ae06d9b5f6c;
0x2921d807cfeed7a85927966f1dd5bf26835d3877c7227ad8fce96f28d00b66f6;
0x1c9045d27121eb200e99a9df2b8e956f570e7cb06aaa424872e64da24668fc04;
0x40850a1c2d1b7b78b59dccb79077605dc647e3971b26679142cfa657b3e77a4;
0x4800dd5d34860acc745f73e61c474dc48e5ed88cc2a6556fd7d8ba47f7fe19b;
0xcd605cc107283534180cfecb268068cce0e324f8eed13dc548d238559feb80d;
0x265a4560a8a1ccecfd48264d9ee16af19c125244c13ee626b23d72bd6c1b69dc;
0x2d72b58f878e0d96fe819ac630ebae41297a09fbc79fff372928e6bf929a0850;
0xe30a774c353a2cbf244d3d014d1a0e5ff0bac5e242673ae33f1bb2030feff68;
0x783e03e1c20687dcfa329bfe762847ef8469b9a16f1aff46e721bcfeb4ed9a2;
0x7c549879769b6127b1fdd9e119c7f1088459b2444ca62f946f80265c08d96b1;
0x1025885c29c40db31ca8f1f490caa4bc621924e88725428fbc670555e4222db3;
0x21f0feca587fe54622a731ec88768d986581c07465c474729691e31a8b4fdb75;
0x66df9e27127d7003f397e03dad246027125ae6c99200dad3cd5faf2fe43de22;
0x27f3ab0ce10f55f231d7d249eaf38aa45375dcfae6add9b21783d1ebc38e4913;
0x1e2dee4d94a3cbe678af8b0a8bf277469150364496efc0ace58540865a6288b6;
0x9972d0bc51270751cf7fdfc95ab7208812d7e9d93a9b45386e0bbd3fb23c709;
0x147d3302a23dfa4867fcf2168badaff8e987e90f6c141e92bec278ce816a9566;
0x2e95c0b710cc179b4e39f3d45c97d0555437195d3e894e5bf238ab9fb9929c54;
0xedff84d026026b621e6de741849300748078db140c9fe04236c2e05a35d7f0d;
0x245d05ec0b5dc822bea9b8a2cd6c56da38bfdda0a4fa5744da442ba833098574;
0x138874360b6e98e6ccd8fef742dca0d8ec44826aacce221b311cf421a6ec0292;
0x1cc05be64c2f3cd2b68699c52f15d6265d493e7bd5ab4030a53c8be2fed67e89;
0x2f5edc508ba14e8271fc7fbccb3e7d8750f4322606b2e5dcaac7239ba72143d2;
0x1557d4eee207353143eed1b01c37806b4f0b6e688069a13b296214439bbe0949;
0x258650e8ca6e1162e19f92302d2a6e8e40b00bb161c7f2ca5b92364cb553b5fc;
0x12ec2381a018b71858df6bf6b0c9e02f14d8ca492878055dcfce660c7d915532;
0x2aecb59a26510953e9d38b5669447df6bf4c2dc1a9bae6f4b84ffdfdff6a2a29;
0x13201907ff8421dc74e517a6b72e4f997135c8f0e8ea5446907c6fd26f1609cf;
0x1db130e5583c812ea25e107e27899c895214abb225bb3807ea80232015d21e2;
0x27db99bc289ac5e1ad7b1192ca0c0f3b1614c77a77781cf00ee2e411835185bd;
0x21a326712c5b109272d6aaebb73cc74cd389543fd17e6f12cb3a6c201ae735e6;
0x2716f822617a359b60ba9d853d76a5d051c9bebe9ea9425d51b98475a9485809;
0xe99f2580adcf372f1c99d009a22816c53cd5272d479fd64016a45e75eeea381;
0xa3113a6affe5598d9d8ad2ddbf83ff94d56ca7f078a48713d0af15c4529291a;
0xe30a774c353a2cbf244d3d014d1a0e5ff0bac5e242673ae33f1bb2030feff68;
0x2cf67d5d1a9383ce14adf8d7b63005e058980ca148deb3bf0f17855cb115097e;
0x14182d28f17d764f790f9185a15a6a03144c9e41ed22e8a2269619775dd3365b;
0x2d63510ce0f51ac8f325327191ae2e8dac8775c05f87b87897e73416a53d1007;
0x11d2023fe50f1147998bdb7d03b70f70f1a583a67646b055be252e3393bb0fde;
0xd5beabdfc8def1c0fafd2b625bf1f4eacb6d3dd8870d0557af54c9c98b5b799;
0x2e8f4e6bb6f7a28422636a7d3b0fe12ca20ab14cd0c5c45c4ef13f326ea5fee8;
0x1ae5ebcaae05bedb59194e96c92c288479dce2ab43fceb24541ca2648245762a;
0x24cafb4c21af1cd16216dd42b7e5c42457d5fbf4bf87bdb65730418efd682a5e;
0x2e139e0df93864516aabdb86d6ab65d6598a0017346fd732e7f895aff36e9481;
0x2ff83bb2884713055564970f1e39cded077a9205cbd74adad70411e2f963159c;
0x2552f8295742fd94e0f264d182e9e34023f4163fc929c6b143cb35dbc61a32c5;
0xb05c0f1defa2ff4e6a56a7582a568d650a7a2ae9ccbc478be52bb4fe3452299;
0x2c0588283e0bb713ea7a22fb189fa359dcab39f137c9d5953ccd0ae136770f8;
0x18bfcedbba1f9279d2dbd1d0b4b728a4836b9682905e03f6d9ab9992ee702bdb;
0x4b314d086daebc4f33a7e8fb2ee578c668e91adff3ac3168dd3183965f51ec8;
0x6cd84135ffdd74d9c315bfe319d01b17060fee963e8373d1458e181027ff005;
0x29eea9039c59c939cb82a69a7def6a60623b9868e1a7137590b930140bae4ec2;
0x1972fc96c24121bddcc76c44074dba6ac02ca1a10bbaa7bb49ce6d7161b4ffe4;
0x1bacfc2d72d57f6bf695f3d82859859b329b87539e0c18313a1d3f27ab9afbe7;
0x1069e2eda47e9fb6bfddfbb48d740256acd9be07d2ea9883b63e3214d0ded0f8;
0x1d87dc8c8e73c38d20d2edd3f6b5abd456a881deeda90d0780176cd7770419c5;
0x1d08c8a0952b5e4fd915b39382a0ee45893e3c207e339e6c78f28f1787bce94b;
0xfdbab60a929d492017a0691032f8042201a3223c7ad628a6e1b6340d0893c;
0x13f25826edf3001e3d8ade5dd2965989ae6c2578b7e886116949553b6f0ce244;
0x44fa02e1da99bc4866c220784a4ba55ae28cfc47c4b9e5ba488f43b6141c7c3;
0x7492d98f774f6c8f67583aaa485ac632906a19003a7757119536b19ab78b9d8;
0xe30a774c353a2cbf244d3d014d1a0e5ff0bac5e242673ae33f1bb2030feff68;
0x1fbb89d438ac14128a40437352ed7182d10f22964833efe6fb46eb21b780ec01;
0x6ae819a8e0c57d44ee1ab07a49be82ca5544d89ab8518f844385576aec43234;
0x2b3d3a7605543d350b0838b9b3fa9656cb91a84287d6f06e9338154f316cbadb;
0x1620323cc24fb81854d716dcd972c108ea5d3b062841752a36c994c594199774;
0x53924bafabdf89232353e5c853dd8b946f617a28f094f9f92badf1c233c925c;
0x199241c82a57014e3375029b265ea7683611ead5148a8f83a231065c7887951;
0x1e8b6db0d447c099ae7433fae22a2e779d110bd3b8feca58aee056f7ec325a4f;
0xb3908d2ea7af26d42a913972fe10c3565f627cbf3b05af7b03a03b455d2745a;
0xc337f61785e502287e274c817e5f380e5cd314d1a3ce42887dfe19bd20e8348;
0x965a7d0f2799aa6f3ecb0ab4fdf5f02e0fd5386bf137cd2bdbc3e6aab74b608;
0x18d8dc79d76890bb7586c65d83acce6185e11ba38d288f4933f33db74234eaa;
0x2048602c11e8e771bb35415db4519798c36b593ea0b8fd4560410a7057d5d6a0;
0x2966833633f29aaaf9d5f8d206fd1353f140d989a7214cd13bfed0657b0b5407;
0x1c6ba85ab5f85ed4b53dc40cedaba63e5ef8006c724440b9448d64ac2b394b08;
0x65adc608aa6dc0878f5bfcc2b89b3dbc18c5944c5b868dbd6d263cfd386ccbd;
0x2f5c69bd32960af29ce7ab14150ba089073d74b14c18b63dce9242df8da666e6;
0xd4e47c2eefa2d97991d58198e147c5dc3f856665f35905c8dcc0c7981979669;
0x21dc79896380c9936d5da47117ee730c16563d40826cfed9a1415636bb6d9f6c;
0x11393d10b1b89df9a2e7c68df33f1ee41656ee8509570cd4aec6d68917732245;
0x2501a832c4be33ce1a4752aa3c3840b89c7eb9d7a2a267b16f076d9c90a6e98c;
0x29417a7ecc3faed51f8f4e599e13699d32073c5f3865d8ac92f664016060c84a;
0x1e6ee4be7b5f89fe5eb7f50ea73935fbeebc6ca8756580099b3c9a41a8a66f3f;
0x24b1094cffa81631dd9fc78b33cbd8d7a93d0269ac60501af8ff82fa646e30df;
0x1bad44f174f12802c4ec1dcafb6852b6b99dc3723bef629361b5bea594a7e3f6;
0x2aed2c26dc890d5283b53ad5f30f9354e22804016335e4190b551be5e28e4e44;
0x247d59448600ad981156c2e19e2be924d7b83bed1bacf16899dab7d7a8bf7f51;
0xe30a774c353a2cbf244d3d014d1a0e5ff0bac5e242673ae33f1bb2030feff68;
0x105097314bce2c2588aa56f191b813fee58479e8b541c13bd6c9bc8e654172ae;
0x28d5354a0ceb5dbb339ec880b3b6fbc0e7e4f07ac0ecf5348429e1af57069bef;
0xa31c76780b39b494f7334a7a2ce004b80f56d898ac155716f65172fce3dd454;
0x1225a8ce4e27af6625ad1a92530a1fdb3206135eb09f679b2b38c13869b9370e;
0x98a16fe6c6a2a433a045fd0d02346e5c024d7b4bcbe12d2594469a4a7a2925b;
0x205ad0dfc7a7298bcca92aba3ec23f7dcee21785c96aea116bcf71e07d9ba361;
0x148f1eadc8be731f95ef81b8e1f3634f44182101b2f13d8fe46bb3aafd2300b9;
0x4372474a7938acc947df6d261fbba26850a09a16587d069cd877151e287e1d4;
0x2ca6979a079cb2f455da4e23b90e191cff23e2d76b7d0a6d613e0c1a4507c4a9;
0x2ca59df55ad4923070a4669629aad754a88b50fbd4643d544045d76148451dc4;
0x2a7055f1e24448b52bbf572d0efc12754593d59062345f918ba7d90a27130580;
0xa644e2fe975a3d062ff496a17e7113a395ecf678289de53b2137df5811be1c4;
0x259bb7d88bf3f1c2f0521ff84c05423a250fc32477823c44d53e11cae6028ae3;
0x27d551eb8809df2e1c200a661838fd96bea30a7a0b7ffb20795741a46ec359c9;
0x17e37e4432360ed9a16dcb9cf0584b47ba049cba55b53ad5b5bfdb55cbd36ac3;
0x263693f36da574e9f6b1af2e2817e803080035a19ac1c2ff754f0f970d20c6f9;
0x1a893c4de3717842ede135fdb2a63f3c05c834cab22572bec21d57db7c3cb052;
0x9bca88fc417d85c16bc98e2fca531206336226ba3a02a51a7fbdc2310e26f51;
0xfe6944c3317d58ffa98fb3a991c22698ff20765d34c2b8b95802b83fbbd9cd0;
0x1ba3d144274a073e17ed52348cd82eb3e00c743b7d9d3e944a1e3f5a361474f7;
0x2cc42995586265e9cdfbaa845525177269b37ba7fcd3294074613d2d12af4070;
0xa83811bff1e7f22000720d598ed2e3508ee14a9e12ff6125dbdb78cf07a2d62;
0x4242918a5fc9ca3c34867d674dc7d1d1136ffb519de0eace1e6f911ea197350;
0xedba1a161aae781bab92363fa0d12d8fcfb5e3b818cddef8844f94e9db890;
0x230942de72fe0db9196d787b929144bf4faceb69b6f12aacb6e0d6b51cc7931a;
0x1a9561c0d020fb28ea2ebf3851832058ad1cf972e99841f4772a8c578b6ef48f;
0xe30a774c353a2cbf244d3d014d1a0e5ff0bac5e242673ae33f1bb2030feff68;
0x22c0fc9c00f53d4247c908976b1ed1e55c4138b96e9c3ac1dc1f4d268e64ef49;
0x22729d77b7b881af2f484a1a8438f52cb7be3b93c607310c5038a1d07253a184;
0x14883acec95e824ab505756a5336b2c5e1b984c6a193d4bdbb014c097734b464;
0x120d96dc5b428589ffb9f37b5001c6f5915b3ce4460b25331c62d59d65adc01c;
0x130325a89c8e74b5feebd6340dde992f569aaa3f9350e45d0904027087e89b2e;
0x16e6e793c81a10719f613ab182ad57ebec76df8dbef775cf03e1e316646d05f5;
0x18bb788f4ff54dc0981e35a7178809d1f2518cbd12e5e78a77c2e366d0543cf7;
0xcedee51d5b87d9ba52d6f12490b24cee9e61c1889ef46f2f882644046626461;
0x1bfe0f0059a451175348f8af855e1f384d1299adfd1f8d852df6c325130bfdc6;
0x1ca82eb1aa4d6081a46094f403954399af76a7d7dad88d5a9ca921a30ae1dc9b;
0x11e1d384eb2a64472a26e40594253acd255027b2bf1f7a9a518b954d0de04321;
0xdc70139469e918276bb65ff8334f64ba442cdd64bc1865efe3e788ff0c74341;
0x1896f5f3c754db9d8812e99665c89c873620d9f0e599c0b2db25f9b186c05bca;
0x2b1eb292fbf05207b3a916692003abc04683db775eb3e97bdd5f388df5b9e6e9;
0xe822a8b6bdab9cfadfc98982d3d27df53300922ea795b29e1ed4e61f2ef6b9e;
0x14447323538128d076a4a7c5e7d487256a671dce167e1a37f69601c64783ee7;
0x1731ac8243601c9ad1c2d81f6ca118d479b9d71d03ab34c282bf68f3caaca5a5;
0x1efef24cd417daeb7fbc1789fc2381fc194f515d6bf1b7a61bccd70a0fd13c2a;
0x26c6de8f5b580b7d222bfee2f19dbe02580da4e383217b4870f1d4c8f7b692cc;
0xd3823efb4c4808c275f720c340a733ffaab28c36479978b485b346e4ebb1ab4;
0x24a2b1d438ee871cdf765b899d2f068811a6f46d02422c133ff6695a7f304593;
0x9fe29e36bc74cf6d477ce054610f63a43855a08c27b86af1ff58e98c9fe686d;
0x123e4ce6ab585e748a6424819b24aa2fd60e371b9842355df95ef13318346c10;
0x257d0d633e7b8e40fa3a0c30548ff79d268d90296d8b5d3e9e7ee4f39ec814f0;
0x21f4b792c1fcaf55e70e1b1804cdfd952a7ea45dcb9982c315024446e36b4b5b;
0x18cec0d331cbb93e5cb4c1d4f1080de356f465e2ffb2fa712feb858bace4f5c8;
0xe30a774c353a2cbf244d3d014d1a0e5ff0bac5e242673ae33f1bb2030feff68;
0x1e5f08ebfc9f997ece7730536dd4cff8b519ebf519ad1342de3c2e26473a0b5b;
0x2d77d34a218a752dfa4b941b63d7b02ab6078037ce22ec0608d3b7b402e4efbb;
0x19004b8f6ea39ba279e5ecf8210460c112c1a563cf106736d9a0a46b7b842695;
0x11fb4988936908db3d50905adda5065ee297a7e7187c36212ffdf5f81220f256;
0x1081ebe3ee722e4f687bedf259ccdcb6fa46420c44d0ea88389917cf6717c04a;
0x185aa8d933cc96791097565775894b15e2858ec2980311e55d9827471bbba810;
0x1ab306868bac9a5ba65245b93f2c9b936de449a9091b45f3473bf97dd425aedb;
0x2f1fc8f6cd473593cf38527156e482897df8441db84c875587c24966f6523973;
0x17770ba5bd03c9275e2fe0ebf158ca85503ce65969cc9f86e3fb3be24e1fbada;
0x1d0d275c4971978edab4b7a7cdd85ad72c204a13415f140d9d28b8af514bd692;
0x1ca07f602b20372b8d50c9863fb5ec9fa033c63eeb293015a4bc91038be3f7fc;
0x4782f31c8fcdd4898af76effd524fd0739c8ac290480fd0f32ddfa082dbbec6;
0x68de12e587aa2c26e2e509faea0fadf79602aaea46e45b608be969ebf46ede6;
0xf47f3f88ec297c36cc16581fe223a95388c7c3baffe6cabc7f4f669bf746e96;
0x17bc99581c7bd39bae9f593ae1d72e99d7628db94135a65c2c510727f6148029;
0x1d85dc0db735b4877d9f1639020da87afa6580963e0c2dc95c30a77ec57ee2b1;
0x27c21a6c642486aa075c9a7757b96e68419cab8ed819e40d179992652eaaf1d8;
0x1c15013e0719650306487b07e421e718ba9c35256964071760ef99c6b8aaad28;
0x26bb2e4e2bf9a53e1147608d79a93bf730b09f4e651d6b08db6a509ce44ebbfa;
0x2cc7e0fa1e964c48a3e0fc90f35e4e74cc01b2f74cc4de884a2dfde37331faa2;
0xb9c87dd914a25c9d75070b7997507399970d9add413b9a8e4397f46ab8b97df;
0x7f9ce6c590326b73f00c860875f2c7d4e6bb52725d8e4d6958caac8f46a4ae3;
0xc289d670c7e2e743fbd60fd2a2a5e3ca077b4bf44df78babdffa232626d3900;
0x190ce149a93a528cb01fb27da9eaa39de2bbaea50552a99286d4fa80b8e7b22d;
0x20633ae2a05b6d69d765ab6fc2e335ae0c5dbcac130b204c01f88f9cd091b12;
0x2543a932d6cd8dbd7533f3bf5a905c366dd1ac737290f6671e7ad6adb557778d;
0xe30a774c353a2cbf244d3d014d1a0e5ff0bac5e242673ae33f1bb2030feff68;
0x22187dc1425cbf505392f976a839df01c17067dd9a7e67d09e9078f1ec43abac;
0x274579b98b4831b89a42351a2bef67f33a0741af871e3b1911edce28d6b1320e;
0x2c52925562b2b08d1d1b2696af293157692f2a0b7f34052cbe8e26e80071d256;
0x2e2f8231db4f3786fef48e7b65f9c890f1aa834729f769feba60a3554b9284a8;
0x521922aba91806b1e4e13a4bdf92fde9737099751626a1c4d6011cb0d28d488;
0x2ee11408d02e460309bfd46344e5557bb6711504030c84d81d127a17aa72c787;
0x175981ace0eca15153600235260b821b4b05013f3e0e3cad3323bd32588b398;
0x1d17093c739566880702816f776d54eee78164e5716335708fd67bae6407b863;
0x7a6e2b3a2495845ca96a757a279b823bec23e6e2c2ee41f3ed6705a9df22548;
0x1dee69a0aaac76360a66e057a8eef5bf7d845cb09a3eb27bfd152239bc8a6818;
0x15df16ae54e8e3e211eb27f95f7da0bdf38da9530007085afc20553468eee2e0;
0x2d85cd78c80244f0900115c6f5f5cc4cfbf8295c2a0b685f987144b9151618d0;
0x1e894f052db0012cb83762d3fb2a824db10684db641c6e3eaa9fe45c9561541f;
0x19bde06d6e7eb6c84a02e9a0f224c77c0b2cafce0fba9fbfc063a46b69e81406;
0x2897de5d9c274ad4302ae652103f0d8d3a041ae93c0d461ac15d30d36a60edbf;
0xfb0ac77f9a6cfe96bbaa646fe280d4b5449eda51b5cc1ac36325c3af0f4f830;
0x2c3f06f6f736cbfcb1b6927b53543c31a95c648d4828ec34401c2474c932a48a;
0x23e564383465f1d1f7cb62a80d4995fa2145cf6b06fa2f1e0541effffc19f5f4;
0x18c139146446dbc956ff95270022370c93ee09947cabee3b0377d1524ec20807;
0x2bb3b1a1771678092e80390f181fdc6df345e7641c8b7e4932708ac1f332f0b9;
0x8df0d04a0d8d1b2b80f219c33a9266675bfc080532e9e66430bb67e05360f7d;
0xd39efb103e032f986c875db6b9f6a6748cfaeb333c93ad7cb45e755eafe48c8;
0x5f47c6fdbbd7b4e59cc7877eeaf63cb8c16c4dd77f214428dc94b9b2c0214e0;
0xee1051b33292d8a7dc350916b62440745f2f47981721b80496d2aae0c9ff288;
0x2bbf58da087230463a98b210824453823aed830f60432ce3156c583e06edf08;
0x1674e5bc670e98029ca22d400ffc19a4200352fb152c784da88be0b67ffa14a2;
0xe30a774c353a2cbf244d3d014d1a0e5ff0bac5e242673ae33f1bb2030feff68;
0x8a1e55de3e637ffa6b051ee33ab203483029584daf0c57c454bba30cf6363a8;
0xe5b4497c397b27ca78254adc0c66a45514929a3dc0cfe2ed3c447a5d3926088;
0xbccfad82d3fbec329e684d19569993c855483814fb2547e7b96cf79ba875616;
0x1908c79adfdad4c4aeda2295a9db560a33e91b01050448491632705b189ae1d6;
0x1299565dbf2547b30db50f5dd49ca835c3213eeba0130e835aea4add65037abe;
0x2b4906e765f1e80f6e84d5852f34da89ec6d996c4a40a066c68b6a98100a2f9c;
0x124a247b0b866c09ee5d3783bc715de3244599016f0fbe385738f95cb5dc0a28;
0x77d1bac0f5b226607b2765d8d48118b1c55380c60aaac2ec0940afd0c05b24b;
0x2ac41a842793f693dcffbebc5c08ed6b4aecee7db956ec59ddc230a7b3579c1d;
0x137d327d41a9c6e42e20bb705fc3da5a282c911c8e7a79cab4e3665fbc3b529b;
0x2dbd1fe87204abe2f9c27a8343c7257a93e781451d8e159feb4ef12f38b28e58;
0x20d9cb838e454e9841ddd4792e4ea7b8f51cd7d7f271d6e32f3fa963a6d2cdf6;
0xb34270663039e315f63a5c992e31d5d09451221504f85b37e1480067fe92174;
0x12826e5b9be1c9b85f7c98aaca9ce28a870687d3628d60def0ab3072b57b09b8;
0x22fea1297a4a5f08904d555c2e15d016102a4ed29c32b4bb10809ef14af42c77;
0x24cc6751894087b831598b5bc7f9db3cbb48ce294d9208e1aa436cb5fa2e80e1;
0x2cc3d0503a0e1da952b081ba5dc5b117e646bed572a645266c6ec3ce0a1474b9;
0x11eedbe5a5969f33446503494b469a2b83f88d3aa477e5d6d7963a8333a61315;
0x189ae9e9b162ab1a19d599cedcef428bd1325c78740aaad6715b710bfac4c1e6;
0x1aad11449d6e2c6e1adcf9e89114c336c0145528f356ac049f52fd8cb084370a;
0xd7e1eae2cfec406402d34c259e5966f6e2eb261d4f08e29088325a6bb669a63;
0x796a23ad6ed2ac995104a0d3e6c75e977ce29aba1d25e62a9a8a20364ea1be0;
0x299b8e8621d7d8c8d3d6286cb126b34ee53b2dc9a3697b8380c6e47f5711345c;
0x20f11ee81d2ac9a9ed1cac61d9cfdf10bf1b49cdfbb6d232872a1df1427c1839;
0xa403e979943b8d2f947f6eda6d41170881341bb5e4fbbb3b4fe3dd7dccdd777;
0x4646253380f4bf642972ae81977779454aa0833fda36b1822cb9c09719e3dd1].
Definition tabC_15 : list Z :=
[0x148d9e4542066b125da6d69ff3fb676ebd27e6a38a1ff4281bd639c97af6ffd5;
0xb60a28805324295fcaf51bb88d9692372cbf4eef1cba8b85cbc059346691a88;
0x2d38f812ad1d7ac79c32fdd57a56edb861885f20fa4bc6d0d942c2f41e8e4a7d;
0x25738acd1163580033367fd8f1ee199d7eb3c37891e06bc20e6b476a0357588b;
0x247f6967fca42689ae8e20b5a7a198d63086549b78c1620a51f5d36824ccf43d;
0x2e22813077a668b2b75249b8d515a3dcd93502006694245bb087ff0732708b93;
0x1523ea89be61be47e1c36b0e024068c28c48da74bf7069ab2d77389c83d474f4;
0x146695ce138230e087b53ef1bf81601f2591dd344a7cb509f138939369e0d1c3;
0x12d05d9571fa4b4171886d9c2cd44c7d7fc5a4125195e7d28c3c47cb5cb5b7c5;
0x242721147084d4613543788977111f3fde6c89326a556e35bccd2a2e73cac68b;
0xfd921ba8395a5dde833e6dba4173385007b38d1af5e3841a345c9a480c9d292;
0xf0bbdc7a39e5146929f2e1ca9fb4a63550cea8f12109c1d82e601975d581f5d;
0xd65008588b2ee1a4dee0313b6d4396952d901385f2e1afe6a0a0def765dc2;
0xaea567be31e1c42ce33f589d903363a482f21c1c3d8fe50fa6df018a2dc7c25;
0x2fa334757b03dec6be1df758ebe0353317b35316ecfc72934d069f182346bbd;
0x2180dd9f972b1eb5e8819a843d24f650e8257e7a8ccf6eef3fa3d744b16f073a;
0x1787a3fd66cb49328100d3574d7070199a6bb88b84df6e9b44afce9798233c4f;
0xfbf506b6714d64dc8623fc0cf426f918053ae81e5847d3367ae7df02293da8;
0x14f57bdb3ddc75b65eb0720e27daa09412b30ecf7b115e8162b9e55faf49f5bd;
0xdab0bef8d2d1adc80dcca581e1891ed800bbf4153eed15ce71ee5e0b0bf940a;
0x25f6be3a9c5f2a6ff32087b2caa01b3a1b7909811f025196f156319239d359ac;
0x25b541b96923b17550e137a4a5bc0d544d00c5da7715c6f00bdffb9bc56d0dc7;
0x2b4ad0860f8c3c432f2a037b0e2f7da7a4a5b3601044ba24a56b5b9a3dbda40e;
0x7d5817bd123f90a4a3c2d77528fd9366321d8dc69988458cc425581c9643af3;
0x13fda3b1d02a53b106c4ba4652cd90f466b97acfd136c9a8431f1dce531aa443;
0x2450fd6b1a17be1ec4638786bd3fca4cca4cd871268eb07b1e5aeeade36fcb44;
0x1c0753ebf63794a29dfd83eb0d0e76f6d1ead583f72f64c0be39aef9e577a0a1;
0xf110dc007ad810c0fae508899bed20aa5cc8dc3d8324f0f7bbc3995119daf8c;
0x30623c2f24a7c6ab307f0e88488a009922fc2b8235fc741526a4d3e6a59228af;
0x1d895817e78f2f1f18e53130a6ed8bd6e1d189543380f691a969483f0ae3148c;
0x3abf174d2075102797f61660105cf418ded1fab324bae35d136b17a0254c01d;
0x237478172f073d15dba9d12cae6433ee71521ac294b54d78eace7dc941b2f82e;
0x180f820a7408dee73a72ac02f7dcc75f99a2b9f75a9aab82377d373eddca712d;
0x2a5ebba744ea7a6e8210f483f0b6b61c1feecaa867c8c11aea0488b822772614;
0x2282d8326c3c12e0f7575e1acc4bd941893732e1e7d3c0bcddd35e366edd5f7e;
0xeb67d8e687cb2cba01552ecfd4fd7ffc3d5788cb47aa3887a1f2ec3beeb08f3;
0x176f406cc04bbcc4bbb82c56e4ec20bceea588f1bef8fd757e1e58d47545b77f;
0x1c4d0cec6c8b22be0f1a3e9e32705a8a221d887ea0bee1bea1a8226608905658;
0x1e35dec79f5a579a42f82c45b1a191147bcc4e3fd02f45af412eddae08db4ad9;
0x75c4a33b1289f7923abb46d7a684eeda712004f974ef5715f4e2b504397e9bf;
0x2f416c15f901818152911089ce2a96018e79a8fb7f311c4c6a4d9ee9f7d8a83e;
0x7a92367d210292658449ef3d46ec96b982c3448053bffc8d27b17a643f43979;
0x168799e51ef2e7c7b435a220052e06295f6c08b1e6b0b5122aba31e2d953e44f;
0x2c422cb4040ce223ae9c21dd7331896b68704c26a8f4ddc877bd0659e75c8c48;
0x29966fed42c09b35591edb4cac0574441dfcfd4f52bf0cc31b2e624b7eac280a;
0x26ddc145a94457eaf0283876d4ea7d6bf10b7827bf3a684afb10fac1d172894e;
0x13a8a30590a2c5d476f60d9e9ea7a4c1783a5fea077af03299b8c389641bf4c2;
0x21d12e7122c437251656760882eef8f3168c237646f3a58a51c265d8b45184f6;
0x271a6257306b4337cceea57039d404e1996058c68e71d63ce1329810af2da4ee;
0x1980478607e68ab7961860e38dc78da21f2e453f89acdf82ea62ad9295d8f625;
0x260653cfe0ebc0562b54b9599ba00669da343a3cb3a14c64f86149d8510df8aa;
0x2c4fd7be2751f8b6129d997351088081e60585ff012498424b526483f8372f98;
0x640c9db6f458697dfe17610b0692908cc7f72c1c0bf5cff33168c4867c22a0e;
0x925e62b7772164055008f8765b827f251b006f2dd2370535df1a16e872b923c;
0xaf4d8cd74eaebbf7a29bceedd1dcf0ab0d00f8de6442bb8626e7f04b043f40e;
0xcf6a34e2cd376d6b000d8b0a5ed004e7cfcad8987f3650095f4d9740afda335;
0x1e75dc69b7b94f915b925a773280b9b3a2341ab9069eb87c883ac87da102d9e7;
0x26bd58259c27facfca63e248ab6a130ea9893b53928f3d373a0a197c5c2737e6;
0x1511b6c19aef08f6e79cbc7282cf4b5d3eb07aad10b9f5d65e005e5433db1130;
0x26d816f8378615ea31b08673baef673c5151c036a5a34ff11cc0ceaffe4ad982;
0x1c38d60817c3a646a15d82ede53a8ef821ffbeb2b16c8feabd6fa7ed02e65c2a;
0x2ab192357923d1198143414d448648ba1f60a917f4806bbc2a4ad3b2617ecbc7;
0x2920a902ac2c11523c9425ea2fcf9cf430b6e27c0ae9f587dc9bbbeb96536352;
0xd4e9bfdc6f8dc1a6ee5aba8e5f9f67ef3b83a526012953a99c83edb0ae1994b;
0x295bf676ef95ef309c1d3f8dedef57582ec317807a72ec10674adcd1b79a1717;
0x232180e854fede1a3359dc8f1a5e14c3ae7b5186fbb1a3f6a6fd9f5252351812;
0x2405a43f35d247ffb75de7586ba2287f9b057bb321bd9ce9bed8c89807d67979;
0x18931b27ff3a9e92903717b2eedae0dfdf33e9cb5f0fb10a35bfa8f3badbcdc2;
0x1fd6e10af1b3189d42548c7ccb93749c4146adf3997b8d377c095445d90af092;
0xc4772ff9abefc798f553554cc392284b2a8ac4b043708c183f18bdf6d69be41;
0x227fd4734e7471641aacf664825d3b15ee10d0283c2dc35364c9b167ccecaad7;
0x132faeaa250b60ef57f7e0ae17f1799fc9530ba5e6f2baadaf01b089595df9df;
0x1fe24af9ab6246e0c85104cc31ba59175c60b155647623f893718608efa2047e;
0x2f376b18215290f25c3fb987cc89569a3f18ac443fff16989678e205871becb2;
0x2f2fc0ee912aa02875b096e48336411eeeca6f3de85152f51038ca291bc0cb18;
0x2cad38124d882410c386b4eb1445ffe1c73f7b789a273a9cd266bc232e4c68b0;
0x52002de9c04553df4716c46a80102ed453be8d5bfd9b2f0ec7c1d3002a7e7b2;
0x302d680ad3444e026b06cd6e4bf62cf7df234ff9e5a46c48c17c2937507cfccb;
0x2b3a9dccd38768197abc3b4cb640ab3c01206f49add14d1d705c371c7f705afe;
0x96a6e47d4345707b5c25e86c8a690268f5e831e6df4d864e1f3fa90f2d8537c;
0x2e2b005a0a54d0fefacdc8c153e84f5cbb50ebca105fa0f0242343fc4893783c;
0x11c8ac2a7f796c7852e23e76cdb576cdf35bdaba6918f90cbfe7aa2265554a95;
0x2c2e66451aadb830f1c91d8554f2e39e4ee19b15709052851f481629bbf12b91;
0xdb078c9e2f68eb7d8f869554da434b9576f186dd943b1f586b9be61a172f960;
0x79328f87f73198430e17dcd7613bf651afdc86b514295f7c238d2f267618abd;
0x57924e8f3e798044d6591af796b74ce96bfeb676de3313eb50e0810136b8b09;
0x1730b8bb9dd03d8326981225e8e51fb9237e4c03fbdde5f0ee12004339b6b9a5;
0xd121b54def21112d91a5bc9fed5249f5dfbde7c63bf2aa63d14cb59b0dccefb;
0x13924c1b5bbe6d5c01944d682370c13cfdfd90f17b55f07b05860713ba9457bf;
0x1cfaf7ae08968c76279003598eb1f7eb6b76ca3efbaa873f21e3e0ebaa637ce2;
0x20908d07c87e65c8c66ae29d2ef20f8b8049e304a818e769a3c3c63ee4eee0d2;
0xd225f408959d91768201fdc03575a68e7a855939852c02cf64e3348fb383d42;
0x112785d72b09b749a03120b3ed7cf793a99ce5710afd2f07d1eeb39974f03340;
0x2dc01fd745f8ec43d61a5b355b459750010ec7e6b4a13acdcca627d7f6f6babf;
0x16f35ad4dc8075f6c173b9588be33839ad67fa5883783b0ae6f0601de726afa4;
0x1bbc143e6c93e6741dae37037285fa42ef8dae0d6fe3728b9e92e79ea566b277;
0xdf7e17da597a37884ec03429b49764d9e8cda46fd656a122f8c61d9123d4aba;
0xd73b0c0a745dd49bcddd632d4e41f57b39c28db722520c24cb3d9ced0d8ab33;
0x263f950c95141a28873f4ecc0d18c82b89f60e7042cb3e9f128cfc5f03e38580;
0x195e19715160d996ce7464f95db19bec2c71c02faba0f2c6c5ce0ad748fd3d3c;
0x1cee7204151b6a47ab8ceffea244d1928621fe2661b5c095d1cc24c1a6579693;
0x29d7696ce5bb66f2bea6d55ccec4dbd464298d8018135f734d115430cc82c42d;
0x26c47c18b71c8e81dd025369e12e24ccdfcec6cab974c0f86da98deedeacedc9;
0xfac9631760c0b7f0824bf81492797db8cb3f5e4918040c4af17a4c042b116e0;
0x7e7ea789ab2f31184f5a93820b08a4f6bddf02fe83f7c42a6af69a6328de863;
0x20eb37fc65efcf8d87ab26c7cbd24ce2b597e7d9a73fb6f2b9db3e0775534bc0;
0x20f4028b63bdfeba4e2dad61f4232d2a584560aeb71bdc2f6c3929a7600d64aa;
0x60e204b7c08f1784b366a37a86d0d8d90c386989cd167fcfabc8c2741aef9cd;
0x408cadd2b0c8fc39ccbe8366e16edee16ef6fcb00bca0b843681ed56a6784f;
0x1722aea32703f506f24c5551e3b591dd24fc4ab9d188c149fd1b75e7b90dd353;
0x2b056ea316811928d984e2796d56842e444501dbaa8cdcb546af5de36364f4e3;
0x276f12a02aa48133e660f6e93ceecfa60a529dbb444a4553824b981e3396d169;
0x1199c8941c5f8f8ed0cb67c02c5e014364ad7f708222ef17e82378e4c155a8cb;
0x28a3d2a547967bbd877ebb18ed238e91706b259a1723c1e345de5b545b8a943f;
0x244dde50ec65e0e66cc3bc269ca9689e25a89c5269a4b7fd5137e9ab6b7b1be3;
0x18dd271a54f6e5ac3aa02025470b4612c9044be00c51b80e347938a528fa9d70;
0x218e424622d7d41f3362cf743106e890d8d2108695e25d279a2e88beba3db8a2;
0x1f05c5f5041b178a54143a02e8850a9e94625955af047d9e658e7cde580fcd4c;
0x191da8c6357930716bc0fc614b80b71ea6b2540d14bcbfcf251086764f3f6e7f;
0xd54bfbbf8a8cf7c99b0aa8e6a688b964e50e68f2de8ce26038e155ac0632fdc;
0x22e1e8bb2d7d1216a9814ff5454f064d67a9c56e4bebf7700cfa1b651decf8ef;
0x1f0fa78dc7e2300fa36abd2a40c858fc10ae1455bc43695d121c187a26dfe7c3;
0x151c8de5c4d6b41254130c6977f790f13b73f6fe786f47d32d6a0e098dc8ca10;
0x191451e550240b9f0f15a5f0ebbb360ea9b98c6730e1097fdf6b7b8028266433;
0x88c58a21c4ac05f1169de675c2c543cdd22bc1dd06c42fcc4eb890bf0e518c6;
0x1e431a01a34cf72247817b3c5684f042878c6d8f67ebeddd047773744bccdcf3;
0x8a6ad0a360a0f2558f78abb268a4c7dce19ccecf989a34ad2abbcea4f50986e;
0x2fa7d3a514d879b93b93049fe276e60716c547d4f290126c15e8b666224acfa3;
0x2f352d9675da8d7c81494e015133a5b8b4c62020898be4468de2fd81a4c2cef8;
0xf6ebe0388d424da0c79ac329f4b571cc3fd8d5bae54d596e6382da769c4fa6b;
0x1fe4cb5bb70a9da24e0f598396e434beba5ed2e9ad539951dc93a38c37fe3fb6;
0x29f316d8c7f3c8e7929d30849ba99edf66e61a2d414e6960081d0114f45c07bf;
0x4febefaae3e20b5358213eef06d52c7b7817a4e5bd8db4902d2ffde8868564e;
0x4d6b864cd130aef3a066bace271902047aa0564eb05701efaf55d1f218eecb2;
0x159747ffd019c389e54acb68074802edf33332662d5dbbba9b67a3c21dbed46c;
0x2116bfbf5067716afcba7419b07b3315f0ee9c8ddb034a6e6b5fd2e78793ef3b;
0x2ba76cc7a25af15695fadb8fd7d436d91635eb3f251b2b46dc317c8f5060c4c4;
0x238465fd273e538d938139210520a07f2ce3bdf50e381959486dbfd4dd0b35c;
0x5c340a5328ed50d2b10d24af11e763ccf9d30906e5bfdc2a0f23fa8f23edecf;
0x279ab61cfe4f25485cea4bb3491598d816d5734e391bd1a3edcbbfee0da1c6ba;
0x76e2fbd39d4fab2ad6de8d53e70194771528f4ca4018fc56c68b85f041568d3;
0x75cf8404428a1a38f04accf51f5ea6a7f7d7cf66ee412149c23bf4c4e61fad2;
0x1b45baff5397fea5757900b2499c0aa66447e5e6372253457b9d2472dfc8622b;
0x1a39fbeff40b73bbfff7232c26d92db4afe3286cff840d193b4256a66432b09c;
0x1a4d4e0e68afaa99c0890c322d58e46ebfdfc24808688b64fd23ddef4e70c7f0;
0x24d619da14e5505a0466ebd24a766f2af1fcc6fe2dc4bb58440f618d8c57a7ab;
0x274442dd02cb4d494bb38c28a42fc02494ab3eae56e115cb3c65ae4aa728716b;
0x26a9f2469481a594f9b546553c12df66c0fdd4b4637370cbe695cab374f5f115;
0x19b6db087b1cc1c4b765e70274236d981d5b022a6cf0d3aabd478eda2f895894;
0x231b94b5e1f8eda3405c1a9a05024fbb79f8722847c8c4dba6af33b0b5e8d072;
0x276a571b8b2cf637ae48734c01c30a91890729cb137862d09b0dee2f255c5681;
0x63d0dc1ce85c55433a780bc6ac9fa8bf4511ce6c37a121b6712cd8905787751;
0x1b5766499bbbe4410e990a078a5ee8d6ad5c4ba9d0468a056c10e0df4f3af63c;
0x121b65097837a750d24e9dca2ca61b8ef80e1ef478c3d4f1cbff64d4256da110;
0x155bdd180e1446723320311ebf6ce1668158921dec0c5d9496888eef28fa8396;
0x2c8541d4945a6610c164b4a4546b2f3b9bbf6dc9316b5658927b635d8bab8589;
0x34a08d31b52da90215ae00874307d421ea20c786605ae7fc87d0be172b8c3c4;
0x12552fe7124ee6d20886a7268d73a94850f06a600448641df55b08e7933077c7;
0x2d19c9d4694d594c5382702070e7057a9f0c7f7bb2ab83ff684810de0e2106cd;
0x20a7d7794bdbe939ba166d34ae843e1d84eb4632122b7fca26f4e341b0e28b29;
0x225c213c0a3c9addf32f0c5bdb33fd6957691135d84757b4c44eeba59469e561;
0x2eb542a5c77f34c674c1df077e89408f5481f4133e3ba62a4b449cf64f9b2537;
0x303a003af9c1e54d9d3189920396d0c752c9affe1c17e3fdbaf67b3811fec7ec;
0x2c42a27e94cb62ffb6c169979d09f39387a9e9f9b6e9df71c9ff4165a8ed5673;
0xae6ba5ef2e7dd64e3f24af20271927e95859827e9a9d32aa247de70c5af9835;
0x4c58d44d2b14455273dda0c92739446ed59599cee1a505d0cb3631118845410;
0x2a5c4931de9f553fe4e020755d8b5c10c12ebc234ddd501d6f45b1b2058373f0;
0x2fd94eb892152b5ac3b73e6061f3a4f952198f3c330e150d4f44c933e6c8fb38;
0x1b5395c281e1bd5763201cd1c72a3b5db71a99ffcfcf7db793704c0bb4d53c94;
0x26d18b9ffcf39ae62f03177f4639f37f569b80500e0bb4553466d67b46342b82;
0x2c4eb768a6db2db295d215ba0f81dcdcd77e0e34bc123791c03ee7d391812b38;
0xc2e3f65db73f4058ec7c6cc3c3ee5c49550dc106c35929f0bd2d04590309313;
0x28f15a4dfe1c74ae128ab27ca3208dffd9313d4e87a759136eee3e194cc925de;
0x11ecc3e8d929c5be84af974cce44aa80bc74a16f13e9b9627f705e3929fd2119;
0x239d451ea3e39517351019674cbc2a84c6a7add8fa6080371768859e9a89f275;
0x2a2a9313720b4adb8e4f5795c3224053b31bf2d6016d9096e56cb87f01f81124;
0xc0089ad49e3644745a0e3596312b34ba6c0faaf19e362bcb56f4a7974c6db74;
0x2ee82c31a946f5d71be03b9a041596afe624c9c6a6c4907a8be5dd274c3d1524;
0x1ae0e9d39c6100a8ded3e7ecc34988b75c5338dc936c91c6f1d95c405c07bbbe;
0x1f11f75c7d0ac841001b3123c045526e98c203d1a6caa18d635f2f2bfa735738].
Definition tabM_15 : list (list Z) :=
[[0x4523bf1a8f284c6d95b310dec2b54e0e00e59b571dd9d46b6201c18e1b56dfe;
0x113ad8b46c3eec20c9965b5a7b2e8a51529871d0401b4de6f63de9e5211623e2;
0x1fc50a16dbdfa1c3b99038f47f81a1c5d1ef6e7b221d4ccca6e821220130e000;
0x1214a9d6d7288fe85651a8cb83048c7669c83b5ed82ca2642fff01e852a44b4a;
0xd421a7c25af5538788f49475836712af5da156f88c5867568cd958e305026cc;
0x2de8ba83d2b6ab6a711fb9230adee1cba46de8c930c86d266acb8c1cb9684e24;
0xea7be82f1cb493b1bbd83ab7ca285bf0a1559ea05c3f59827b3b013d0a91fb2;
0x1e3ae7e5775d352651d713ebdfcebf9ca8e905cfb792bf7874239450f914c8c5;
0x5943e3618a32cf050018a4e2375f4d027b8c14ac82a0de57cbb90c5122a64b4;
0x603755180f66e98215d61e5346b116cc00cfd058274d7d969b3af95e78bb335;
0x19817db66fdb8215ecf70476c4044c3f41d78ac5a549c684e35845947dca0b11;
0x73965f7a9ba8cb33a955d42da55fd7c37a3f0226b029d36dcb3fbea95d642f3;
0x9a550431430846b6694125b5642b00607f36a1a29485361a3cf427da77eccd0;
0x68eb4e9d6e0a588b61a6ad501f380da0f009067666c0853d156e33d59c43515;
0x225e00a0da5a7f7496b70d0923a7cf7ff332bff06958cc0f3fad439874f6024d];
[0x19a92ac6087ab89982fe5650e5e799f91003fd8b45400748d2c25e40f04c578d;
0x7930cd5256f8ab77ab92b08bbb5b195a44a2382c66e27514619efb94e649110;
0x2d8d3d924f2897199e38eafbc7e101d17d7e563488a9f3198060796ae84c1b08;
0x1c0de2bfeafce164c9838067a8df6340f9d97edf0122333159b714f45c3f13b1;
0x20e4a28303dd55e5cee332f30eebafbd7932e7b3531d942454c344b8b8c17cde;
0x1bb15ee4d492a8e2cf1b10db1b738c6780066ea8347abe536357a723f6cf57be;
0x2ccf31a572412bb7d9cfa637707853217e7db5550b1cc30a894cdf483a3b63e3;
0x1d492c34b245bc12941bb163c5118bfcf85bc4f344042b2031ed8662a1f6ffa;
0x1c9b5c2c07fccfd9dc6b3abfe05675fc997eb7b8cbd8d8b4cb7e671615b0ecce;
0x243930ba01dfd3945f2aa02d588922b47c1bef2ff8023a849b4ca66a1bfe98b;
0x8f328e5e66c0b879b36c233f598bd8578d18e2da9f019f0411731524f42d90b;
0x284a2f083ee32a6663081c800713e0f2395e348dcecc89fc81aa75a5db2ba12b;
0x19772e83816fc2c49b96427c6ad0573347fa49a5df691252592aebc390055a35;
0x2dc5900039d4c8523ac379945cb9b58a54e01dbacd67f0c4baee85d353d3fe97;
0xcc378b44e58f668b45832fdab4a49372731ef2415c37f40b5ded5594aef3cca];
[0x302608d750f16491df5a285f5f7f6a5ce6b554f5dacf0b69d450b24bbb4967d7;
0x28f8144bdae1b904ead70b3b72c7943037de6b48490efd3177783594edd28b9f;
0x2aa9aae62cdb852490c650ff9e27c9b33d4cd4020ca66f5e1a6b374e662935bc;
0x1e394d80067f0e10baa95de0d99b4e39204a18727d1401b476ec976b5f173a82;
0x20bd028c958d57b79e35218fe34e469ebdaa8e8e714e918d58191f65046b972a;
0x27fa2120431379cbd86205ff114f34dd2dbce13e1c2a0a8e46a1dc27e7b686fd;
0x564651bc1179170e3c97afbc4f493617017b43b213eeed86b9b1bffe521fe86;
0x7333cbd0ff13c8ade1febe72892d9ad435c7b451aa72a8c05a7082395882865;
0x290a7ae732f4754e0cb91923c9248971932607be2e829163f11612ff8a955b10;
0x1eb520feac62e4545f4fe7cdb675e36474b8b1fd19e15d7c73a2b1dfbb23fed7;
0x259a2a1f046844724cf992aedc2635f6680f55e8a0fdac695ecd05fbc2cbbd19;
0x8f78e6dc59cd4694c41abbca086569a9083ca8cc800bd9134e4d48ed9d89dc3;
0x2d8ec6adad3a646843c88cda01285f8f32d29c6b1025cb5421422bf8bdba7fce;
0x1b72ac4374e95b7b7d28cd2909507f3006e8352d4af19e47b0b909682a03200e;
0xd7d8273de237ba2d4d5e8051c5bd5e312d298b6726ffbd3af7e732af91dff27];
[0x1a3c7daa6b4af5662d0d8407b287674d83eae5b7563405f48def49981c98c424;
0x2474f543d1f2f33b5ef3fbb190651135a59390c8a3661fae2df1d3f14432b608;
0x1848a60efc89965073b95773f467666687e38d59be208e8377d31903921057e4;
0x2ca2d8b0a793d90ed318cdb5f697193137155bcfb942d82bef558be5fab359bd;
0x6ed98a185bb2358f334eb257ae5e3183599c054c1b4e2022569b8368da1abc8;
0x1ab527614a37c2ffb00c0fad360abaa447ac1063fb9fc656d0148cdce2d7c372;
0xbc769cd7b34fcd1b454abff0c00b89b540a619b87c95444679c3ac6be84d450;
0x29ad5236ffbb598a2f8d238703608db7a497a7453ef9d579fbf05be38f8f76f1;
0x1434ece209d491280c5ae05d7e26cf92d99bb7289a5c1cac09a38ce53b6e03df;
0x255dfbdf30553413a1f8f5113d60e98583838d13e11c1ee02b25a387ea00cccf;
0x67d9294b4072b12c368c2816a53bb16b7e7e2a79979a416f2d02af862abedfb;
0x293ca8a06c5f179d938065ea47f80f65ff21969a9429e400aa177ecf6b6ae853;
0x255b96258dc8e1644f1bcaecee773632f25a6ea803cd32a1e01f82573775f6fc;
0x1f2a8dcafe79fd0ea22bb1563c3b28b23c5c4d7591d45e06744b3b379d426618;
0x22ebe0a315e07be4b0928885f52449b011b3967e519e438c424cc0428c35726f];
[0x2db1c9855ac29acc679367dbf70f08d98894077df2411f91ef68dd90177c1e9b;
0x21715a84742c02d057ac41f743b166da023228425681950edfaff8581201a097;
0xc893808103549d2030cbfe0004ea6655e24ee71a1f8c1f072d5cf6e17ae2499;
0x28427ab007a68c7ab12371f13bd7dba0acf7e97ea6e64ae52d5219210fe8a2b0;
0x51deb4b234890e31f5ac8e69a1e532453774ae93a9e9360fe009ed377ae9c36;
0x170cee2983fa3d3ecef2f806f40eed8d8e135ceff076fc530bbfee876c9e7f1e;
0x244b6b63f8041a5975f4640b18c7d067e4a0627f18751dc906016b8893c35123;
0x2e72b1b114dfee7e8d7f0161255c6895fa786070ce62d806c45a22d7d98a0a30;
0x228e7399b0e05802852bdd5d5e09966f03c4c3aff53c683eb2f69e0fcc21c0bb;
0x18451132581b9adf996c6cae15b92d2e4c09fdc7d6c27b4426f32b5e66a0b723;
0xe1d7ec2a54b11b36e65d7551e9a875a88ccc7a6c0470e7c26e199670a0859b2;
0x29b68e652deac818824da0c2a11b408d7a839a2e8576c55bfa5f1335ffc5b93;
0x186e1360041193e12f38099b0e35e767affc3410f6a8dfce9bc75567e39bc402;
0x19294dd22da673470377d671fabdf42cecd37ecbc018386a438706d6106b04a8;
0x2ed3cf0214f444d436655e03af8aee2b4d96961eea06e8133bd6e8d3e38234f];
[0xf06ee47558f182d810bbcb214a25da7f70a567a0464b348e1b30eca7de99d27;
0x1ef0e0c1f0b5f67644c486fecf02238cb7f4fa63a082a3c030daddce65a4b82a;
0xad80718c6e9d1c67b4a37b9e103db32f225fe42a9ba655ff065618b87b82aea;
0x2cffc378d2cec76ba7080b37fc671a96328bcdfc4630fcc2f2133dcf29c70dd1;
0x21f1f6a630471e32a8b9ac4b7ed4b04c56b96a71ee20a66a5458c6b8d5c6d346;
0x288851770f1a13822251da91c84e123593fae1c9cbce6c4ff2317e70bb658209;
0x2ff4ee110ee1be62e2715dcd119c95b95413376e88ec3ddc3f06fc9db8c27a94;
0x2ad369a84b57f7455ba31064001ca7779d2b4b96b0b4a91f156abec366aab786;
0x24f0fa154fcc6d6459d6c56f711f25e38d57e90be7b8046c9e001815edb41404;
0x7221cad39d9b5f8db705a8723038b92b6baf87284131735eafbecd533dda6d1;
0x173b3b349ee888d934aee9c14e889cd7d785d1e3e4f1eb72a5c2e56c48fd54c9;
0x9bc3e40bfe5f616fbd520f3894a0fdd37feb29429fd3a5015953171de3a70f9;
0x29cb31e1afef4f252578aabd76f23a1320aac90d4a0a66c2225e3d94cc48d22f;
0x1932bc6bb488b736e0d4bf306d41e622e66c1d685aa4598153054b40f75c0b00;
0xcb6fa0a5e11b9192a51904939d45a05af8055bdea3f379faac29d1309830e85];
[0x2166d78d948dafa963381cf1560d00bf3a0a1c288a743344c8643a58daf8cbb3;
0x278e8dac8c56b28a23dba4d90fba91eb947f5092d4a7a9ec7802f61778488e87;
0x20d87476f1243f490246f88736ee5fd6d33191f0561271487e9693fcfd7a649;
0xcfcaa1d7d382e1fe1fcb950e14df202a08793d7185255b025d562eb8d97544;
0xc39dbdf6e6d24a91a0a45f922c894be252baa127d9ac76909f86dc0bcc68a66;
0x1795384e91bafa554dedf5156cd799e11210ffd2afe817b5c63ad5b85e7fdd06;
0x2666ec1a67daa7beb057aa0e6e8a10396601a21884372369c012b49aaf849049;
0x15793f31caea39de315dc5bf5a3662ad5d8e1a12fa1a7280f2efaadafa97adf4;
0x18800bda17a89832fea54f26741d86c6b6fb9e15b02e7bd065533cb5661d2a95;
0x156f6a09e6a81d8eecf4dbf21646bb968b2406786cd1dedd4cc732b7532f7fe0;
0x2977658a10de6e7921ab9e34bcf07bbca61a72549ae57d0c15691bd143d4d2de;
0x284181093e43419789263736e544817111fdcb559a43773f05186608acc542e4;
0x200fa20ed1b871313900c01f8b697760d030d8cc0150fdc58e04a0d8a2b344b1;
0x8d1d68b8437bc980aa7c59d83393b162a0827de74070d2d34b4eaedc17e7e60;
0x39598a1443c009678602b8dd3474f276da5d62425083ec628a1737e8cca3e7c];
[0x2929be9bfe3f93cd34fceae665d96b1de1afb26bcaeea2f4edc454c50cbc4401;
0xfaf33843e6733437e98995e6f7bfa6feefa73d7410d8585918c347f3cfe92a5;
0x134b86642ff202388f4fe37356ca4f0ec3805566b7d4d412d8937a359ef9b401;
0x1d8724c5e641d96f6e372771b0a776bb742fd3c08e1ae250432246cd3bd01bde;
0x305614aacdfd4167cd1bfdd8fcdece6892d84d4a65e86e6f7c6349fb75e48b96;
0x2cda26473cfdcd185ba28cfdaa15e7de2359646a0287ebe8b60d702df009010c;
0x2b0666971fd911529e70ef918d019f44b5c9d77442b6d1866f6e76832d478847;
0x56c55df543a8d4043a12f409cd2c4bcf43a770f3e38c3fc79ad214b42da834c;
0x16b11f24502aa4cc3b0c2562a18a24ab8f986431b244034d3fc29555402b5f4a;
0x18ea0ede9010c7bf0fac361b5b8e7f97c75ed93a13a7ad4a017d920c03c98686;
0x396097733de5a1fa4a548749b73ff7c426f98d9e5ad16920614d337897f6b1f;
0xb9d5a3a957eef251ae9c26e53423f9be6f2efc24bb18756893a9d80e56a0825;
0x1a63a589d1710aa705136cb520c2f1c44d778e490c212d4b72e9f1538e5555cf;
0x1c0343816b8cecba48519b59b0fb6d4a9bad309ee38311dc3e8cfe8bad75dfbf;
0x1af56e6575123f99c5d7ab7b83770f0fd60fb9f4038c2942644069e3c243793d];
[0x1076d439c67997c37c6c1fda9a37dc2f762dd577946f36fcfdccd7898ec67cd4;
0x2ba437d6ae6c588c6b71506c8b508347e634b65cee317af1fbb9cc2a997fc006;
0x2c04878b4cb8156e9983d11574ed99dc7562d3fbb1878257abbc68852fdd2680;
0xfee8f9731397974100834649ee87a27ac92be7a3810303460141aafb542a429;
0xef9ae65eb922605d4260ab2021dfbb4774cd5ffaedc1b79dc681208be6f85c5;
0x27ab4b40901465ef59007114ecf1fbfab6157c24f402246b86a60397267308f3;
0x2bb5bf03cef933e4ee87f511de3985cff0323ab7b718d4cbca3f429addbf3052;
0x1ee10e28c612d9d6ee72f1274850c3e829be5c06f5bb293280152a5610eb01e3;
0x20a9d575fea891302b106439ab03a8a951d8b2ef2b562991946eb2541f1fbad;
0xb73119c98d25eb6de14246b1401bef485c9dc6accedc23494b9526a39d53221;
0x2a66defcf489c23eec5079a0ece1c5341027a59e7c592e760184b826d70dba9c;
0x4aa8e91dc30f9ca318fe24718fe595871f7897e92d57f2d87d4b1bcf9a635e1;
0x133369b3bcc73ee793e869360cd50d8df60fe398ed9d9c0d0d03e669f796e87f;
0x709eab96cc6255f2ae917914f25085025490c423284916e23b608638ccce29c;
0xe8d9c0707dc5bf80a2f08c343c69cc659def86630af3141a003acb3d3e90c08];
[0x185c9ad0da87cf824624d02bec3ba4665822a0f6b3b25deff3afcc687ce1321d;
0x24a6c1919f94aba9db98a5af38feaa5391cda79f9debfaf118670d7927e41db0;
0x1783a45215805ade9d359232120b183db54b43f9a7e8fb8dcd95ba9bbabbba59;
0x116f239abe820737b5e1e82b2ace3a45cefac489a6bff084e323036f54277108;
0x1adccb898e5fe18b5c29a4708c4b112b56d0fa5d299b5edc07d6f5bc00428b8b;
0x27122781df7bb05f6ae9e14e8e99da5c23dc77cc06108c0ebb061e5d1be93626;
0x2e37a7440e75b649a0799cffeb7f9dae38fadfc7cab6c5585e4a84f437729d02;
0x29f356dcec3b79523c0589a7046ef0758486828b212146c3f5ce987af3fd719e;
0xf9c05f609ad14debeaff107b95accd60e62662259905105abfafa9e8e08eaea;
0x1c66828552cac1443334ed70b7fd7fb525f907ab64479d117864c92e911986c6;
0x10f43368c0567f405aa6aafcf367e3e68beff957c4b0cba17c30c62b3f95490c;
0x253a11c66463a6dcafd8399fca58ba27febbc307d8833c666e0d8df072c5f69f;
0x1e99516c240d42bcaaad9c73f21a46193db8433349203035eea30398f9df7893;
0xc67a06b33cf73882b1c7152d4585b78223d85c77cddc2c7d3594824c5016565;
0x1f6dd8e85d3597bb6d37b47a1f063122014c888250b38cf8e82e3e5471ef84a9];
[0x2702b1be39e91044fb73926c1104719f4c037aa4151823ceab24f0cec49f4648;
0x4d80e7ef7e27a2b1397678ac42abcc6e2662c880503e4643fdfbace67273b92;
0xfc96302e8662de23cc5c8c228ac8ac2dcdbfc488a59f4dd41e3f27095f7e195;
0x2a31cadb918d78b96dcd548b394425a42e2aa7a28a6b63e509261bfae6fa25b3;
0x18a2661c03ab9b0d8f7d01091c7e563efc033196747e34139d3f5cc7ac001e9a;
0x26812acd03db3412cad4bba1aef71bd44b0094d318ace0366c79e729ff0eb2e6;
0x371f0d49346df2d88b9f1ada8ac99dd8125cfa6c30f3738fb9932a853268e;
0x27cea9c43fe0bf1ce9e53c0c026e839d80a7d869136603102cddf63cdf28b975;
0x95f1db43c827e6f0b9cd4fe929e7b8c78c93fd02ec9e0f10992feb753b4ca07;
0x10a66268dd9a2f368e95507efc2085eeeee8ce977ca1eff5b2e3d94bc342ff58;
0x25a2a43ee612663dbd61814f2deb06ed005a7414f99825f8be66f542f95a7b2f;
0xe4fd498778c2c76a02d0d91d8f89825856e706f598337dfebbf3ca33397968f;
0x13d84ca7f358aaffb1ee8ebae81c32e01adc01e90d09c9451af36e31af82170e;
0x740c1e9b8ed16e9fae204369c554cfb72007dccfd2530f2e34d544003ae5994;
0xcc8f90bab68e6de84845da1899bfc52440bdddb940b208301ae94a95777cb72];
[0xaf71a51cd463b9faeda93803cdc03186c7781845252fdf4e0155709d93dd375;
0x17f6a3aedb0005a9b0a258e31b8e6e2a48f3f9551cef6812a49075aebb8785f5;
0x24b22e5ce671ce79dff8de16d7cd2bd6375d7ecaa016ecf59cfeb246dac80720;
0x240caf6d7ab2f7b6ab3d15efcf3074f5b2142a1e804f25012d988454809e096c;
0xf8aeec74144d00a3ca38bff10bb0f3a8dbff4af6197847db879745aeb57b5ea;
0x213d29d4e1b6c01fc0d109ea6169490076d131d8e034b3040f7bd9c3c373ea17;
0xd0327b593042de04f58e0ff93386d1608d33a86872c1d3e7e089120aac7a4ff;
0xbdc078b1edd9cb1fd2c2a01a97bdf7d458648439fac1f28509b41a2dc9e7740;
0x26bc00d9cd25124442832d97abd90866d3fa7a401bf38bd95fa7ad526548fea2;
0x1f14aab5a59ad452cf692b123c65873dd80ffc188798a4570eca792b3f2f257e;
0x182f1c93c6eb29867b1559c58207a6aeaf40b66eaaf579ca6bd7ca40aaeb7abd;
0x126ec8c200262c45d1133bf9da5f1e5fd62bcea1e493a080af1bd283ab86f122;
0x5a78464a4b6bbca6e96d839827bfddbaa9d924840aef6555de643df167d4caa;
0x2a84c424eb58f9c38b4380af38e0458468980988faa1f0d4c6e723845678523;
0xc0dcf2b13552ec55c97166be347ca2f93b07e2a10164096d353fa280c796821];
[0x28667f9c7332073e293c80b98edffae01af4f67b4c52ab45e49db8b30f182d28;
0x1e62029129492c8bdf8514945950681361591a9f5eedc2449e5f229c85bb97db;
0x52c33fce08d4a39fd805156c8affb84349428ba4920cfd2e7902ddcf9b0557f;
0x2224c85f0c0b4093014db1e817d1ff16918f15e0cd231b848a48cf83324c4144;
0x1f53514a97e8b57204e57bd6b1b1d9555f3b50368154154e67c2134fd3151591;
0x2132f71ac89892c984a0a73653f2d45222ada34181a9e6dbcea0d63961f934f3;
0x4dbc4c8de708e59aa4b2116e53944bec97ed42309b4a184561d8f32d291f9c1;
0x2565a17a6bc56e87b0b63664319b8a47bf662c1f49e2ec9251be4fdf33d90f4f;
0x173e80596756cd9aee04bd6dd9dc15e4b8ebbfefe3771d9819bd4d444726f79d;
0x1d34655b5776e24701621acb41324cacb50165e019bff1e65f98304f7d822a6;
0x42eea616d905025147a482eb436a3b75535c9869b76d6cdace118e15c91fb77;
0xcf030b10a1b4291e576ebabb39c583fea0fa6decfa98cff7a96dc06cb77da51;
0x260ef13ac7e80fd2db3de9eb942edeef3f5e252d4c04508b1e1b130191ad0df6;
0xbc367fd93ceacb599c614aa28068783a5d27eec1fc8fa1765015b76dd82f5cf;
0x1f126117a949dff900fa5d111a0ce2661bd9d5444577c491a9951cfb58192d];
[0x2763c33f5b2d7bc3a23040afbcdaf998bb13254c272a5f8635a12606a59c2e5c;
0x16bae774867656e64fc95f3c249f801f150fd7ee28d195bad9eae43743875278;
0xf0d475225c99702bba4fd01276102b5cabff7bd4d147c0e3cdee4c07ac31b1;
0x39a288951a0381e3aaf598ef132853b5d694716c20db87923f0bcf14c914a8;
0x27bcd639c47482d2dc8b6d13da19fb8d63f3d6c875f6fea486da6ff2ee11e107;
0x121395023931f6bb3ef28b6063eb7a2ed7839e083fdb92c1e5593c83edff5f53;
0x290ed9ae7479f9be13af13f98bf88507e6fdf018710e4859fd2e48cc66ff9b24;
0x15b085b5eb678f8cedf21bfb30e2d64ae1cbdd7472449ed24e6034101c658868;
0x12a643f4a327acd2454514dd469551e36ab0e3f24ecc3b28a76dc1f38214fe38;
0x16a1eedbbea79c5411a639e3bf0e90f6e3f740f141599af8e6a43a2069572f95;
0x5ce7f592dca2148e198554fd64db8c479f29d23f1f16daf3cb8930d9456e4c5;
0x110298fe7f2bcfdac0bcdc3affeeb436d7b3a377453ae778fabd37a9acb299a7;
0x14829f09d4beebbe6fc30545047243fb3dab99c62aab7364a7a5b427457a02c0;
0x278b58503e0b9014104f8c446bed4c6de575c72d4dd9db3d1866846979aab9b;
0x138f67fbd9cb91ef5206d48cabb269ac42bd352cf371e43311bccad89acc509e];
[0xf81a8d8e08758e8a32aa8292666c4cb6ba3f5f06c4dcf4fc502ff97f03a85a6;
0x10f0172799be23a8fc3f156adfb6c512ba415e35167b563bf7b186fd12a41e57;
0x1183e91b7ab7372f157d4c477691eeaffc9e8863fb2d806570c67f4b1858fc54;
0x17620d438499f6c0a66bb577add4cadd66ad39e3377d302bf83d3bba126b2aca;
0xe9e8373114ad25af97d28e272fc42d8490373cab582193b874a10428ee6cd21;
0x1f665ba33da4ab9d9806caff77ced39c9be254fcc4c5da8f570096111fb109b5;
0x135aa38339bd927dd5064e4d572df55811b226bab54b0acaee511d60aedb02fa;
0x22bc96cbe7f8cbca81b29ba7df848dd6599035ff515b6d485550842e1a35a1c2;
0x11e1b0af7f5fc9f049877154ae173a1a72c7bc3ba192e438a9d0fa81fdfa4900;
0x14de448becba6ca0adb21b07455d2c2864c7b85382267026e28f0978822d65ac;
0x1844a81d4fab57aedbb4c4628e2e47fcb2922883eab0b2e1de16f248de4bb902;
0xeef04f24ae210ee0a94bc5621574783e49d4d93365a2b3dd069fafd43055452;
0x1328467c87ba73028921a89333bab97f8b24fcaa72f43837cbcfe5dfb7a945fe;
0x791d832e976b66bdaaff450731ff35d998595ab9748f695bb45d2c0fef06930;
0x11492ba406435f35623906ff45df11c39efb59fff09f501fb893d717e34f9d61]].
Definition tabP_15 : list (list Z) :=
[[0x4523bf1a8f284c6d95b310dec2b54e0e00e59b571dd9d46b6201c18e1b56dfe;
0x312e3298297ce9b613e755220138a61f6fcb449e9f297bd2ab37fa4b060c4f8;
0x237ee46d48fc4719f3b0c74d1ce32d25ee1a406c86226b14963597d77d3b26d7;
0xe643d3d4ee78128b65244451e50daa769353d675b70cd9f3642127c70afc096;
0x276252adc5f9add05d80d4d975aa6c8506e5f3615ad04dd19b6a8fdf44554816;
0x40e4596ca95fc409132c1497cce79ce1293bf459cbf2e0b1ceda174d0e53e65;
0x6efbf7c9bf4c721cb0ebff67730a41eb0d4498251681593f54d16da5cf2e24f;
0x460e5c59d6292faa4ffea5c4f0f5b618c30291ef6259d2d5bf756df87a5df8f;
0x136b729f22d1ca74db0f67b12512925ab8597467cedf52e6d289407563cb253b;
0x28aaa152884edf31944d72dc318424c0da3492c9f7154dc8fbcb6537cd7e06bc;
0x23fdac37f71f97739b9ac6b9862be4bb4075a31e9d2118c7f4ac5074bd7f2692;
0x767aa1fbc4ea303a476f04423458ac3f6e45404c9f22c30e2ee5dbd7c9348a1;
0xcc0452c4e5cd956ef1a3b4ae5bbcaa7be7acd4c2f72d22d65077587a91c0b01;
0x1ceb88c33c35ed1e6738b9ed039e4ab506bf7ab0f08a7aaf7dab0caf13eb0e68;
0x12a998baf33d6fbf6fafcf03c462c8a5ef7704b181abf2414b689f9eb08566d1];
[0x19a92ac6087ab89982fe5650e5e799f91003fd8b45400748d2c25e40f04c578d;
0x27dc8579136c0e71f75b1cf6f5083dd8354d115bf414dd1fa540e5f39f7afc72;
0x20428c044d22ee0bcd7a3e6fab424e8b80af5027762db1e96f6580139e2bc093;
0xd17aad3b6fbd4fd8bae145159eba2a61ac1244b3fb460222167b77139c9da6d;
0x180d3e114e0939812b91fb0eff3e0b6109043c1d4018d1d2f9cbc79e384618e9;
0xcf213b1d3f6fe0b137e4524b963bed40993416f8f1b174fe697fd55079f3343;
0x190b37e8c9b7bd5ee60d0a8537d47a1a377f7a5674c75a99540baee608fd8f25;
0x3034b01c2fb47a98674d730818419829480394df38d331ade2700d39138a43dc;
0x6b1dd2a5fd27efc3cd1aceab1969f68e4959b36a0da5ca5b42c10abf0d230a8;
0x488a359cb7c3cd4063adc6ffe91ae4613f72a681535e35b7b96bc26086bda29;
0x153a1ae9f00d026c31b3462001a07a114b4276497c8144c42af93d11bb383d0a;
0x16c499c243fb5cec60a76c3292e05a6217471eacfd3ab2b95b409a367f5a77fe;
0xec171c476265c4877db3554fa9f482a8d6b647239b89e48a9097f174d5c5b56;
0x445f4d9f49d4dcb1ae866956c374e1a3cb45419e00f5836b88e5ad16d639eeb;
0xd9d065a53ec9ea1f2f08c32c30a37cf2b7ad1614e60aaf3b91508a3ffb3b301];
[0x302608d750f16491df5a285f5f7f6a5ce6b554f5dacf0b69d450b24bbb4967d7;
0x298a90da4f4bce9de81be6912c6ffb796d04c14432c8c40a105a28b135ae2735;
0x16065604a60cf2d7e406310a514e428a734b27a86e2def6fedb3f714c1679c58;
0x1b8dbca850e849940b154d50c6ee570c32444d12c847c2016b35149230395060;
0x2e93afeb1b3520058245bebe0d269664b12e730fc45bbf46cb66044d57b5bab8;
0x2eed04ef2e97eeb4738187710d3c3d598e60a7b9e6484d4b4a2f0983d2970945;
0x1b76f377622072daa3d1619b1bdc692333d5345b67f36f430cf516ef16eda936;
0xa20b0fc9107098578122aeef4dd1bbb7ef353e400ff70d382ee8abb7c481e01;
0x8e34a0ccd379ed1c637f8272a3a4cad64937438043f4ba7f5e5f5b0adf687a1;
0x1d48b6efe372666fc8519de0f01a8e5d360708e47dadce1fc01000e7dd4527c4;
0x260f8a62766f0e259aaf537577b1a99d50bc02074e10f624e91c36f3bad5491b;
0x27ffca574c26cda5aa09d071c5894e0ed95cd93036e2193e84b4e5ea7df06b0;
0x2d723e71184abac895077f84c811f4135f4d7acf5ab28f532990182a43873833;
0x278e3dfc235e7b04caeb106a14460dd6a7471b6f19d441c1f738aa625c45f28d;
0x20fd0cdac44c5b5c22cea47ac2b0d7565819a0e8110932f0e04c300eb32b223f];
[0x1a3c7daa6b4af5662d0d8407b287674d83eae5b7563405f48def49981c98c424;
0x2ff508346df0d408d3d1109b26123bde5c4558bdab26d9cf3c6374a6f9291864;
0x13674b5d0d749caf2d93724d234c9a3a7b9aa8ced4f854b853c07a6d575b7ff2;
0x526e69c73070647cd5d45609e6f557bbb3b4cd4ced38e3982fe8fa217a5c22c;
0x26ea6a7932de98e85daf38c6a9a75cc6c016aa9eb31e78d7b5af1ef3936cdf54;
0x2ea7c830de80ac304f4a4342818cac408fbe27c811b25a9e6c1c2cd7a3a63ec4;
0x213b177aacada821231c6bc2090ff354d629cc89617d52a340673497b0c9b294;
0x178cdf015d8bc8ed5294bb31b6299345cd5a33e5ea30e4f03f4b6bbb2aabb2e3;
0x28548c8bb786f47791c98c20d6921d39d82a2c98681cd10f1805d4b3384605c5;
0x2a7d9ae2a915561a62c884f5ac71ef11815fa7345f61466abaae9bb172382462;
0x131105c4381b5f577a61629a53e074ae66a120d7ef9bb5c27ac675bf90676156;
0x185c152024c4fd6afd5f7f6f95134da079ce1614a9f4e03f2043914281041384;
0x1ca9f045f715d29458cb1fbdc8d84a668938b789bb4e9837cc7a2dccf90cc569;
0x1f22be26d5167ef4bb00117f8e6ea1f2866e602a986289bba484ba2f1e875591;
0x4bbff61811db870b42bcce9be11642d53a88243f2f8271b60897565ba6a6a60];
[0x2db1c9855ac29acc679367dbf70f08d98894077df2411f91ef68dd90177c1e9b;
0x1347afe5529f60fe7a738494455139994ef976212daeb0289737fc17d67bdc30;
0x17832a57483ab46808e944495407d84b427a250d2f4d8adedb0da2bf8b00f21c;
0x18aff8fe5a1798ba94632917ad3e19d4d8eccb81195395d89b7d631cf2962663;
0xa3ebcde6fceb125aee70284064b2f3524ba816c151fb6245e07cc33c13d97f5;
0x17230666ed67a7740bdd76a96b3ebcd29eca4301e827b218ea24a4a56cf11eae;
0x2efaf6a0e622f10e54e08e0e0acd1e4263ccde6164d805fc5317f9eb83418c0f;
0x2f1240e45287424dd94a661e56b89f0e5a11b9e15fcf896d04b76404ee53148d;
0x2bab506569e55b5d04ce7afa2434a095d3b43f0329b74519f88c1d63c705ec41;
0x280c7256bd6775f497c95849ff56a53a8cd9b01a60205fd41702a10532a7ceb1;
0x3de768cf69223497fd2ea181708751bcb42a0e8cf3f8580ba7d0a86fff12881;
0xaceb3f030450738e2cd5f1b0177872a632cce047ce9861db835554b1bd9de83;
0x14b711d1cabba4675d177f17d623824b3a28229a551f320b3355a9e3f9608c9f;
0x24bb09e90e64f5c63d53580b531079784e4d59d287c933d613aeeaf59add06be;
0x213b22a447492a79d3152f0ed7ff35ed7f580591cb2dfb8d91ee9dbd67ba64ad];
[0xf06ee47558f182d810bbcb214a25da7f70a567a0464b348e1b30eca7de99d27;
0xfcd2ff5c8f0bd2947b6fbf00d0b81ebfb76064cd51bebbcdfdb6209e6634bb9;
0x302b344f13b30ca0578bd6eb52afb66c031b33a229b18a61a98395a95cc4a77d;
0x22b451ac56f38245014eee401568e5cc508bdec222355ab1f7194493ad7f083;
0x1b3bf735cc8f4d38d737f7fb6d87d70646bcf2fdaaaa2a02fbd0e7585d24f37b;
0x1df0e1d73bee56ad584211352e7cabb7c748edf107cd8c5750c6293ef7fa1d87;
0x994b0fad98bd40de62c6a239fd21624a196ff95d2bbfa22e0416be5694d67ea;
0x4cd761f316ecc1b03668f55b6a6a9a82ba2fd797ecbd57013176ac85d8517ec;
0x2398afa197096947d567f16acabed2956bb62acd9a5d898be5f7e154b5ce331a;
0x1f63018449c6f982d1364b473737e009d0004837e9b417d100aeaef53e5571bf;
0x1b531701fd6b02b680ac96125396ebf4df7f83acf2edfe833893eeb5f2c3a848;
0x1412ef160245006ba8ffedae4e0a1aaffb7da57e70128959a5b5e1503b4e4087;
0x3ea51d0d3eae6f814251d648892fe5985019645a2d39bb4d4928e6b4dd9d702;
0x181a8292b083644b0357e5c5b0fdd3162877cd14d98c3ae8e4e01fa39b19f468;
0x1aaeca8c009c0588d25f56bb9457a2cb260b14e88c8e81389479edbd174d73ce];
[0x2166d78d948dafa963381cf1560d00bf3a0a1c288a743344c8643a58daf8cbb3;
0x2fd8655505991d7319eaca4c4b736ee81976b7b325c494ab80c69db132e55196;
0x14b1c418f3c123d91e084f3867dd62b9c73866a494c0646054f7d152824cb0b7;
0x29e7183a40f1812fd9e690cc6991f46516c6a11b6d63dfb275bdf45c2e830daf;
0x2d6e071c9a8c12592824b246bc5024f68d7f15780b8e81cb917032ea3448c77c;
0x2bcd6ecd21d028a8af782686b423a5491be09d311e8b8b311a76c6fa3b6e846b;
0x2995eda96f028f0d823d390a39a08cec8844eb9ce6c8e081c573263505dbe1c;
0x190c2382ceb77e73d72488efff7a47394c9eabaa55e913b3876f5c7425e5072;
0x1cb68d0b5a7d1e5ec01d0604e9ada4e8b0e5d657e0c3a4b981d9a89585b5b1e4;
0x17258254d8e0d6f925e7c0185f2098d534afb0760706557c11cc93481dd34dc;
0x559f237de62143ce58c3f3ffc6fd45cba5c2cc03d7a5b004324a2673ff6d5b6;
0x2d1bae8c0c7b65e609125c9900ed01b4fee0b246e1d5b40f26a321cfe962044c;
0xbb07c4601eda15ffa0c7ed3e9b5a7331deae9260915c930d39745da694ded96;
0x29a3328fef53e260a43f8fde8842280d1b74ed96c3233c5058fcf5748459fc26;
0x2694a19e4af7c2b87a94dbccdd1b3ac611b1373131cd5a9d70bc7837d8f820a2];
[0x2929be9bfe3f93cd34fceae665d96b1de1afb26bcaeea2f4edc454c50cbc4401;
0x19edbb7a983fcd768fb267d9c4a1fea3ce0b2a2b9b443f0aaa46f06e589d14b6;
0x2c1ddb439b10a092b3971318cad5b08debe8dff603bef4532577c495be1a724e;
0x28449718fd137470b9cf97b815c2140dd1c972ba998e2fe4822b7c0b33bbdfdc;
0x1f0655560b2334547cb948d9d6b9b5907c788a38ef864ae0673a78094fe7ee7b;
0x136fa4ab79c28e0be9bb475e8d02fe991a4c3e1963f8f02bd99fc08feb8af068;
0x1145dc67ca067f540d071fef09cbb91e1d3deb8202530be3829f4a74b97c83a;
0x2befa2b6dee51479054fd8dd18588a47a402dd5c3c4edca0c6c5fe3cac3058a5;
0x1589963f1ad9685037a5090e0a726b46f0d68e01b41fff4e51d7a7ee3ca0384e;
0x2e23caeb146870890855c6e35016e8fbc54757333d84d986487193341a6942b6;
0x5749c39afeb687fbf56b6749a6d2422caa3b4a4a98b702a4958b7e4ecb2d37f;
0x178880d1f6ff2f9b8e1ac338c92a0c8f92803e7f4c277c589d8f4d96102bd7d8;
0x2458edb63177cd46b51ff3f5054376a76640b495d598e472877d4efb647a629f;
0x15ac4c506f0e4516834191a3a6aa8cda30a2b3882ddc8d063ec7a9c38c4dc014;
0x24a5f8b16d150a9683e69c3ae603931192560079eb25d141ff7c2cbaab4dc9c3];
[0x1076d439c67997c37c6c1fda9a37dc2f762dd577946f36fcfdccd7898ec67cd4;
0x2d9c1650b528398e8d52dbc23335384e54aee2432d635c70a02d96243ca0b26f;
0x1b2c5206d50be044598c5897e0b4b0221bd37b510a437fe5a1b4c1c69c601b6d;
0x2edd1fa77896a64dbbfced0977e08337ee4bf613f76e8a2ce26414548b231653;
0xcbb908762517b41e306b6909833d5a107634426f22973fe83f00b0e17f13296;
0x24cbb3c94a026a76c045e4c6edfbb1367d256acf26d02cc09412eda7f59a7ecb;
0xa0bd0ea059162db49db00cb2a940d57b4a174de0f3aa95507bbf8bddfe17b1;
0x1b2b047e9e413d748553f99dd8af9b25efcc5e22d45fe891dd28f8fbc2fb5301;
0xcb96ace8a27b43f9e6227f6712da13e1fdcf8f3f9908a3a1c26a35a05b14922;
0x29ac01ae36569271195fe075de8ddfb4380c3a02d43d7342a1fb5117b8de2a53;
0x42ebef9c6a4cdbd7c6cb04d45d2e0c2aaa80deaf78bc1f58ef40906cf3d0210;
0x2e38bf07c16b3203bdbc7746fe5f9179277cca8363c860155d140ec63673791;
0x207e9157c54acea4ef46af721cd9b2f57447ed4e87be8933f1d0b6d814d6ff2;
0x167fda86032760fe696b4920c81f53d843f93d6dd536f230d2004eb414bffadf;
0xfdd5ddada0b045a445aa344bc61b1ac05142e1b5641aeb7e767de15abbc9bf5];
[0x185c9ad0da87cf824624d02bec3ba4665822a0f6b3b25deff3afcc687ce1321d;
0x99fe609dce91a41f172017be2754fe99ebf6c15cc57f31bb6f5b7d807b1f7ab;
0xd8b8636d4598fdf5326235d176c94628e61b4e7c82e78b4e564850ca2b2375a;
0xd65ab8a42892dbf60587c701d4ee79885301867045a954e709a0b39a96e3432;
0x1ff952bebf30d706276910172a3cdfcafb099480002dd0fa8c68288188ffb47;
0x1b317bd89d4ff133f75ab4d3d0b76a79ae01b0dff996cf34a725196ce703c17e;
0x124794d78885d5936bd03ff734b5c1adac8a4a596ad9f82102c00d3a684dd7c8;
0x24ffd623daab9fe13588a1c00b7f8c8f1ca8caa530a1c7131b466d950f2518ca;
0x2b38ad1a7b652e9f8bf0ef32be28b745c099922eb755a34186ac9090567d8bd2;
0x19babc734091a3be933427e66c377144245e7db110c6a2baa986003947a240ca;
0xd0289a40cf02926cbcb2747a0e1c1518e9c4f704df6aea14276211c24086080;
0x28bd66c5e1338f9704ff07003bfc744bccc39f7ce6c8ab5a577dc903cd264016;
0x170f77a7b3b9caeaf5659fce45eada32edab843510f0c1c1918e78d0f6f250f3;
0x4bf7c50eb8083a1b1aed2f2eb1e3e6ac6dac94088c526643d43fc4ffd6750bd;
0x2cacaf80e8db29ba80807838954a59a587b839dae77fae26c3766144af1c1731];
[0x2702b1be39e91044fb73926c1104719f4c037aa4151823ceab24f0cec49f4648;
0x13b4dec836bd9ccf38a503e625ed8e236c54e696c74637ae6a3686a805695912;
0x1715f73ecf73e36f8e513b1cc9ab6d82c38edc2000876f5d1bae037be5c99715;
0x133105b55e6c880ddfdf28747478b9cee5fda98c7ebb0dda7501a2798386f9f2;
0x2c728d02ad11c999b2b9b9ea9e57d496572871e774331ae56374f238082b27ad;
0x23ef277dfa1c0e0d94bc61cb2e8bbdcea30f4d4024531391a4c3e9cab4543b3b;
0x16431ad5871bcae4168c2b861ef4b0b01935d119758db9aae06c00bd30db4df8;
0x28db93b12307f5bee8a6c0b7bcca8b2305b688020740d4345fae2d04ed2505dd;
0x21b0ef1e524d8d9ebbfc6c2c749d0ec90fae708de520385ea8bf0428508c5d5b;
0x19d13c633e260305a71528af4eaa906ca4427977dc0c747c8a6a4503fef43e8c;
0x23d809de14b02c1069c3e14dff538b910e484afeff400b2c1d24fb0e0099cbef;
0x13fcf2fab4b4b66a25dac0cd517fec58f5ac1850d867be3be4aeb9854eb30efb;
0x161967aef1a7f7907817e10adad374693d3d1f981ec444384c4db438195d4daf;
0x1694d5ab473f9de3701a254240a02a4743ed5291b9208af4956404ddb30a4380;
0x1c710c033318dcb32177032074580a3504f248668c7c53de567b4830f74c9ea8];
[0xaf71a51cd463b9faeda93803cdc03186c7781845252fdf4e0155709d93dd375;
0x5fc3b1799e5b191257c7a3bc75e9fa97b164f3f4edda6ea6649c83267be51a5;
0x1c4497521275cd86c918551760f4d35becefa8ed08036c9c18d83815a9fc7f8c;
0x1c65c1b912286c5b2274387fa7965d6b2843b5b01b806bbfceb590da531c68eb;
0x29d4202e4558503b0449242495fd9ad2381705256affbba80117b4c2287175f3;
0x2933124ced84942c7077b2ac393d14464d517c7d8f1e340694ed5f1acbdff129;
0xbd580f80ea79136a9b520cea04461da846d9f23e62277f13d6b3aa6ab108ad1;
0x57b88d83808d3675ba199bfc5780633adfaa44c9b1e32463d66b79e1c6dff3a;
0x3a6c87ee34cdae1ddd7982cd318362e1a278dc9cdf1cd1dd03b6c36aff836;
0x22692fb680511799b8ceec96e7ca0e1cd21de90f94856acf334ffbe2fc262053;
0x1d85033ba0c5dd804c5237c31ab8b09684c635b8b7578c50c246b15314926871;
0x2b52e9a0a9a535ae05d79b8b555d461f148db269f49e38dd8ec6f8b8da106aa3;
0x2773fcd9cd996f38297b95daab22c1e79f179f4c79fd4bf6f4abf8725ecd5032;
0x18ad7311ad63af100808f64bdc63392bfaa0a3881ab03c3157ca8140868a70e1;
0x19b88372c544a69321b273cc62a95b006931a64222cab4536e797e578a56305f];
[0x28667f9c7332073e293c80b98edffae01af4f67b4c52ab45e49db8b30f182d28;
0x1d0cea849dc7409b3b26de35715b32db618691bc123cd9c4c5e6f40b4a1e49bf;
0x161556e03e94c7156607cba64c0bb7fa00bcaa126df8afb5d42976c03b7d5e0d;
0x419c20a2ef9d70e930629591eae4c63276c5d79d6948e98f2c37acc29f1a4aa;
0x1d4a3584e3933abffe0977179b8c112f2cf08e409d33362df4775d1373f4d366;
0x104bd1b4c028b287ac3fea1ecdcbabdfa6a065e9772791c3de84d945542fc206;
0x267ef84e628bff8a9a85df724e4c32cbd3237d91bd65c43618d86502032a3694;
0x2d361efa8fc65b03d45507cfb53549b3b26a84ac50b3593dbc052806ecf59fec;
0x1285c484100d70c992f6b6953a9955f56957e9a17641679bdfd388b6bf60ea42;
0xe1a46a527394539c39e9f1e4426d3188c0d9077021790734ec0126d0828fbc7;
0xef206f21658db03fc8d5d6be5b18374247aee43b3f29b430a6fed7fa5102a84;
0x2ac3db07d831b461f38204aa0454b1edfc1a0de5b7a6e15e49c63bc7140c3327;
0xeeadf9b5fd85f9405991af7f4cb2bda816e5aca76103b34b891502f921d6096;
0x2931d38792a3769da52491346c7c6f8f106c2735ef2a1ca03725396983a0049b;
0x131154cd6dcbb9b469cd6860b861699845abcc41f428331b1d2beebba8ceb767];
[0x2763c33f5b2d7bc3a23040afbcdaf998bb13254c272a5f8635a12606a59c2e5c;
0x27ade810ab16b1c9d9b363d48e397adfc79af3a4836ed63c650053ca057a03c0;
0x177d3d44dd549944ff5772d4742603e163124583cfa4b673ccf1a25454ea3be2;
0x2c0de2ff6c43c1d034459dc8458237d808fb0ed445eae2cf7e972c83f006995;
0x27ac47846175fcaa604d687cd2ed41f2ca52905b2eefa79eaa8583ebae76291;
0x165a3778b89cc7da792542f4c9a6dba92b85175a60d3661beb77852b238629b3;
0x27e08a80dc448a0ea08c79c9198e57512968df40d45f08c26ac8242d126aedc0;
0x1fd804ca6b5d2a3cc76ae1f125a0bee456764db7a553f48bb47f468f3c57a95a;
0x174de7ca0ebe6a1290ac6a8076d51b85fe8fb4022da95a59a6e9f1fc2fbb2efb;
0xf3deafe2fe6fbae9417eb6b144885051e5d1642e49b37469d39a6bd6cbbdbbb;
0xecfff476860b104100ab4d0dc92d93b993024a1c0d6d50b339243e9ae67ccbb;
0x2cee2efaf90a0e74febcd521cb5fc61304ada5f8760adc044cb684f341b646c7;
0x140214189bf9a4001311fb36b9e5d27a3f3ceba32a457135a3c66d76e8403553;
0x2a90f5ad074f3e239345c3d75b7081804b34fdfc2fb9f720a6448818946ee976;
0x1c373710856290660f38b96ad9baaba487a10183260e1d06f9b9935d36e9b0b9];
[0xf81a8d8e08758e8a32aa8292666c4cb6ba3f5f06c4dcf4fc502ff97f03a85a6;
0xc3bf8b042a0fc9b018e64d500484eeccc8086ec911012ee19a8e94c97b1f8ba;
0x10539e3badcbe0386b58327fa5ec50e92d483bcb819b41b21dd7c54eda76a99c;
0x308a3fa0a2d7ab2ef746509f2fb76d1a5db994586a54e9d109448f18b281b31;
0x3ae04f50079403a7c6f13c02d0ecbbce7631eeeb2f9f284dc7c2a52fbff4770;
0x6bf4105aeb7839b9deb71934169cc975451f8d76f834499b281eb6cd69c071f;
0x28cd5b5220315f32a404bf919a9cd01a3082f5cf1ed6e92dd79a323bfc62df5;
0xdb2421285ea7f5979122022c62e752e1b15c491cca462b4e71b7bb0661990cb;
0x200d26a5d00a2c154aa75036fc4e24885f7d8e3ecdfa19beb7cc15767eb2de8b;
0x1a1c643b8d0510676c8afea7a4c4af98432406731046ca882a497b29a7c61777;
0x1e80c6db7632f6d64766cce10b56d0762622eba0de31b6271e95ac94cec6ef32;
0x16c8f7d85e411d0f9ba685f0fb815c6ff517ab5463c74bb9984dfdeab8299477;
0x20830e9933ab9c82b1d99369207399eb347fecd8d8ba430b5925038cc3295055;
0x256a4d8167c0f602f9f3b663dbde4a7cd3d47353587b017f4f03627650b813ff;
0x11139f7a6884d0c2efc32997248db307bbc0cba48037fc518478e9634fcc745e]].
Definition tabS_15 : list Z :=
[0x4523bf1a8f284c6d95b310dec2b54e0e00e59b571dd9d46b6201c18e1b56dfe;
0xd4e118218c553f4fd17f1dbb39ba942efd76cd18298bd6b72e1fde271c74372;
0x1c9814a36ea57e27bd838375e1c1a562dcd2af6a66aad460bfc8afcf3d63ab8b;
0x1c573e2904e49c6abed20981459d41c560544306978535d6becd7106ed3e41fb;
0x9e39b302efe7ebc4307cd009e6bd6f7b5128a23298b11eb8e73047cf2f2e920;
0x1fc427692601beee8d5f6bffaa3faa89af61a2ce7a048f9a596cf2c38ac2cfd7;
0x1e5b7cbf92351abd6a71a235d9d2ba54bebc40e693a66f3b893174ccac29766d;
0x2ee69d018063e4752c402c2255b267a05e49736814f2c9b7247240d61e8b684b;
0x1eaea919368dbdf57be4a55db999baf940ba81052b4e4d5b8e7e16253274f5a;
0x297f770923ed719ff3167e17564126bc6dda16c8cfd27aad29dfa7a466038453;
0x13a94e1e1ffd11c4a28c86290a71162f82c03ea2634b67d98c1a5c1d06912186;
0x19cea28494b1210a4098ac0e79d99fb546c2c3588f3cfe4a068359bb6082e56e;
0x13841448d03b83eea61935f4d495503643436e90a8efa58be47c85e581b050b7;
0x2df272af26c5aa5407188de71beb7cdfcf870c778b2093cae868000a2dbfaccd;
0x29fe73f14e2420c982548ec713b85e374c1d8a43c2bc2ddb6302bef9fb2b6e24;
0x9070c4406fbd360eca9c300edbd0a65fe8f59b876c18ae13bde14e3330e3175;
0x2c82ea6755166fd89b688200788ba82d29734ca1b04494d0643b8689ab0b7cc2;
0x26e76b10c0dd0dde0a57f9b731be061ae57c1d964e2e525081e1fa6084632b57;
0x277298f3554969bc6937d1b5d5fdc5821b3c809206a3930ec894caf9a37240bd;
0x287e53a89a23bf624bf6613a821ee5d502838605198c699cdb6ae5d274bb8453;
0x2e9f85b46415dab53d2c1820226d4e7117e6cc96b7ddffa9f6a96cc697256255;
0x17fcc4d649ce2696bb0e00460172bce45e5deb8c57904e5ca0d056c9df3e5297;
0x2c971b630f9a4bca7a950159ff4411578bb39eedee8d9f0171b61ef7febbff4a;
0x9b526beea2b32c93c9205ce33c6dd79824ee0123e0ee8309814432299a9756c;
0xc8311c2fe1acce872212bc73164132f8fc89039b4b297090ef07e1997704279;
0x2ea4d48161c13add4b1dc83b3666ef388ada7a353f3da4c8053efafdd1742bcb;
0x447cfb281dd95e5bcf7a195bc52e08d78aed9e64cc9d7973873d06a42b8964a;
0x2828d9d20b414b800a028afa5e61ec4362ada01cbd66f3a4e018f941a9edc227;
0xf37dee2a8dc76e8cccbcfc527cd8c3383032e1f3f5065e39d2aa70b8fed775a;
0x4523bf1a8f284c6d95b310dec2b54e0e00e59b571dd9d46b6201c18e1b56dfe;
0x2ab166f28cfdbcfc32e51fc1db9264b527e40c696357cbdfa6bf90bf09fb97fc;
0x2e156785cef17b7d942ced8e2ee15ce4bbe2ba73c0e55bd50eb898a1bedcf3c0;
0xd4641251d71b781208156ca3680d6a5676f749b7588d5db0464c76ab985a43a;
0xce5cf743d721f040dec40606144f5bcc8b068d2bbb11c3623eb423b1030e147;
0x15e35852381a52021bfaccaff799de57d8dc8606f2465e875c7f9e22a3183ba6;
0x7e9b4e0821320afbbb23fbe3a2027192f2ec891fde602faf446d06b3a770c04;
0xb743d70dcb58a6acc70835a005c7ce366876fe3efe504909b0cb87aece170f6;
0x10643f7d6181a8b5df1e921eb1a841476a937fc6a473185d8322c9a18c487a3e;
0x2928df7c94de7ff8a3770980f0fbe3cc4e4f5908537c40b9e75247bc31e6585c;
0x168d44f63e58a5c713c37e067709bc369c27f428af5eb3eaa79d445b9d073318;
0x2b8845a96842f965343a94e76efa217b83bc1ebe804c7b25e8b3b58dd165e79c;
0x1f44fb02f387d2ce14dd149cd24fb411a7c738157715d6a1be66ec028fc01bdb;
0x217b5aaf9893ae41030f6c64ee6870bc995427c81e04a265e1774401a5412a53;
0x45a1e21cd1e0e5b296cc6e02e249a6cd0eef3f6487292f0f1c742de712a4a4d;
0x1901d160707a8edfbb7d4533914b9b8bb06f565b1abace77f7f761eb33f39e5c;
0x27dee99b80374f3c665a4dc5c89a8e365a5a93d07e51c727ddd6a896c7ef8a7;
0xb1c7058abc3ca4f1633d64c0dd5f068d7fdc10f96e3ca682d1b2ae6e289aaf6;
0x1c495d660ada6c32fa2f107a811730d99ec01d9a17dca7001e659fb8454b9a1c;
0x100885f5765de1733a91853cf668563b88c9c36005cb54cae61a82b6bb65160c;
0x233544636d02f161bfe5bae6e687558cecee34870235d36cace44c6d372f0545;
0x222a180a868a589137d947276e3cbaa74ca5052e685e02c178f64767a4e66446;
0x22b1b89514b6a597c1331e24ec3f4e3232821a7330a525629d4d7e04950fdcd0;
0x229fd163ea1ae80446877d78272ce7c50b8abac8fc591ba25c22661cb1e1d5a2;
0x5efb45e61466bbb89d081dfbcc8bd398bbecd324d5950d65151b80c102a0503;
0xcdf2465b92dd04b968ea8419be7466b0ea3785fbdf1a7550dc5b99e781853a3;
0x2acbe99eeb7c3a167376c64ce28e10b1628cc3f7f480e68dba68bd470f29ffc6;
0x21c173647249e75c7c8cb1d097da2d4ccda1031ccb8be5a1d2c3d392fdea5bd2;
0x426c0054e199f89ccdd26940f3b6e8e30bb744886d5ae6677ce75f0abcb1a2;
0x4523bf1a8f284c6d95b310dec2b54e0e00e59b571dd9d46b6201c18e1b56dfe;
0x2664a99501d9fcc7afebe82773b4ea88245d531d59a7a0708522c437a2c63c8;
0x1dc35aa8ae4c95f4a17d44a790157b7f27045bfea974ef5818a2ad557ae4d1ab;
0xfdae6869465240d7a6280616afc83e937cc5821d8cdef8ae9a085395aa708cb;
0x1782b019aadd454d509149e265b8474467c1ac219af05a53b8f671a3d1c7ab8;
0xe543d031bc1748852a333f2e031cbcb39d5715e8637ffa18f18d620de3b1ca2;
0x104993ba9cad115c79a58320fb01233fb0124a73e040581c6621429cf2fd8e2f;
0x2aec2aa10254227e5e0cef19dc491ffae856bd5a9b029d926b60cdee38a2e30a;
0x14395653083408edce60edf4f3232a9614c781cfd7f6fd183ee22e08e9d46daf;
0x2e200704e49142bb68b20d9f7df040a1bd32118b21d44f74dca2b31818693012;
0x2797778f8ed2e9af3fc79ec16f248b6209c03036a7f0d5066237befbab16e11c;
0x25e0e403bfbbb31be8c5360007aa9f2e36a4dc4b5b2b0823f8cbd4349970ba35;
0x2e8423bdead0b3ee1516ec6c5c816c7ea3004a45a0443192427bbc4415251771;
0x2a34015d21144652f722f141385ba0510cd38da886bc0df34352ee7ae76a07be;
0x2a3fee652dcedc95a0b44a072aaa54f5155b036b22bbaf7eaf0b9c3cde42f4cc;
0x135692d47c5a0d4df037949a54fc72f230314fe7629e0dd7987b620c66543505;
0x142093c728ea36edf0844de5e3c4b4f1e1b44b72a413b7b2a758b5be41c8d616;
0x2a0b459ab3f636567fe0f1330ecb15453f62a6993b748edab79ad8cdd0d535b4;
0x330b0a428235522e1d5e4728b882d56a82cfda90452ab9187127ce73658a9f2;
0x2c44b22ae15ba0f22763004e8fcf0af6c602a0cbadc67eff70a74000b67017f9;
0x1c68c04dca5f72aab61b7b60219e29d1183c8d1de5c7c8c09460738b6bf9760;
0x1c74af78ca0448531b773a27c47800cace7f86e68e4969d29a8a12f1b9d59330;
0x14e2ebfdbf9c76e96911a23a9f9c7076b38316393fe11a0a7492e605ec7a9c42;
0x119a85d4048b76c56f636acfce7dae71759828d711dd6b28ed0e9a236e4d8fb3;
0xde9be78e2e3c344a0b76a171b8d7ce1a1d05f25790a2451102e05a91472bf35;
0x1e91cd25f12f2f3cffc2490773f8af707fe1a6843a766a3c44eb5b8fc134b002;
0x20956c83b24ba2bb0086a91f597d0a902f2d74e53216bbd9592d35c438648061;
0xc716d79b1bfa9d016fe75522d771400fcd75862133046a9b1011540d2331e87;
0x2c4f3e61d58aab9d3c10abc4656fea493fb3d6374708cdb2e084a67e2fb6ea6a;
0x4523bf1a8f284c6d95b310dec2b54e0e00e59b571dd9d46b6201c18e1b56dfe;
0x15762393eeb335167599c130b4b6d22fc3f053dbbaf7635f39701683f9642dfe;
0xd7579361389b5dec0c5817e57dd5b775c48facbabb151eb0f7e2da5ae19d158;
0x265b9eb82ef9bb6fe2f70ccf516bee6b9be401183f0932784a40a61186f47a42;
0xad7dc8d9d0b28ae3046b8f23c3a7cb614090e05a3c9ec3fe8e2fab367df2272;
0x2a3f87839d7b3e0528e7b9c221379203354304e363684e38f5fbeb698bcb19f7;
0x2834e210d211aeb395ae05198f7a1c475be1cb0d89a8c0877d8e88a9d62fc5ea;
0x8cf6af0f8c7017f0de1cf6ea6947009c1041169d5b57c49938a6a4c863debbf;
0xf9b0115c9097f360d0fb624b14c8b4a1ceff857220a181da4c32f619b164bed;
0x10902d17db9823294cebb8706f44e8752e5a3abfd8218ac27718a4c0fc8a458c;
0x2ffc17ee98848d878ed4315e3ce007667b4f18bd43993e4d969e9cb38d8d118f;
0xf878f0a4df67255f88423ffb527014656515eaea2e9cc36be9c37135041fd98;
0x5dd3e66670174cdbc764ce0711c58f427dc503c798e29140820053da7694d26;
0x2de49ecdb01104151943ace205edcc81ab91a9ef2af4c33ee2aa2d08bad6c023;
0x2cb9a3284c718a566d7db309aa0ce6f8e61dba64a225f746b757ef2eaf0b9311;
0x1d1c9593d0c4ea4ed9a491dc73821969ced386145cff808364bc37335ccf5a69;
0x23a29371ad7760d5c5de4ae5024a4612743fa77b09eb566c9f41d216c9552854;
0xee30c0ca292c3dbbcdc2471f750036531b0cb85eb8464d3f92466008ab94247;
0x1727f0d18b422010f97058ff5e8ac23fc850951774b431a38f60a1d9b5560175;
0x2ac5457bc236f8945365b828183f8266e3d1b5b3dc2d9ca52febacdcde11b71b;
0x166d29ead2255e356ca2170969b7b9b94bbd88bb34ad7e5663f4d3a25a330ee7;
0x2e386cdbee46199b48299bcd0cc8ec486f6c6caadb087b52ea86e51d4f39e736;
0x7937bbf56ef747bfc1543e6cf5c653434e85a225f09199ce11747da5d44a530;
0xae9d9852098390b4a5b9a075d32020a5d61d0a2a05fc6037408840d43bd04fa;
0x1181b5e009f4e51aa287e113ed3be581245601ea27ce4b35219c7317087568f3;
0x2475a06052db24962d86bfe804db3f65205984e5966c1a8695351dec487b611;
0x1e9530a8088a3c241b2e5ced4157949565aa90425ec8b494def155581d6e10d4;
0xc9c3bdd72c3442d12734c0f3bcf2bd1bc679cf8fac9127abfb316fbcae53202;
0x2fca60f1092c4d48164a2e2c81fe134cb4bea555f4569e095389e181a4ceb5ec;
0x4523bf1a8f284c6d95b310dec2b54e0e00e59b571dd9d46b6201c18e1b56dfe;
0x1115614e19e210b59b4b0e708130dd845be5bee11aa1ce43984ccb99beb3624c;
0x26643a2ea75d103a87b50ca1690a55117340ab3f4fe78e63f81187f58a392382;
0x699ce3db9d5882c04716cd74bc49c2bcd5cfa34039856d27ac7354b60ab8412;
0x147e382354cd1bd30bb3383eff03f89974b035a00897f89d9545cf501ecfb243;
0x76e68370ceb55cca9757765b0c2eff1e05426fd3b1eeae4de2bd9f49c121700;
0x8064483b1ee3733f6b6e9dae47a7dedf7baa9b67ff8471ced25395fa38cd884;
0x26225db4d7860e869a00f54fa10923c8041cf313eb912318aaf8f4f897401f44;
0x15ba41ce4e4e0b3c6633aa83180dab522a28b25887f78e8acb61b6cfc6f837db;
0x29bf9692a1f8c909bf1d0fac4a04de3804e89c3fcc2b081cd25d44b0afff7b09;
0x29838b380b43fda29e4b8824229a76291808c2a9c4864ba8e5577fdac75a85e6;
0x165e81bf9d1b5b89ed739b99c84c53dc3fca070e83a818d5bbfeed37630a0b48;
0x10a7013127742057201e42ecbc83099b49a60af2365f8bf7cc403a3095ed3fa7;
0x223759ffd12a39e3e384c76802544c3778f14149d0123c1280fbb92ed556d9ff;
0x707296bc5dc73b70944cfa07f21c77042753a479540db83d9115f9fe9ee3e59;
0x205f5d69af9f4bb66c51fbbd99ecd7108c76240f97f758a17e60f46bdcef86d0;
0x1210dd2f4c47992f4d5c7150f1bd9346860046534bec9bcbb3a977802fe9037e;
0x144ccf1aeb8b78de9437aa82f7a82ffcb958529cc51dd5a283635ffc0b0a6c8a;
0xf996b911c7c650ebcbf4bade79e10411e3d4ab0e2ec01fce87928c4c0f77e80;
0x1b46a1b0ed04080cb068fdff6e531b02c002fc3d66b3ed2d656137001b7926af;
0x19fce53edadf9d4cb5eae86fd8b1c68c238aef46a5ca33603367b8de0927b2f1;
0x26b0885672f6494dfb46ed42a401176f2a2f42790725f14adaee8e9638a986ea;
0x2db620812477b8d733297937c52ae01076f5928ec0b7488e855dfc5b938b80a2;
0x20d30fe0ff4f57a3cc6e6330182f23fdd72c24aaf0a5b372a32a19e80a638112;
0x2a5e3d7b9813aa7a0cbd2ba1c425d80e81e12de4060b90ba7eaf832f00f34d2e;
0xab8b6d9abc9cf77de47f36daec39db0f7e3c7a31db631ac6ebfa501a4b3f94f;
0x16c8438c2ff89c19e2f9cdce14dc380a8a31c1f65d059e23931f69b921e5b4dc;
0x13d36ffb25914bff0a9c1b490db18fc8fd7a2ff9fa3b673aa2ccb2a64539c7e7;
0x28b8ee6f7ee1d8d0d3ebe26bf4246e8eb545148ca86e60cbd0bfdf4e9b22660d;
0x4523bf1a8f284c6d95b310dec2b54e0e00e59b571dd9d46b6201c18e1b56dfe;
0x10dd321b7a11a2bc96b3f4719b4b443d94e5aa2ddbf428d32e863d7b956aa085;
0x5fc6b8b740e55f5d0690b7e2309f312d089c4555f057172a6214835460a342f;
0x2951ef2c77380bae297a4fbc05ea97de562ed3d80aa8a986359c3ff00bcad10b;
0x2b7c767b440ca0ddb88adb86af53231819ad6c21c222b09a8fc8f9d61108276d;
0xe44d122f91c40d9470afc3e484ec8f8fe6ad0fd24146f1d38d717da4db7673c;
0x1ba47ae303c2e76854d7f399c74f48dfaaa3287c07b9b79bf1fd08f9da703c4a;
0x11b425d8000810e925867f7a9850aa799aa2338185b6f97ebbeb7b481a52feea;
0x27abc591fdfc4152cee25f4fb6d0a1e932a396b72c311c05a99a9f923b1f7014;
0x2a7294a73da17a02829961f0cd5b34c67c909acc3874a238637fb570d4c23046;
0x8b325e346b09a1eef8be7fc3d81867135e87ee9958f16dab759bfba34b0adad;
0x1d8bfded258e085fd2c871a9db0ca38ce5e5d232d2859c9e3da87829057ff232;
0x10321b7d5466be1e92a7b8f17a16a37baba2987ed57399fa903b5385d81b19bd;
0x1385299af14ad7cefe90edbd656d72126e0e9078317306984f201a98e3e87ff6;
0x1b3f863460bd743da42eb33e47d2cfffd9a1855e9fe571674798d3b0d2aaa8c3;
0x16f65f24d40213e86452cb242e20a222d8bda274251b4fbd82dc110ad78f1101;
0x271aae4782989dad19f84117ce0466a52e16551386b42a74552db0c6e00442f;
0x2913b1df62de1405241829ebd6bbf2719510cfde2d374c171f2b0a3956beacb7;
0x102108bf4a73ec9abced652ec51ca12fb06e48b5df049b9e37102ce0a77b657d;
0x206603d022cc8608f807ace7c0ec31d9dd98c202be6d1bc47a4d44df54bb48fa;
0x28c4e8e4ef10710d1e972ee6a4a2f88aa08a0d6fbbd77cbd057ce83ab6b75bcf;
0x1431769f19552b0579c9a23e91e9f017ccef784eaf0b52f33819bfd72ae98f42;
0x20c42490a8ca07d9f39b11e720b833ccc033e1ed16a310d53222877b0630336;
0x27e9b6a362bfbe53ee9fe071410ca804a9bbfd2d2e579b95a50d63a16c988da0;
0x2e937b74fb17d63c90d32c1258c1cb4108f5e3f82246fd704d44233653aab860;
0xb1b6974c506d78acccb5e1b6c9a5583e9c922152ec0d113495dc49b14a61c8d;
0x18554cce997dedb95d27bf135c8bddd3b0c8aad0551a6f372bba51613c0335ac;
0x132069ecac9f244a5e447a1cc19a998073aec780e8236c827a66bf9fc6ccf8a5;
0x17d40185a9458fc6b98948ad7da77f035fd7a3618233a43af0d0e511e5fa37b1;
0x4523bf1a8f284c6d95b310dec2b54e0e00e59b571dd9d46b6201c18e1b56dfe;
0x275d28b52043874241a3fbf29f0fc8725346929cb378a7e4e9e8c7a8ac1c4128;
0x168eb99c86d705c289b00227d74828339e88cda8ea726d3d9acbb57ae75043b1;
0x2a76294553220b5ba2abadf6bc42a902641312f0bc1953286b08ba16ae65f435;
0x4f55222eec01a996c9c4c70c11f6375714c601e1547cd47f1dee0b3999be4ca;
0x26afe145a5c9d058fd25a6404e4acb62cb13d299de81fac1deb35ff9f4a40c33;
0x2cd5c836e175ed7a902fe2334f239d499f51b58db73bbf2b1180cfe4c4df7936;
0x29b7a4911bb67a29bd7368c0f42079aeda1fc0d452efb2b129b0ad93fec02eb1;
0x258d09a47dffa2af8a1dd733c8b08f63911dff878a2fdb4794e319d46a63df7f;
0x22e2643fe45193389fd7981bf191826724d5ff1f0a68651c1c98ef02d81f1b0a;
0xecb1213c8df26deaa40d8f6c4f0a1d4e3c72da3dfc1f4370de7dad7e32618d;
0x14ba09c0956dddfe7410192712238658b4d65506c78e318ae769d2732c63adde;
0x2dcd28c30f44c2ee7d8121acb638debab46d0feee4dce60d494acb677134a60f;
0x117c6959729d1d774ce1a8fe1fa28251592f3bd62f86253929ee45ca959e4b79;
0x2c290cbd7d76fc9f9cdcfc47b48fd66ab55d20b7e2f73357e68319367c7fae08;
0x1f40cb5c53ab688c259fc3a2bdb401115330f3b2850955a39764374e5f2b5195;
0x2a58a19ce1744a2411fde6401a6f33d899f9fa9c59eb6375530f45bd8a751339;
0xdf6ce7e1bb5c41d366d6d7d5707c63eb3ae9478043fe167f712758a05b49206;
0x2a32f08c015e3dba1d7193b31362ea88156b370fccf15c48abb7133747833ae;
0xe549b8f127e7ee7a8e67f9dc534fc8e3a627059b406379c63d86a54a593d86d;
0x2ad6b517cba39a16caa6fcfd53d3b8a43758e360c703aed8691d721a523ac174;
0xe000e82e93b69d72b8385885464cb1531c74d6255f1c1156539c89dfc84091;
0x24b57d1e4c920be2b95c0fc8a84f5d5603f0c286e80d71669d60049b94770419;
0x24c65f0e2ad6e614ea9a53b058651459f966152275afd3cd6924a1e990e7d201;
0x1d0ae8c3033577ea4b1f2dd4b68b83620a1ffcb4d5426e9603d4ccfcb6f1fb66;
0x12c81853619d70f737544addf33b8d104af13ee311ed522df131bf24d83dac85;
0x50fefb4229d0fbb58756c49b28c0ad0fee9338a1fb239f8d8ef12e168aa162f;
0x1dc4a881539b03ca1b5493a594be14ebdcb60bcb2b4d1b58868d3a6558410173;
0x1e7e5f574d74633a061ca773e969dce83ad758e4d08c37e3900f62c5f9b805c5;
0x4523bf1a8f284c6d95b310dec2b54e0e00e59b571dd9d46b6201c18e1b56dfe;
0x2d030d498dd22e5f9b3761b019f812c2df002ebbdbe5da92f38be1ff1cd97e65;
0x227f6e1b292aeefdaeefeeaa2e7af21fcd012a794ca2c18d284661cb0fb1dcaf;
0x9a991758be8db845ca4b488dfd11e27f0c773c88c2507ad584dd73eb1709358;
0x5b3c08cb06d23cedf2cd4c5cd248514a89b09ff70ff56f90221492081480705;
0x207e60dbdbbbef1f316198b79e4df3e688c3c71b8f82e0480763cf729b6bba03;
0x1d94aa3d4e98c691b3efaae72ae18d50d90ae56629eb00e7bc324eb2362d27e4;
0x2f99f4602d8a7612c573c3ed2232eba3f91f030f8b5c2dc6de3d8aa60bba2869;
0x185a7fb027b40f8efcfcbbde02cbe15567d64ae6ac9bf206781703c07d6272ea;
0xeb85ffa7ee5e9fa96ae4697ca527ee7bbfb69b5df611a1b6b715a30f9b69b44;
0xe6507cc613c091c3f6d563b24b8b78d78262d7e6a470ffd98a1ca6cd0da5ef1;
0xfeb286fa095e4decdc49ea3f57da799b2818746837f591941e67a93f2bdcdbf;
0x157de51c339785fabf4ea584b55e158485bce7dd521c0a25160247a84d13e6b;
0x118b39a323a6ab543f005f26c89c673480204a183a1f68e0100d6be4d55df254;
0x200f0d9065e79bf29e35fa9ce14f0d87038e43ec1c1c2d4fabcca003e2f2d724;
0x271b6dbd7bbbf9d98a9c5c8814c58923aed6e4a31d7bcf8d723561f5116df99f;
0x22594da35eddc1850dc757649b53c126403a907c6113f39e940e363bd2830509;
0x9a6a3e13a6aed0fb709786ffc8a7d560642a59f2cee2dc68781130407455a81;
0xd5de9b94917addd8b8ebc8eface4fdc044380a27446e5d0170c4aa965b8e48a;
0x1ba4f74d7dbf44f967060c619e429485254c8aa06ac08bb8fb101a4c88811cad;
0x2bd393ac0c6602f63ef13835a3601f6c4f84f09cd47cedf02ab0a92f0f59e813;
0x132cd8a625910f7fa7a999d0338010825c353659385ea10a419255dbc0a3456d;
0x2bc9e5ad597c8f773a7ac2dfe21c16a9d5493a1e319dc942e635067ac6924754;
0x21af2adf48b95cc677f255d44aea3d1132115782cea08bb82a526366b7affcbc;
0x1baa899af3a60f883362aa1b88ea17778e258d3defa44fec1b3f4f9c13b890cd;
0x1083673f89cf1ffe18b41d3cb7084270363c519ef6a16484220e30209f83d976;
0x5a5be7182497c5c2ec9e91b1a4af88703cb01ea7e7d8dcc535d72a60611f271;
0xff6f076a63edf8d87f70b60ac0d64f311eb1771d961b6b33867a6378181088a;
0xab810f3e1dce08d5e5289d8d32a3ab20ebe56a1e3f6cfec818462804b0aad37;
0x4523bf1a8f284c6d95b310dec2b54e0e00e59b571dd9d46b6201c18e1b56dfe;
0x36339f709425b44b4b4158479da0b011c1a67fc8edb682b0a4437607b9aab74;
0x25f49340da53700404b20e59243b4e5158b8a2dc24acb8f072504149481dc8da;
0x14b076d2ce8f4cb8d8323ec8d743947a7c8fc96f149c0dc4a74d883939d620b2;
0x4a6fdd5c06168268ddb9886b5b9d23f146ee182a155e175d17b07ddce7df8f9;
0x8868cbb867db89dc7895e3c2c06466e0cd0936eca7e35ab5fb8f63f7a4722ac;
0x13639b2e24f941877911b94bb9a0256f480021097c2f8d713c088c628d8fe61d;
0x2487694daea37ed9f66185b6ba5700abd9144c18def2fb87af3a4fcc5b8a6b5e;
0x62db9b179c1677bf6cd17e9bab4cbbc17a113c73c137dc6664bf4938f723352;
0x25d7d897d92a0fafaca382402a1034b20ffde5b709d6092aad0e89ee43f48fde;
0xbc883b75255e0e7b62094e1ca2aa65cb2a2dc7c4b30233f6e057257b25adcc8;
0x1e902b42eb37ffe108655260991d4f28d286585d6e9c172b6d87be8e08eccf31;
0x41a3b254a2c8446d8e99a292e24bc1858eb3d8fc841bc7e1ab03dd5f1c40ebb;
0x21f4b9d60cc5ec13b8e87d116b27d89626bc76c0e8ff4caad5f825f158feefff;
0x246be41807bdfd90b7cb066201cb33203cfd557d218cca9ccfe1451a86f4b258;
0x13760f834ed0e52211b6d9b36080dafe079c30c279777ed992882ede9fdccf3c;
0x24e75fe9b1f75436c465b22fb0520ac1afe2cd26e0a2d7b6476a3c9740e1ada8;
0x210a9a4b2b1e03dd5fd270b8303f7bf9eb268844761f67473372cd665b1f319b;
0x133c572bc84ed9a77b6651162bda90620f004f61aef467671ff8019ca6c09bed;
0x1bc35641ed2b845a94e93bb2b89889d0b9d3338d45503f21f1fe9b0c09394eac;
0x1ee1cb63ff99f240cb1d5f11c0abf418d696a0b73560afd9302a5119750daebd;
0x25e5840c2abad4b937edcfc1ef54894d9556774b1e921d1a437278f8c3386222;
0x137cac7ea18f1785a86b769785cfa6d919af27b77d7e1cf07cb4070275c91384;
0x2e39652c251cb2e6a89166be880e1021996ffc55dde4b823cca3c305a1836794;
0x3ec58cafe270aa7824551c1948911a0412a4985d79feef0324bd63960c6995b;
0x293b947e1e6860bd81442b2c2a6fb3ae59375d12f857b5b8161e0f4bfb430ef4;
0x2727bae7d504f2181e1910bb7eee349eaeb0480d214fafd019662edc067a1290;
0x1be2f1a5593378d6fc1505e59c4c28ffb6cdf5859a5e2e1bb5b49a36051f77b1;
0xb1e3d4a0d6e3bdd411c1f8dd4f2553ae84544b84a57b1f09fbdd26670d4b007;
0x4523bf1a8f284c6d95b310dec2b54e0e00e59b571dd9d46b6201c18e1b56dfe;
0x1f1099181737a09a66b13631030982bf438bf84d3715a0bed3cbebecaacac44;
0x249a7a0b3a015a04fc08a2c6cbc7787aba1cc983c94a3d5074f584edfeb2416b;
0x237bace2c06976c536b56fb5acdd2ac51fb2be8c204834b011106f03eb3a297d;
0x20d83c51cb9e2a1fb0a0fa7f32c69cca88e6af24878f21fad622e364a6be6c1a;
0xe65df5618a774c899d19e6a6d8f0aad4a10c347b12ac1fcbfedf7a9f17ed09d;
0x16ab51042d2c056da53bbedaca317fb7543846fe6fb147279b5872eee7821e54;
0x2e2d8b570da9329bdf02f5feb01f2b6e32fb795631c6be29e03a1c0ce31c629a;
0x24d1fd499e7bb80cb2d0ca1fd09039bc4cf518ff43725796bc2b48d237c82e78;
0x6a96b7d99b2b7a6e57cbb355217ecb8637bc3d4ded1e046783a6d5f63689392;
0x19a143f1c5ff5191d99a6f144d8635ee4e4833b0b80a86434a494a6a97273239;
0xd4e60cac8694ce18785f94c5c2f18ddd5eea3cb8a70ab4bc3e533b3baa0c674;
0x3062c4cdaf43e790dea387e5bb1bb16a167f30e644e5411f9252042d516b8f0c;
0x1b378a25d0cd861fbc9491836aa9c1fc169456c2027b34ac1b61a6d7090faed9;
0x21cc1b4f8732b2a733b42718b6a48429df379711208deaa65a7eea4af1cc7d30;
0x2115e1786ec90fa373ee1a8f50768702b3b89e4c0aceff138ac487343d707792;
0x15ce8b9c8e950b1292ee1f80d7e271d3c0b714c1de34b76063624d00a686a39a;
0x1d0e917e058eb6cb8ee32e9da420bd6399f8b2297876d84d997ecf8ab3b0d156;
0x24d9b1d31cd6eb19c0c63513a6c3fb04a43033968696e954431d00f128bd6349;
0x1e4dae551bca600dacc58fd37cac50bf2713052e2a4935d64471f585508f0d9b;
0x11b1cc629721ced48c3494595863dee3de1598c11a681412062610ac859735df;
0x26ef5031ab96b02b00df512752c7165e368f406857478f18d7230b6e4a1c80dc;
0xd83775fafda795718ca9d4777d79b9c4354a73bba6813c415b3b970fbac6e62;
0x20be2cd9b7d6dabd4db0dff89911987ab0479dd9c1c081fa64b97fb97c8d3143;
0x255bcd5c215aa3bb5bd9e05f4bae4a68e152e3118fd09368fab9fe69e23149d2;
0x1947d75ae45108e7a86d0e3e034bbaf27b7fe718451e3a5c206dd5a122a917f8;
0x17af7f16f78c7b517171424fc4f47ba88cf15c4224bbd13afb3bfb05df96d89e;
0xf736ed6532f0b90d30bcdcec9b05d1c59070f105255e7d60f8d3178e753c5c4;
0x223efe61713a8d50c4d8f00ff69c45ea5f27defce0f08a9bc74e7a82084bc788;
0x4523bf1a8f284c6d95b310dec2b54e0e00e59b571dd9d46b6201c18e1b56dfe;
0x13a0d52fa98cce5cd43bcb4aae2038de35a787f86d375b019d7279a135ce710d;
0x57d3beb3548cc7650f10f293fc2d393227dfb72422e89072dd8b90466bb57c8;
0x1a6533a65e764adb163780a18df2e7f0233bef0eeb6276895c76a474998afb79;
0x1913a71c0e6f8c87f433ed6ec0bbe2e7397544c0dbed7199c5f4b7edceb06a79;
0x2266891fa5e56d0240ee9871ad7107c0d740398f8cc9165a1b09e10a2b740c17;
0xf5652567afe30f4d5e934d9852bcee7ea0a8fc142b4822d2340853022128fd0;
0x5bbf0f89f5ae6f5713c18b57ab2997abd8bc8c0fce08e2047ffee7ff4e8bb61;
0x1a7bcce0d63b580b6779957d56f9abfe5aa8ec1fe610e952c4259091046d42;
0x2b775827170698c370c7fc1706cd95b8f6c7750f338ac0fcde91ebe40cad9dbb;
0x1b9c97f57c84b5f780373eeafecd7a4ec3e065219785272820672d59e985526e;
0x1c89b9708064d8558f1361c6acba6d73eecd06c4e4a157abcdce2731cbea3e95;
0x9a22dd01ccbf3e6ed2de7d74e16f58edeb748843b19d0cde8756bdf30e7f222;
0x2678274dec9c2180d4f5b5e07cfb42c2489afa4673c61f091a5dd00ab0e6018e;
0x1400af0c777fd9934b9fa5d1fab3576164ef9b31a6c8be59f72cbfee446aa148;
0x2bb2d320c6f15fc80d7c78fd8110e715403df00154b1d275fe6422aae8d68cc8;
0x912b48b8c530838be3512cec8d4c210726e17d660b2a726bdb44f686052300b;
0xfce537edac05ca8b03b6b472dbe1813bfca33c05fa1acdc695c6e91d60529c7;
0x1be4e4888a092ed1691160e4381ccfa8997237e78cbd7ecdf8c12066a49c19e8;
0x28bd303aebbdad8a14ee284102ac2ac5e23680287d8c3587a71cc61ccd6c5b90;
0x110b79c0bf8f52881c24f4e7598c5f5b30112675a2655ab183be54c69f8a85f7;
0x2d17b110312b5b8d233dce3470269203776b47b85d143e1f45d59c1685ccf272;
0xdff609373bc4eed749b401df1e7948ce8c8084f4c816844c29ea7a07cdf320;
0x21445547b6584627b60ff1364308b6d6d1d08615de63a5c2ff1ec7f7764304e6;
0x1ad2606e3877709593699f24a0287e2be54a2ba74f3551ddb1332c7cedad0d30;
0x10c695276f9d6578a7bd5c351c1cab9affdeaf9abedfdbac72ffac057b67d7fa;
0x100f820a8faa0bc1165b8a16f64ab9baa87fc7e94ee23f5a16125a71cb06b838;
0x7bf7f1faf360f65cdf14fa9ff38b2619b616f2913b7403a4fe0431ec15a57e7;
0x7b95e787e34c76215dbd3e1c548e5646bf3a061d087ad6477cf962a3cf73dad;
0x4523bf1a8f284c6d95b310dec2b54e0e00e59b571dd9d46b6201c18e1b56dfe;
0x2ec7afda93383730c9043913c6b866c20a5122081a7744f6d6a317b01177affb;
0xeceed2a6602d291aab1064254c70fd4113a09bbf3527f603f67f01336915d35;
0x284b37b2fd2c4ddbb2bcdd057a56680d46b7d69fac63b80c991f14db1ab5b345;
0x10ddbb4173b040104f12ffb5fcc87bf6730ea0c8aee88f9e2c00eaa1a4231804;
0xb87d2c0dab9ff1ec96017e8c43bb5281266fc92231375e78f02354355eb0c74;
0x255c350cb26d49d41652f9a27f8d6c223b8756f8797c0c960aaf36fe91b4c910;
0x2ffb78c0bea2534d67c0b061f4ecb9cff5cdc0bbb9ba0567b35b5434329ce24;
0x16aec970d0f171ac2f7183d67c969ce69cf1f4dc73b38e3a72d8adbad367ac92;
0x2e74c92c412e2d6943dfb7946c80f5fa9ae87255fcdbb98c437b65f97fec81b4;
0xbdb1fbc8b81f57cf6725c95bb9428bbed046d555dddbaeb02b3fb9baa750fe6;
0x7bf15085936894c23de42271ca102d554a45b54ae80fa0c7e6d7aa9c72cb65a;
0x12e18b956f687e1c43f50a6571caeee8bde8d7da9ad5e5e27ffad30f833eae36;
0x2c45b659cd395880788e5215997b77761c46555ff084f24a0d28dacfeecf5c84;
0x2805d6c3bf0de9aa5c7c354947020efa9489995e8baac233ddf04e8ea8ba902b;
0x18187c330b42dbf89ecc0435f0d77a7cec28d256f65047d4a3e1ac8aa6cb199b;
0x2fef8da38b7959eacb7ec6155488836641655c11b8babc8f12e715afff115d4f;
0x88011673864ca6778bb97d51eb1f2962b69d07a496b6b7b370cec217c601ae8;
0xf6e83f3c55d5fb8b6b6c89e176a5a4f81a3a0acba7113ebee661b411613438f;
0x2d59be2aec0efbc67f59da156d934313e8be205c1460699f0e70e7fe5ecfebcc;
0x2aa0544263e125a82d9ca1beea6d9cf22b40afc7155bcb0f1c8b1ac23a24f6c4;
0x7e3a92c9ebc149a74d4180ffdc30e8ac7bd6598d78bb8f3530403fcd9b12221;
0x1827bf9f11d4061c506954039093e66e60041b2c96b8f7e1e4e550582d1ea13a;
0x2e147c8ee46a45f0ecc64de8647e833b1ec708269b37f4e29b17c91b9bab8280;
0x3117f4c71dc298ea7cdc53dc55f0a15541a369691622934416026bb1a65b8fe;
0x122fefefa669bf51b544de5c0aca38753c8f32419b2ece3a97f0232e523f4cb3;
0x18e8e58431e6dd229b88f142f9cdff129883bb54edba0854b29a8add15354d97;
0x12e0b4787edc9f9d3b12781839f3edfa715accb3e527bb66bb08d355b87afa29;
0x2489282bdb046d49227adbf0c44fdd3abf0bb2ecb21a2886336554389d452c2d;
0x4523bf1a8f284c6d95b310dec2b54e0e00e59b571dd9d46b6201c18e1b56dfe;
0x1e2fa77b090a5c2e5f1d37e25ba7d06596bfa3b546362103a4ff19bbacf7e9bb;
0x162a1276d397eeaa3cd6ee80478788dad2650b1433b55b07919d966a1b87ce8;
0x26eb2facb83a5a98dd405a0e6a94735a4c04c19ad847c53fbf047732eb114fc;
0x2b7496ef4e35f11f739db9bd69ffbfc416a0c45512e31f86141641bba04f3675;
0x26792a375f1ca2315b76d17b3f2bc3d6a3edc3c54f8ae682171143a91e48f091;
0xbff276591776a997acb59a579846525f8fe7634d66c9477f5406b05985e7769;
0x20e9af0c21b5cad7c87e554c98052eba561458f8f6b6534c4a1a0d0713681866;
0x1f5e270d7be396c13a4f29cdb58c7e4f267423ce2d242c93049edea4b9fb4ca7;
0x26ff7c1cf25310bd71e59d175c3c3a0f068a54c8493c401a3b67030922b5a757;
0x1276fdeb195702a6a855465cdd5b807f685ce377132b625b3f1a5e934636e59e;
0xfb72a4d993f139baa0ef2fb229cda32db7cde0f10c9031ff2f9ce3f2b883491;
0x15a52948bb2ee184cbfd9d2b419836e859f2d39291654c082261a8a1986aac6c;
0x1a9d4106f5a30c459a80769db1359ea4a3fa0e42cb32ea4ff03c9b800dd8bec2;
0x1d9250e3e49f0b5829ce06d877703ee0c8e9a51b516f09df7dac3410d6a7b5d8;
0x2524fab526c690d264888df207397be10a2626b71e97dbc66d1928e358bd243d;
0x508f820d3a3cb5e0d30b4a9712a99eddcbd3adac2b1301f123e1556e975d30e;
0x2ef65d57e70b07fd0a22938cf1065e3ac3996df77e0c100d354eebb224dc449a;
0x26b914f529af1a7e31afa5334e60374474b998ae18e99efdf19e40b2dedd49fb;
0x155837584dbdbc23962e00fa5a6115c10eee76681f25c51280a1bb2842d8488;
0x222e724b780a46377b77fd83af70b53cb39a1dddccb0eae70e4d5dd6dded8da6;
0xd050bd15578fe41175ad1e75a8ad0b27fe8943d894ddd74aed4b463b7f02790;
0x5c5f00321782b3d2fa6fdcb67fa63d1a00a9f63d35f4ecb08481ab535907d46;
0x207a0c370129f953e15836e8f91d7fbde34553f94d6b899e8645c96f1731f098;
0xf875acc749b0abfb86f3bac9e8a8e56be9b9b55ea8815d19bee069150d27fd2;
0x38a70dd168196731fddef341631e16a97447553f924d6c204d440dfddc0b1fa;
0x1502b8a3411c7391414156fc640e8a51a1171ad07586bd6de2be2e38fc6486a8;
0x7984908f8931b938e16c96dac3b58d151c4dd0a92d671cda98e16953c2b7f6;
0x694d96a531fe9e369427b3457bbed265de03924ccb0331d4bc445c4260c551e;
0x4523bf1a8f284c6d95b310dec2b54e0e00e59b571dd9d46b6201c18e1b56dfe;
0x17efc478730ddf82a8540cc83c4770636959f1b0d8cf438b239f60df816d7519;
0x6d6d06423d66562ef9caef0773f3fdbdced70fab47b0de7876b7bfc1216df7c;
0xc750b14cdfdecf7394c6039339cd465a8a010272c1bff8c9190ffe3f0018d7;
0x15000d48d85c719b68db8c9ed7e68cd481437c653ce647bb7c965ef9fc1c07ea;
0x1b18af3d53da20198957288dca6a567b798666bc14c13dec46429100e01f94df;
0x16e129dc67d5c08c79c6fdaf38def1b90f6257ce0017488b42ed2d46bdec04d2;
0x1c958e9abba1ec33523e756e8be1e0fac90cf1ed314b37d21a7b4d3c84e574c;
0xa4487b4c046d0e836db729d214a2b6995146b527ea42d9f1b1008d321a4c7c0;
0x169b2c93aceb1182e58c94204e285380af13476c86b6c6ab3c3a65c15fa21c4;
0x797bc2c0b8e08a4eddead0572838c237d0d825e236b725ef88269b0eea4d28b;
0x2179889dc88d5096ee6914c03f347b9d9e7c5cd8c8b9930b5faffac69478b6f8;
0x1057d99f4e9409dc2a83b8940d79e8e1c8e9c1b55a2a10f4261575653bcc89ee;
0x168c49e73137bd006b0b0996b3da6d2562db2a94f94a8e763ea36f950c0f6342;
0x588b7dc72c564a70347721e31544dfac82344701d29b12bcfcb99c951165ff5;
0x30052c56471167c83d58a970764a1bb51f602f45b8fe42494182d48386d19001;
0x284487bda08c8fb308bd9f50b700e107e82ac7ecc25ce91362303a2a2286af92;
0x2e1e79d879db7beb9259bfa882fe3a1a34345451b230d4e27d7cc8358e43dcb2;
0x1fdae630269a40c8ab1a64d8fa09af3a160bc7ec218f7aa5ebca2346c54590da;
0x1d6caaddfaa7d7f98b2a093524361dbccf489a6d2bcc0ea1e2e13abcb025c83d;
0x5c7c0b2bea90e985b2fd8c7e1e9801335eee69801dcd879edb5101739294534;
0xee54de6bffe8629a8fef48dc9de7a50885054a28dc85c6649c42abecd607dc7;
0x93c826c2837f20a15a7dab825f873ca79fee1607b2a1ed279d561b346aa9e63;
0x21c75ffc19ad7b92256ac9ecba8768feb4b6eace676e2f6700c87b8ea6867341;
0x2dec2f08ab0884ac001557f139ba7305a30d8c342d4ee53e4d4e6abe61879023;
0x12612b1a8d7ce43e1cba045f5c0ff9cd61ff60a4df948847a5f352996c0150a4;
0xd0bfc972a52fd760da54a5e78a4d47042f43be8ce046bb4522be2beb644dc8a;
0x1bce51a4e501309316d08e24fda303a3f39e962cf2776588c22381009c08298e;
0x19e6822defe86285515bdee389f08a4cb9e8042ca87435a47443cbdb76d30814;
0x4523bf1a8f284c6d95b310dec2b54e0e00e59b571dd9d46b6201c18e1b56dfe;
0x2e931e74616f42a131d4a8b56506fbff77845d8bdd66420beb3325097c35d2ae;
0x12cb5dfc2abb8252e9ff46727444ac95b3ea73f0410424424488e144f8699673;
0xab23891e07d9b14ab6468d8b54083479ddbcc3aa385804af4531058b6f52f21;
0x76c297b77611e733d1e889aa59629450dc9a47d6b0f134ccda083f436d85a5f;
0xbeb7545c1a73b517a6c89f22ad332b7e343bec5aab4aa67759d1bd5c513cc8c;
0x4c7d041c29a50e697120f25caaabd6be874d81442d23142978d9e30a18fcc0;
0x564102c95e897c7df22c2a4ebd2f41df79b27754dc83ddadc1e8fb5011bef46;
0x2c05ce35ea49db3699362c4b4b64a5ba68cc375ad8aade0365ef5421901a5a94;
0x1656b1dd63124d1354b1830de366e2c3e19075d195f6fe6dd5b28a599f37dcdc;
0x2507b36b6b8e24780ab4b7be3c26ad57c16fb9da2edb33c3f1dadf3ad05f6119;
0x126e91f50c4a00292aef54cd15052c4bc6114e85478479b60318e6dcca5d6c32;
0x2f9ab42a46ccd83e7a7005d4553ad3414e5211cc2730424122170c92769905de;
0x25aeb979b8ba4e466651dd441683325ca06867a60d27d0b51bab47a73ef3b303;
0x1856e09404e55249a6d7114a4554ed94bc09dbe373ee994cfe64a06a70b2cb46;
0xb6edf4c57e87dc5eb7cda564eb72f7673631ed91a612fb422487ad732be85db;
0x2eeb7ac6201d76d7272b2b8861c44f18045fb30837baf0040fe472d972a0051;
0x25e7df19e834ef4fc02b6bc24f1e45c42d935dc8e324467f216fb7456e344584;
0x22254c3bfc63bd575812867c85be048ba6f3cd2d2b600594703450a16ba7b35b;
0x1f04d9141844aee56a08a3e8b056715e347c668ccc6f1fda6dabf94b2a077531;
0xff41228c1c85b1f6d2df6e37422bf7ed8b7dbeaba7da63f6f96bf9b3a525fc8;
0x286cc1fd10f3b5e4d3b48d6996d85e284b6a6b215c0b862d5a29972f6ee1b681;
0x2cb3455b4afc670928e65d5aa1461ed1f048865f31b87ff6bae6f1b13303a69c;
0x23dd832c9d5244d3f7d185b3e8b3d759c11b86ce8102dd3811fc743e62a44dab;
0x128a2af0f0d1965fcb13344373cc1bb6f4fda4a5c28cb7eb31fdec881348eb90;
0x2b9f84c295307fd52151b60b7b676d157ecad172fc2a8cc89f8dac7dd6696921;
0x10a3da81ead6ed37cb8334cf6c7d65b69862ed22f485b092bada3c0e516c48ba;
0xd34d3d1a4e840d8e2cebc5d527a72ce929fdc7ef27e482a0f029a7b8c6875f8;
0x5a6ae7b5423c19aa7ec80748ae9c1f5d189935cea5723cffe87ee7ceeea8c04;
0x4523bf1a8f284c6d95b310dec2b54e0e00e59b571dd9d46b6201c18e1b56dfe;
0x1578614d9a2967236aeda5f4a4dfff54693efe351787f006c743eb600a936bf2;
0x285c79334945bed5f5c307dd65410ce6d6093d95dca5550146995d79028aeb09;
0x10b5fbbefe482164a1e9c30bb4631861a12476186ebba60da59a8172a24fbc4e;
0x1cdbb43b87d76d420ff6e1adef1ade355edf97a1646107d44993af476b78b98;
0x19733eab4c8e4779cc914f07598df3bb1c2aca04fbdd5a116f864a85f7a81fe3;
0x3009eeefe893a6b04a2d51a027b63406170c305d525e5b959e057825757a8ff4;
0x2fe6c9de6a79e7bb2342a0c0992a9b8488b4bf43da0ce566e53bea4bd24e6018;
0x2d40f2520a5df3a80ddab03db8ed7af99ea054e3a159c4a3fb6fe79a769b685c;
0x22340e058329ac548f679421e17152d6106de7393cda87a9f7351cedd26408ce;
0x5609d6cb0bc2a003ef02b3f62902f51b49bbed72fdf724675ede239432cdb29;
0xa4481c88c41e347a2ef5fd6b915772289c2c90b91b3fff301844dabc1c51cda;
0x14ade810e267932c4023ef6fea6ab0fc56063c5740a256c89e75a17264fa2898;
0x199252b794492b2d35beeae8c1411bd1b5177e17af65c6f86ddd3261c2f8999f;
0x1ef0142a7d35ea276712c1b5b86e1386201c18e3f774321cf69b6a0d2ee3f226;
0x24cf18fdd7098067ebe68731ff580f7c01de7251814a4666ff518222130aa2f3;
0x1087f37b188ac4ae2e05051a05b60e0579df8f4223d874716a6c251ab62e5b0;
0x1f0aeda37e4d1e81150239b71a4cda04f0e4d8d7588ce691721df28fe9f18c61;
0x1184563ea49c28693ec800bf53d6100048fbed518e1317ad922c095d486778f7;
0x28bb14de4caa8db804e9cfd9e92cde9011c829e5cc88a709d1761638c88a0593;
0x5e1f290e1cd58efecd18bdb15575356b84677a59c118b465b9671f81639783e;
0x25f7a0d0ce8b40f8b02ca63dfa95a68e391df9f6d24180cb3cc976b4ce04fc11;
0x480ccb16af84b2184c6f5b529a3d8f444f83dc11781a106ae10da23f61587ba;
0x539296f5b7b7008de45d5c8516fa99db18f1a822529d3266f60fbb9959d4eed;
0x1e424153fac06000bbadc168cd28c2456abc7b0be95eb89d8dfc7b9bba75769f;
0x932c03c10fc912a134329f330f819e8d619aa8a9b6f52599e0761ba32c60e01;
0x1211f6c693e1d0dea72aa0a0c505dcf1f9fd56e16545cae0818d554937473906;
0x423bc3cd7620b919908d77becca14373a0fd5e3e9ba4470d967da7ee65479;
0x2118cbee96964430e47912132f0d6f1c2e6fef1c001c8f55ab591052123d04fc;
0x4523bf1a8f284c6d95b310dec2b54e0e00e59b571dd9d46b6201c18e1b56dfe;
0x1f1e2374f0f17846133ddb87fa54430c6c3ddc9c532111de01eda3684f397a94;
0x208b76b6732f2ed681d8ab9f1b5c510c8867ac976a3fae72d5f9d88676a75a7e;
0x1fca7fa1aef782e5f42195a7691e73b90033df38495b91e5c38e820426446820;
0x17f136e334658510bf76430b18584795cc8bef7a11c33a61b5259339acca3353;
0x2c03456c81a5e2e32aaf6ff4f1d5720677c920bce4adb99d1d89a60618da2320;
0x1a5ed510e6e51803fd72011c2d6de4c638d51c6d9a57dee093680dc336f5d34e;
0x1a936bc6777c2da71bce31f6fbd646a3d62a815680203edc66acd1148132029;
0x1b4a61fadb468df53bf54dc94e9a1892f69e693a26623b6c768c9b6f08eb260d;
0x22072ccc189a669fc9c1dec178dee22e6810db51fb07d2e1c4aba223a89f25f9;
0x1970d123b4ed8e8bfb50c817284430e9349f042e456fe5d518f499c071f89430;
0x259064221267af8baa25e034c726164172e8ac0889f3d62d29ef05acf962f9b4;
0x2287530ba760334e46b1a49861dd542fcf4151293041712c8544a467a9071ff3;
0x840062bb032fa90a3eaad025fd47a6353793130aa0b8626565b48035782aa66;
0x1d555f3bbdd6465b30b7da0ecba9891624d6d041bb781264a89aa7b16d346c0a;
0x23d4f39d8b478d9f3fe9c56850eb091e6fb14326aa5cbc9b2b0d7d87c283d763;
0x2901b8a58d07adf7c3080c1a36cd9d70652aea9b07702d07ad0923d758cdb949;
0x2d5fd10271ad1b7fb5f053107e3e769cd3509ed4d501be13cfa1421b5394605d;
0x207c3b106d337e3362d760cc41cdb5be011fce738e5f485d2b46b93c64cf9b83;
0x1492c0ecb1dbcfa1c6635de3f6b7d9eed6613a602d44fee471a9757bc7b42898;
0x1644d335356808c816d04419514ff5ec328dfb9ddf78e623cbbb6b20b4ed3bea;
0x2fa67fff02c7d3ca002389d54c6efc4687da94708f6e27d1bc5825f164cbf4a;
0x21e1ca08175564b26d688202433c40a419bdaf250b832229f4a1f31e8ace5464;
0x2cef2de85c29234f8717a47931f3e7e5d26de54c4009f0cfbed5742defb3bde7;
0xf9101275c6d82c585bb03708869626a1b0edf857aa536ba105733f0043efda3;
0x13d2ac8ccf60c75462050c8f441e1ef92d1b9a842c36bfc82ddff6561efd49b;
0x23a7cbaee856630abc2b423732eeebc1ec3e071391d03f9c9b51351c67943e5b;
0x2d3d1ee5d3afda1af49ea526d8f250430e61921b93adf072ac5202b5fd8d0f38;
0x2c40a0792e0eec8a8ff8b91a36835ff0774e11e3f13120c7a6a0efbbd6ef1f0f;
0x4523bf1a8f284c6d95b310dec2b54e0e00e59b571dd9d46b6201c18e1b56dfe;
0xce2acb8e9575bad440cc92c82f19694f1ef1e5f0dc1dfc83c39ed80919709db;
0x255e8b6bfcd73f20e6c4bd3f61ed3b8bd17626c5e5a843858093a7ef55eb1d61;
0x71756e3a68459939af3577f77567bf688b996b47f0003c4509df83345846c16;
0xbffe3446589b3eea6ac107b311307d20faccc7bb45dd5d6849cfdf7ebcec41f;
0x18787bd666cffd2d76b9b7344eed8e34feb8f96edbc138486fbba2cd628ca4b0;
0x24dd90cfbf38861e307d9dcfd5507b2298bf6b2618fa97d7e36b07690fa7c13c;
0x1410db3d1ff17500d908b029552bfb5c44e3cad85b44d8b7070a60c359be7abe;
0x114c5d80f6a4fac9b3962788dc0c542378352eb593c0cf88355d8c8032efdea1;
0x1faae4eaa27310edfbc782b40c6ba0969779c813807d81630b192d053d4d5c71;
0x1c6a9217a08e3d6b4961cfc839d6e8218df84ad042219111f80d068524566422;
0x2779a31633b41cf11d988b3560faa03f2fef06ac2b58f88d89fc5f386f28b6fa;
0x1fef33a133dc716d8477f6c00854b9bbbb087ad39704e2aac12ec22518ca42c6;
0x51d3217b934abd02e647c9cf0f9642b2c35af886b2a45cc7b50fd3268175a65;
0x23e2976b87ebf7b64a5a3aca1926bfb61744e0f4f8360df40500f479e052e17;
0x266d4f55ce9e2183ac237c1cb82a138cfec9b415769742b2feb57d27eba7027d;
0x220ed82038edb07e0f74092c809db76ce01adf533a42b51200f67cd58bada0d5;
0x1739b7715b95db81ac96c21ec1fe7bf0bc6766b37d0572066766e34ee44500e7;
0x270da5e7651be197e4b200aea12cc8b88c633d4086a0320fbd7b25ba6bb603cf;
0x6f6db411a03949e6bb5c0a24f49967f1eb39c35eae012aa873ea0b3447d6f5a;
0x117a292cd83ceb0d341c01e65590f4b38741c3ba51c0d717d273ddaae5c59cbe;
0x263e482df03f958b16c2130b9cea9b74b47ee5d7f070ed5a6ab849074386f863;
0x2803f7d7e3cbdf5be9306a32a90b58cbfc5490d1d74609cbf6384476b29265cb;
0x142c7e2c2e91322de905b8420ed32d6ff157d64e792a38ee29cc9b316fcea3c8;
0x147d7bfb2d88839714acc1080d935f9c289434d5d0af4772699bf4732c13323d;
0x24bdce338ee348af82a60c960800094d5794d7a2607d5f3ccdd1fd4fe7b95583;
0x10a0a7c38506d41a52e6ed0c4e14dc1283848beb7de73e0e92d4a065121c25e2;
0x2f5162740cafbc5f21e10a4eaed36ac331b046f846c46a319b54d9e2206c892d;
0x2c74369be037f8a5d985bf78b1e89838e0f7c1aa845979b6c5142747a0bc6b0;
0x4523bf1a8f284c6d95b310dec2b54e0e00e59b571dd9d46b6201c18e1b56dfe;
0x28580a3d76cb8ac7d4ded32ed3b70d34ba761e0b09803f10d1196eee812c8e69;
0x19cf15cc84de7c87a59a44d02e83f88120bd3f7d1ab07ffac878a17320f4b2dc;
0x21ffb716f9f4688f477d2b03bfb4c4f57fc37c75b46f85ff3d8da6e028263594;
0x1c5e5652ee5c51f74663b5612d00e002ecaeac6dfb26d143e8f52a7b62c81346;
0x309be74d7ea79ab9868e691afcd53fdd6591a5c8cedf965a1895229eff54a7a;
0x8533bd365bcfcca44a62b4a3d7e1b0963ba990d5bc5577aca90f3edae8e319c;
0xe7b927fe75b3e3322651fbdea1e01e7b5b9a3022e640476d39738a016e11728;
0x2c044e77e1889c9f2efa9d217fefb1003978eaec9d8c99a494ca9c6bae1e980d;
0x16ca28c9c6815d47c13eeb8a6baee797a2f9fe8fafccd65bc714c8165737d172;
0x10e2a1c88ffa4f4f58ef6974b6f612c37755a1aac408008ab7b3b47160925666;
0x2af08e42bfe36b6a795d78d34a4d4bfbba27adc10a144920d5709fdef7977301;
0x1312b9ac40cedcdc7154c3a110803222b42b2b0d944ce7308a992074c0fdc257;
0x1dc24b75a241225e913226bb4e43d43c7d47be4def03fd1b569eacf726f4ed27;
0x13d3a4fe3528fbe42ec423e367bed051490e1b014ede6b776b07d8e15509d882;
0x32d8f0cf21c697ffbd788f3f63ee8fdc1dcfd3ab649b39cb5e11a6bd2a24d03;
0x28c7587692973d407a133b2fb5502ee9a51a4671568fcb05435cf0b5fbe69ff0;
0x28e40378256e3cbd8a7f8cafdbed2021aa49f01a7d7056858bd3eaac1dc0538b;
0x25d943e06d1e141cc39bf61f79e7af2d71ee93b361fc7237a2d9a8abc986056a;
0x17081444189ad527d5b845af2a97df8c7a4293f485b483f9e8ed7021102f6443;
0x1c79729fbddab541d2ecdafb93faac1db19b4de80d06b964cf4cdc81e1e6da71;
0x45619b6eb27ecb55a5fa865895e4bb27712f4e95a84af9bd717b58e500de857;
0xe2a9db5bdf2e81d036943df530d84e17424ec54f39c8039d37dd85ef65e3dc8;
0x2ce50979f6944eb44498a1265db4d51ade51e18ca81bc69c0324103cd4116d6a;
0x2a77de1a9d04ffe3b955ddb3ca44d5cde5ab83aca3057ad21d2275326fe032a3;
0x17cc644fba9e3aa9ff2cb6b1386494c67079d7904d5d02828a84f100798d4ecf;
0x231b0e5dffe1731eef0342d728926ae7c9d14cf32b1873115a3d47b231dff70a;
0x2975aca67d081b04e4e00d824d5007a02f47891c5b0e6d74fe4bdc36a2c3dc35;
0x12dfba0cbb1703dd03aa3c6e434c14e50ce09615152380a14b97bad4aec1a8d7;
0x4523bf1a8f284c6d95b310dec2b54e0e00e59b571dd9d46b6201c18e1b56dfe;
0x138e38994513bf4cda526bbb6d9a7ad3fa60bbb5b8922f3fa889be7f81acc688;
0x233a737f744a6f8bf1fd4d3099a005b4783893e8203403271ac14116bb96bed5;
0x1c8af617088b03edd11e2697f3f1d61aea527eb312465a7d1d97120547e5eeac;
0x29e028abd359a281cffcf8e6def73b243c8c0b7dfc781fe16d85c9636647b689;
0x11cebc3218317d6a3fc99fa24c0297c3c917d2c79953fe6b195043c1ef2a2911;
0xd9eff7d690ca6de96fd8d2f757fabff01e7cff5f9af21a331beb5bf3c2b1384;
0x2c10ae179ec436144d591b58693d48867a3080302df8f221f646d00519233ac7;
0x195340f99f3142d58a8374368ba7b0aabe7551bdf4c84114c543733fd41633a2;
0x175a317578f2686003214142b6ac875027c021572904376694f8469ea2da5c31;
0x16ffe892781788c756069f60af49a1edaccddd1252b0add84fa3850c4f80002d;
0x82ea1876cb380488c70f7cdc9cbf6c494a3dc6db449b27b2ad55500a9132673;
0x1cac7d7d70279321973432ff45248a4497541d07c9a2b26eac2938d661eeee13;
0x8755249140b336749da4930b6a82f6f7190eb05c7daf28948aed60049d00f71;
0x207de9d69726515af8d068d0d26537798246579d29ba32be2dc2175e53cdd044;
0x1405eac8634a44a35197a6503a005446b48e7f415210523162c39a8a8df15829;
0x22f87c997cd1bd13a3cbb02d3d534c897528939d9e6714fe0c611c673d67d86f;
0x143d40dbf8cd786ae5b20fdc9242fceb6224b64c187b36a7ca66489c86489299;
0x2fde0b770674587f1be3feb619b4276125f643518ef715e694213e3134b7773d;
0x160ea6110b10e9e3f0d14cacc486c0ba8f9bec3498024257ca96c50b2d2dec4c;
0x15b8418dc1c46f3f546d70d983bc32122e40682185698f7f567f13590a1ace6a;
0x20d9d10cbe767a538eca9be227274944094b9e9fc01b61b657afbdf6bcdff00d;
0x104952b13891c92a6d7f1c5cba983aee4a3dfb31a1772d99192ab343d4e8519a;
0x107209e0e414a0e40dffbdc7b52e2ae3de04e4385a8c810e92ed2bc2f67411e;
0x1bbff156637ba8444d8679abf776687b8dc2462d876f17229f0d0b62b6eaf9c5;
0x61f0e30d8aeca231af662496c1a4a5f4c6b283a79ac0e01bb677cb14fda83e4;
0x3062b61d13e9c6d61471833d8e6b52f8669578314817ac28d650af7512e2386a;
0x156a1c93bb1bb19c46f2d621ed100918d9f3194221788493be08644da83e4aa0;
0x1366584ccaadb9ef95ec40f53e9cc7905204400b52fc6b9c0d21672fabf65753;
0x4523bf1a8f284c6d95b310dec2b54e0e00e59b571dd9d46b6201c18e1b56dfe;
0x727060f004a12682948595634ffb74c7351aeb401f8c16c31a333c8638cbcee;
0xb43e5d620c5f01be5a5a3193bd458a6ee196533aa8fea3efbed64a83ef2ff93;
0x711911f15ad7134cb9ff97051a0f73f346b4be3f9754508ffad823c11e60415;
0x62c118ab0b9ee4f81d12e70d751dbff7d7047c895aec5d87b0e1dbfb311f9bd;
0x1edc90b1e2679d7b61040b272d2ecf8d471417e3df89be715d5a85a6759ec37d;
0x2bd026a17123ff82ef6a745e786ce3b69171c73f00a518889c320675a4a31824;
0x18b9a646b8279f3242e40800752742093df705aefdc130e903026d7e6f37711c;
0x2b6d003cb10653085f4ca141b8674a257140e4ad022a6e85a5681cd3f415f3cf;
0x29ca967040bb4ef6fdec0008a3a1821b9a2682629abc6c2f37911be83c4d7b51;
0x29c5fe585036f56f24bf281bbe3891d42d867ad8df031759f34586abd4341cc2;
0x18250473c36c6b2fc023d9f980e9117d2b7d815386613cf518a5d5e1cd98fe8;
0x21ecaed2c0849f445ce370dbbff7a0f4e3ab45444ca614ad818856b057d0b559;
0x50f18bada3b7265d2194dcf45262069827248a1f68fccd800ff0c8f498fcf7d;
0x1056d0bf8e1c158a403fcba81d1b25ed10ce7bbf7436a0f82af53417d7758da7;
0x10ec2167737c5bf2fe50fe1c44e562a4fa629576c43c31c2a067d3f7e199aec7;
0x78d695069c5a1d37c71299f3f5667516b76a4507a4320117ed26b3b6c05efec;
0x302b34000b8a4c5f411458a6c12a335a1e0f345bd012c03e9afc62c8fc07dc72;
0x25110107d94ba32e47336fb64a434e02f723e7a429eb23b8413ba03500c56e7f;
0x239c9ad23c9efd9a7be7489e4a1240870a605c5b8e84021f3bace86281f5fe6d;
0xa71eb71ed1cfc23167804f59bf51324c69d188602e732e5cc5a6e3f73455033;
0x22f12028dd01cbb90141cfdf5497ad73403416e437f063e1ba391cc18bc0bc5d;
0x1d2ad4ea7240a2f71841635c52eb7a7484cb97abd94c70bdb187724db31c953d;
0xafc6833626de473ca08a5538a64a06cf9b604242f029c4ec576ba6a1376cf97;
0x19e01b3ffd3d1c30017cbb3ed8dfd60838f70e001773558fc4a1c9818bd4c197;
0x26db05b80a904a64db20297cc63e2d0a190ec9fcf9d528b9db88f7e079ca4d49;
0x2d8286dfebb09365859e524291676812918ebcd2b5e25131884e71037a5def72;
0xf3c76d71a422101870aca73667ead0b355e8f9a8009aa29941293e5cc105d;
0x2c7142225dd5a38f329349d4bed6e06f58baa1c3dc32a6abd057bab3a45eedca;
0x4523bf1a8f284c6d95b310dec2b54e0e00e59b571dd9d46b6201c18e1b56dfe;
0xd4830722141cace7a3d588567117cd756deae9d215cdec0d2c55c7dd293cf31;
0x826bf62570b5a5f61782845b349810b7a481153e7ec33bb3667e4a2c7ce4912;
0xb74da59928d6c22800edc212200770147b8fcbd5d40217cba2c1ae784ac3c66;
0xf5da0d1390cf5d4fead2ae4e463fed71d0b1d5095428572009022a7550864f1;
0x2704d9998e1e17d5a61ea377b1b78ed6d7ec951afeaff523a406624a99447c04;
0x300f822aa4b956ea43ab45b043adc967d41d2f7d67445ecce1bfd3259e62df82;
0x43f2876cf4a9b33af023d447bb90b634b37fd6a432b920e2dad4fe1b9f734e3;
0x20d982fe655c37b7c046a07110e57fa8649939e376a4fd1bb6bff3f13f88dbf0;
0x21d6cba8317dac264ca383630b4da90214d803c503ea5520c5b44dffe2c138dc;
0x873018963b4084347ad81b085693cfca0345ab963f656890c90882cfc5dcaf2;
0x1e6176f2c8c0e6acb5b02f4e54d245f806b9fa7bc126b3435b79e5819fa8c9cd;
0x21d440ca5e509e1ae0476ae546df34414d7abf9152806b4c799177b87b153f90;
0x85ac321a5407d7ee948b0cad303f92751532cb1b55ff17e7267c0c9821bcf80;
0x225fc6208bc12aaa5deba3688931a2bc8617e6b4ae76c1de0e85defe38e2f14a;
0xaa6847f08b61d6fc7ea711789b76255d14b6ad7de89124c962fe57f534be98c;
0xbb3bf6dc922baf1d7a9f555396d78f31cfc3cbbc534c016ba6879d02cf400a6;
0x24118b406a39de6a222bbb99be1828f9d70c24cce6ae452b20644f3a6730b95;
0x23f88043dcf501f06a9ba388b05f1c14ba29078b978e7f9a3aba55cb0bf1a7b7;
0x1e9ff4d090215f88d9af53bbf57282d31a835a8a052dbb19b5c0b366b451cda1;
0x26ff7979c38be718b092842e02cf124d1cec12b426a5ed8351b832385ddee404;
0x62eed7ae94588f149905a7d148f763c8422e7e0b6bf5cf5ceaf80f7a0754fc3;
0x2ddcb93912364f750150441743c32dfca87fba3bcfd285a5cdd854cc312a6d7f;
0x1a61c812aa97e5dc63b827db3b987d759738826488abecce0592af6e7281336d;
0xaf260c0175dc1188ad11222368b122a1f0cb5f71d5df47517f2190748f803ce;
0x6c547f8d368f03ec5aa00693a85d2b4cc56aad88006aca1e46b1eabb84a5d54;
0x15a040ea72ef3252816f453da8dc97a9b417011e9a65b0a8606248591e597199;
0x2e0ae86bd039654fcbf8795450a36958139b3e0941b98778395b8ecbf3b40e84;
0x71936ae5ec7e0ec777485d9400a8c414ce233e07352a9ce683ae41943341c9a;
0x4523bf1a8f284c6d95b310dec2b54e0e00e59b571dd9d46b6201c18e1b56dfe;
0x1fc8ace75c85e6d3a7404fe02b03139b6a67dcfe2d14f7af11cc30a2a8ece33;
0x263815b2a80b71e1222801ac39bd44faf23d0e21d2f31fd213d300689a720d8d;
0x1a91fe38ad898189e9dd7ef77559185a79d80481808f4044daafed03742d3ff7;
0xb99a6192c5bbf619624d1c7cc7d90930f1ffb79a6d4cd145bdb58a85f35e324;
0x29df5b722979b8c9c63743c5d997b720d1f938edefd5a7359651bdce60c352fa;
0xeeffa5c228914c03da9a2eb5fc92f23254bcde82c459c81266223e6fcd3d89c;
0x2b3647ce374ceafb0ee9c4f5ed4762db7240d45a5b01f3873f2a4c8b86a68be5;
0x21e2872db7718e97286c2239b5b721a58d89ca37d43dde81d5cf049477dd1c74;
0x173909ac99ccc3ecd1ab2fb89246a648ae3abbe251ce9c0160bca5712c0626ad;
0x2e2fd250ad31b0f543e958e16c10b3cc9e62e52c1a40ec5ebab4061d3880dd32;
0x2dc7cd826f2f2b963a180b5a0fb1b5d20d4a7cbc860679267142a707c6ba48d7;
0xcdf628de6b0bc2b35d3f9a0b2cac4cad27e7e1966c39af983d63e1461592bf0;
0x2bf2f603e91d6eeeb104ac9141798accd525fa3e241b1182753d4ff3f59b1630;
0x49c9676b595755be2f328863936312442c1c07504c5bfecd793e1eba7c3f675;
0xd1fd4d6ff542b060b3b90ecbb825f0f890820144be4bd0334a2eaf8339c9af0;
0x2206a93fd04efa7e79130c0aac582fa50c5ca7dad614331281c3d49ee4c1c67f;
0x1b8b1f32ab840765cb6250f4c9c019d994fa5858c67bd585a5f4a7663143ecb0;
0x55cbd5d71b787fb96fab44c8c6a1eaf3aea505c675c32f608ae0b6ae2e71319;
0x24a63962fa639928e90311ce846f99b35213568b65cc1db5fa65555a0141ea9d;
0x2d41835ec9c8dc848bf62b784a9d029cf7632369d3b6e9f6877c671495831bc6;
0x1c3ebf1cde47404db2c523c680ea3df60668ad37b67fe50298c632b77bd3f625;
0x4d92032856d1eb29140d9825a6cffcccf00f5fea91b85aaeb68d47391a67f46;
0x13fd59cdc2da8766343e9dc78d0604c7a453c4a4639f1e1f66b154605dd00cd4;
0x2d56a2d39a3db620d7b172bd74553d09cfada80fe7b1f2bef3fc4cc115f76123;
0xe8cfc663445dc81cd06b084d36c85d946c6eb49871add263ce14f2b477ad27f;
0x2233e0d00be5b7a77da192a5fdd91db5f196705ea0754e4bd1db5a357b335092;
0x153dcc887f5dca8999d51ae06fdda165dc03e01c67bd8790316bc465ec4b961b;
0x1e3ea34066a170114f0c76573452033360809012bb9ae4c24b6c1fb476d5d5d5;
0x4523bf1a8f284c6d95b310dec2b54e0e00e59b571dd9d46b6201c18e1b56dfe;
0x6662bced08b16d3d3a50c9dbca0743d66c2b0d5060c68983d8448ba7e09735d;
0x207357fa70e47358e4df94e0fe2860bb2ade565460c2f2ac9968718b512fd761;
0xd88b7243e4ba947985ab06738bfdbcd72be75c0539fc2c65e016612cf48a0a8;
0x29032f478c7b5fb111f8d32720abc1fa050676c58f783bb6740b5876211527d9;
0x1f58b00a5be5baf9e1da120d8dbc12a767e304eb63c0c05528efad2b95f6d010;
0x5645d027e203626b8a8c15707cad7f9954b915bdf620a343812470c63d6fd5;
0xab572420dfe8794515a8ff4fe71b0838d46a42e63b488bdbef2c6721668758d;
0x1876c13f9de5d341e254b3d2c4bc8c272e270b58c863ffb16324a178986dd709;
0x21ff416c00f6e478e470f77aead4decff3ab847e058e66bb56b1c75379d67d55;
0x104056d5d775740ba150f6807d251607c5072fcb6d204b3a92646b76f97db4eb;
0x2859bc2f280545367b3844134b23d2fb6ca07c51c42eec18800cfc795464ffd0;
0x232f777c06ca70171d09129c01814b57a685224a3a752deefde04487f731dc54;
0x2cab0c414d906b4cdd83f08fcd68d3b3554fda8f17967c89d0b281f9e6e8085b;
0x291dc030472a4633fe37225419e9e26ab406b12c6c78b40bb17a9ed3af85841c;
0x11b3be92352e34d0894a108302d097e94aede2b931b40b162b6792f127d0dd51;
0x1821450cf9950eb2f0ca14ee17385735c0c0f6b58ecfb4c341732c580e15289a;
0x2c7185a2965a3dfe86d2f88a14e66ff3cde5f1a4072fdc5e903a5367012d6bc8;
0x19f8b88431be608148ecc8a862b043c66277c6d244d4bc9b063488d470f91c57;
0x2e07597ce199e34f1a907e135ef8c7f1d43ae46459065f5ef56dbfada7b14086;
0x20dd50883de922f31411aa269a38a809f86ae985da0dd572a02b0a115e57317d;
0x1deb58e4db0e059b5e4233a27f3ebfd5c56fb7c8a2e0952870ff89bd985b7fb8;
0x772b8311e52b960baba8f9ccb8d74d520f5653608ba810243854ca306e9c5ac;
0x26508ad8ff73d70862d1ec04e406f165c53c04a0c3e466a11a2456656a2008a8;
0x2e03dc18ddda2eea605f357d82c0a7a9e05f74d078d0d940a0e7506dd7dbb2b7;
0x2651122e5715b7d5d0d396b8b0a6b3b219e1b5c95a0532623d9976330dc0c7a2;
0x1d2fa1a7f55da05e2e77eb2c7ce09b4f4c0f832722262e7e57108223bf2e4a75;
0x20991d3f8eb785ca08fbf1695aa09c0664465858de5f63e628cfd6dff4dfa7d5;
0x2ae4c4986606935874c81b044f450a6ad91c1c6aba4670091cf83dd34d8bdd45;
0x4523bf1a8f284c6d95b310dec2b54e0e00e59b571dd9d46b6201c18e1b56dfe;
0x22d5dcb58b751b33e61941e034ec6a5da20162b44a67f2f2c2a32fb2bb19efc0;
0x18a2197cf988fa8737f9ea1f8f7cf8e1b3da3a130177b80c47efb5fe8ab3ba89;
0x56472b01f8796af3bb76fc84acbda7f174f54c3129f03f6b36d80375bef622d;
0x28a91c2f74f72ecbe75a6fec418b9ff6bf08c731ca114d6609478e2a498f947c;
0xecd04c63ed1ee68ae94d51633155868402dac39e3c8383e8f0d45ffdd1daef;
0x2865c65b845d8061dcebbc8f2e91762a9af0a69c4d7692d60e3dfe98400a40d9;
0x2f50ae99cf9753fc9a1344a654574dd7d4bec32df7d1d4b1cb4d03dd1f7319b;
0x26b34e635792eeb315bf2e03ecfb8b00f7b6bfc137e759436fd0e5285fa5e8fc;
0x26cb59e555d2111646327f7ec9cafb3fb4344b894d7746069794c491f71b5f82;
0x165c43eda77147c1408da412d24ac1314a327a371d2f6c0e3dc2c7e956e96046;
0x172edd07fa59daaeb04cc4a4c783027401ed8b47fc6fbdfce05543136805e1b2;
0x2bc36f035f7bceca4001545d9fd98b0f2eae858e5c4b0f0e219121591762b378;
0x22d96b2e558884ca077f0fa9c41a38155875af1e91f5e69dded36499c5786cd7;
0xf1146e591fc72056c2fa40a35b202e6ae29a5e6d91180713ccf8ebdaeedb917;
0x29510d1143600cbda4f235f0c6c480f436e20daadaf9461a032204de009d6fb4;
0x1dbad14882314499c14316375e9b8888be4351bdf3b96e2651125fd03ca89a29;
0x19d651b0c567b6507eb6a7202081fb6311e8398a80d53195a5b327b7e5810427;
0x196d972248e180296caa0f943f4a034746a000205310b155fd0071bf6a20341d;
0x2e823807f3a2c2db81181bf7761447252307c8c7e088f9a470c257ad83a1fad4;
0xae07a00e65e68f06fb34219cf2f0b819ea6bf147168ab5f982c9513a661e10c;
0x1f3ffa4e4b5ac02fa89072fbfa10d169ff5cf382ed54a86b69fe5ec3b025c3d4;
0x94323f9b77a979d42a49cb1fd0f4a5ea253e908b0e96f47a308e44085f0bb51;
0x7568c62660c919b4295dae1e761a5e9bd1ddbd05f77de4977e99ea46ebddc59;
0x1d28e05e1aee78e0a9c10c97e01193eb1771c3dc84ac0af0b7e9b7a5df35937f;
0x1479d6a6a967e7a7672a01c2c541bb92b677308c3e365b73349327f39f4593e8;
0x6872919996f740aa2559418c0da042d15ccbba1cda06c95daef9f0ddde4a6b;
0x587b0974583ba3b84934a500bd726018b08125f5f007d01856fb2c124e00e4c;
0x2ee0bbcaf6798f8cc107dc4ec3157dfcaec549f36a87c934a83f1c080035adef;
0x4523bf1a8f284c6d95b310dec2b54e0e00e59b571dd9d46b6201c18e1b56dfe;
0x76373d256d68ccdb201590f87f661a13d618407140b6ec21bfcffb267e0dad0;
0x13a5be09677fa0af3fb23e95428b7cf9e7b8276baebb1a39b87a1bdc416b270f;
0x227a7259c3b2135612d12638b5ca5973ab9d6aa6d6a335781d81821fa8be02c9;
0x25d96493ac371c2ba8dcdc9bf29b1b512f43aaf38fcc86f17e9d44d59d870cdf;
0x1ec1120411deede740e7e3481b96ce1492b47232b208f15afb2127b41189afed;
0x12067c9f5be28c0974e55e19274c65f752c82287637ffc5104b35799362b0f0;
0x462ea3958f9c42d0b2406bec8e38576c88d964597ae61f1f07d811873c464db;
0x20450babc7a6e637d32d8b57f218412a430fe087706d88eac441d6871f5d639f;
0xb29f887572517d826f977c371341f2819995e65a2929c078cf4a937dc68558b;
0x27d93349e2cac8325e4006aceccfb9ab165aca3895697e42e23b78bb1f172a54;
0x1969ee0572799902a937545397b4fecbb83446841ce8525b714d765fb25d9028;
0x1edebdf580772f616131435b17c46e0e385b3ab83494207efb4d9a32f4667bdb;
0x430dc17c3f1957758e57ca93c94c5623073e5580c28cabafa400c2e5eba5fda;
0x1dfdc9b2152615a4dcc8b252f17d97b8998543e84b9b8cedf8d683d917186b64;
0x48a9afbd6c11ff4a680204e895b655e004211e495f2bc46dffec598bf40ce49;
0x2511be820087db2191a273650de721dbf7abd3ce15bc9e95e2a7153443ca7fe9;
0x1b255c37973fada56a1251fe07d617ce802b4ec2f60a002e1fdd9052090d3884;
0x5c36fe03574074a04ceecbbcf02d231d9d868aae698b20582aa556e6ee34bc2;
0x14071daf49fe401a508085071812c378491178f66712eee8f1cd7f611f8632b0;
0x1e8a45f66dae3bf77aced336508d0b566ef1aa9d582d9a44b9028d2e1a5c28a2;
0x3470d55418841efb8777bb16984dc9d71ca55b601c6a9acbcc06dd8a3a4e4b1;
0x194cd0a75e5edf346e694e78b831d42070d93b69555b692da6fb979a78afce0b;
0x22d1fd9d50ef28dfab1c35553601cebb2dffe723e366e956a2d9f2001517b92b;
0x64a916906b28a8a1a2df80019b67d7e40dc686d00333fcacd63ccf129d1e281;
0xcadf1f120a7ba6a73fb4f5980c5aba2e0e44280b5c9478f5d800e61fc39c824;
0x11783cca91ae0cd06b91cacd517e51d4f2e7fb59202993dafde30ee181115b17;
0x1563d52bb66c227361975dcdfcfd8f6bb9749f86297a5bd3a6be74b8d5bd2bc1;
0x2e3cf2cbb16d4b6a76f171d80a9b92c4b8324721e6c3a29b77e2c9727863314;
0x4523bf1a8f284c6d95b310dec2b54e0e00e59b571dd9d46b6201c18e1b56dfe;
0x106cd44586872a1e98d029a76a334797c6950fb72f241e344040ec5d1e766ebf;
0x267c81eebd4f9bec2d7fb13ae6ab345774192825ec38779a8883265df4b743b2;
0x5cde6fbc024c52d0dd9c940b9450547804aa6aae2bf06ab7bb2c3946fb09aa7;
0x1db696f29132c9a065e392e606d3bb4110213b88b7125ca0157a776212418837;
0x269b78b6fb577d3a5463b0b88bfa91ad56c1f7768b55a6908120ebadf7faabfb;
0x1e32a4b9639edbd369aeb322109c919476aa85e28c2b7a8a111f9cd906bdfb31;
0x2387b1982e0083a0621b4305c2faf4aaa0abd33dc265069e9b1d59673f5b1816;
0x16f2a181e0d79d0a39169a1c9389d0b67e50fc5ecd2598d2d875ccbafc659ade;
0x1c418ee3dafe2d97e5b84ecd7625b8598c7323e4beaa809d77cd7a3ab52f5c57;
0x235d1dab5f72d1b0c0cad82e5f46ae1972117eba7612ae0581ab85d4dd9b77de;
0x11eeabcb505206e74ddf6a4417f4d6c302d843dad5e5c1e536004e100f729c4;
0x14b4f6ffdc590f859a491af89cdcff26ec963551676e4e109f333c34a0b3eca3;
0xea3a8bd722b025559ae438ef85f1fa8364cebc831084a3129b7498fc7067aca;
0x26a63daf3c27700bc4e5a0c13c12a234e8a13dab66deb6ff2a8b805b107a4518;
0xdd28ac1c88f9959311bc53387840e131726a6ab9b7fdba12f403a3095034ae7;
0x1221db6f8687604bd35fd586e0944a36880fdd1d1da2b771fc06bc80480d89ba;
0x5dfb8aad4d6b89619e41ed02e593f0de05dde06b6aeeb1ee8b89bafb087234c;
0x10ba8b3d427fe867422065e1b2a8e0d06d567e73717deaec3438fe36b1bddd55;
0x13cc217fbf1b60972234be03ee877b96d287e30fb869bf816662d2887d2dc68d;
0x1031f3acc4288235e55b67f3435fb1915cba9ce0d0d1f12e0e602e2d605497c5;
0x18ebdc6dd67f2d5853541af16af792756aee1dd1132d3a6b1d0734db793a46db;
0x10a4bdea8bf3a0440f456c507069645ab3738171f896cfe3b5890c9a0abebc0c;
0x21e5b46f2b85977f8e4c67f37c30ddf03556eb1b56d8339f046a7d1aa8d9bbc2;
0xa8735e02e11c8a1e0a56b24ebe7a39223e2beccae352597972fadd8f4fd3abb;
0x27d5d5655c3a948d91278714a40fab8da89ca600e748a238014c98b932609fb2;
0x18b4b6e0794cf364c6d4b5fb44a2899d4ab038d6b15ed634c6c12accead7e73d;
0x1b89b8c9a5250e9edb3b9fff6e54be5b8c173bfbecb8eef3847d8718de0fe29;
0x27a5ddf99d9c4cdc9643219a9cd3e4f47f63a581af9a499f8e064f4d2c726a01;
0x4523bf1a8f284c6d95b310dec2b54e0e00e59b571dd9d46b6201c18e1b56dfe;
0x237b081a68e30cacc4213ba3d2b153672483ed173125bad4014448763d2dfcea;
0x29af4e6cae10dd99b672d741c5034f91762b99be844b0a938e967009578e6ccb;
0x91bd6b2497eaa902ae05480699f34734c7f74b073af6c4c559bfa3a33d4e6e8;
0x2f7f9c0d61cb36e331f2780b0edda03598067caaf184dfe95613950f8700360d;
0x244d6e7fa5583e36d41ab75c679191497f27583a7ea7f5cb4e87feacf2b4dece;
0x1f174e5f54c883afb9ae5b7e955380190767072e59db3a1e1b90d7035521359f;
0x97f23268924c4ccf4659499274ee72a1a9c83e43178454d49d675f4e5b27150;
0x3d2ab62fef78fb69b7049c41e34e6f1870662b336afbd1518ba776218600fec;
0x2718711c73da1e256d1b5c21c6b2e5e43e2b0039e86f78fe5790e04b3c7938a6;
0xd396383655c27ca25603d88e3d35c3dc6334506a93d6909745e52aa7854bd4e;
0x1c66fd746293e23154ab298c3e4ca0ca14980c6a0a3cbac979d4ed8fdb9f692e;
0x15708a52c8abdc860d066e0ab2a6b5b5cabdf1301f676b07feaf5342a971caeb;
0x2b821cfd139e0da4c55cfbd8b67a7d7a4e7bf5e3ce1932b96f6701fd39e926d4;
0xaafbee598eca5624a31b7f40b836023f364d41b6b24d0d7832eb180a60885e2;
0x15c92eb4730eb68b229bb67da73fff3ca720814450162a81d1a7a56c83c3fc7;
0x2f7200c5afe273cc787b0add86e9e0380db97cba269f59d0fd264b9ef144e839;
0x2eac5180790ad9bb069b4f7e1842ae9fb0b069216c9b412da6094e2a69572126;
0x1b7a0422eaf807c0c824c511a7b52be353c2a3789591deba9bca9a99e4d92869;
0x1662fa1c78a1621b5bbded5e9e5880a86aee481fbc455b3849d16a37cdeda515;
0x28972f5963c0ae4ab2b03cb80b4ae1f1dbd905fdc3c657550648bfefc4c719cf;
0x2424d119a1299933b209b85d4af1aa89f8523801efeeebbfcf49c1b6f95ac740;
0x262a05cbc85dc177e174047c94905083a27b4d887f8050c1b98a07608ac8e373;
0x89d1b0af58744cdb06e1c0636306751f6b6ede06527eba770eabb7195465a93;
0x26d8b08764b7240789d927ad67270da8521ffd23995b67f3b25de7fc60f033c0;
0x19c594f452b69d9aba24aea1f48887b5b2bd351e7bc6984e56c346264e5c5f28;
0x9a984983ac12405239b7d71d7e94ab74a5d7e23b3e651f61988e258147f5a61;
0x2edfe7a5c13ee6fcf27ca3a98d230c3158dc1eab9a12a734e78e69d7bcc5ddc7;
0x190ac6e66fc0244544a3780ae6c5a0d6e56894965b345a1b731cd96c89defed1;
0x4523bf1a8f284c6d95b310dec2b54e0e00e59b571dd9d46b6201c18e1b56dfe;
0x24888d5352a17beac4d1196b9ba56563192a21650b6e8cf734abbb5dc6fe0b86;
0x27f1a77d912fc4ffeb051b44845cdca1360b3dff10f646cf4e2e31b0b52706ea;
0x281d4a45a8beb80c2974562cc98785b37551ca4258c7b7292006e387b20d5f49;
0x1d06a2f6b95d207416e97b18e0a33aa504251bd5473313ec4ba4aebdbcac8dec;
0x11dc2b5aac6c6b58904b8370d622f408d4b8a22a54a59f060a9336509285500f;
0xf03457b87c6491c043633bb8f90a9dba8eef6067f86926dc4df4a6145b9cc81;
0x17982901cf92be1b7f477e61747a5450b97ddfe41bb5d7760bd1c25df17eb204;
0x848af60d2939b3983df6d9fe56343916aa046933c4517a6c0c29025a3da1781;
0x1dab170558f1782df01501d1a810d1f491caf3a03a5563c8638eb6649d852272;
0x17c31798bf48cc0a63986b914236ba21a04dd2a2bda0afcf15213df56c46370a;
0x2ebd4bfb0ae3e1f540f31fd15a70e59de4ab8ffacd899d56060ba394e224ccf7;
0x16c3ea32466b179ebe57bcbbe97e3a7f94b0a4b3e091f15e3aaa9222e8b182f2;
0x157740e3058872c28ca7331055f3daf8b9aeb36e9c2d7d231f22171c6315733e;
0x6a974a75d941a54412814d68e6955b7f4da2b281f2a9ac426afe81b98ec27eb;
0xfa950037d21d72090c5bdcb8bb6be911ff4a359f3e76ec625c64f1202bab37;
0x19065585b553aa2649a420625c707e61f7e0e70c753dadf474bda8fba0354fd;
0x183bb2b9d85c3a9368017cd1e1cd884967c0b048dc243f35b6813af5b279872a;
0x271a9d19b99115dff27a86779104a54b252373c18105cf5f86ab5ffcb2a9942e;
0x284fd24cc3cb45ca644f15228d786fb82cbbf3d66f1a276ccc3a1182af4fc1bc;
0xe62b392dc27b2b80a868a9501c9e1c72410bffa12b77732ce1df084ed0a7a30;
0x265311e1422fc3e5cecb4158eba0b249404842b16e8954bab3d80d6805fc4f65;
0x1186e446615d83a940d96d2286d9b411b62697864531172f5e8d3d9ab6a5f9c9;
0xa22515b9c7fdeadf64fb896271bd8d96f1f53bdb32ddd9be7cb22400d69ab77;
0x1343f2ea91b46be725baaf77a092d6b790c1429ba87a3d4105e005b85c901551;
0x2a58da207ab04101d89a09c69f8d8309d8e8a938deddff70e2eea30f4c884bf7;
0x1bddc742015df54718d5a89b181f3a0110732b0ab1e014f63202f6d9eca2eabf;
0x301144f5830574650e6093a4b75b9a34b59066777ed21d2c008f2636177e9b61;
0x1ef4af22668248890aa7ad05b07462d777b0f09a98d8c17d59ed2a127fd2c55a;
0x4523bf1a8f284c6d95b310dec2b54e0e00e59b571dd9d46b6201c18e1b56dfe;
0x25b20abb9883f59516afd1b89f80c4b18be2270c4ad70f7f9f9b9188c9809ed9;
0x27c5f600e46a854a26efc7ede1108cef8b607dcfa047c259ec32934669c1d155;
0x1fcb1b54e79f2f06aaee7955186d71564101088f13837f11bf2ceaf9393619e1;
0x1d24da31bcb08eb64df9e69b729ab135cf1b63cb23c4c8acc073a9d50f33bb79;
0x21c0a2bf8c0ea05f8f319e57408ec4ca46f0003325efdeb8c84b23026d9a8952;
0x1931ad5d7ab126465234d8fa1905de0f77eb5858758e6c838d748f23508ac1df;
0x17af6e15929f2bca918d404d56b4cee0ccd8969195f2f3edfe56dbd1937baedd;
0x36b2cc2645cfadcea80c47cab8cdf6eba7fb8fb2bbad631a5cf24fce6966854;
0xf10bbaf98e0b1ce2cca1977ba2e271b89cf46933d4c7a797671c8fb0754e10d;
0x1ae0f9bb7b72a3239de677048151e6dc40637e6559d726158debfe779a72a708;
0x1912fe07ee7840b055e68317eded61b0283418138b9fa2fee286fb999da2e6e8;
0x24a8a1af47ef25f18b39b5caa36c1a6df571d3c833fc1c54fbedad560aa5571d;
0x2d3f665ea69116d266057ea4e9ef5225800a1cb2ec6b7d6ba9f3edbbfe1faced;
0x2c5b2cabc24bdcc0e95d2e54c52c0fd0ceeea439d8fa83c0036feee0e9730e3f;
0x1a79348c882afaa9480c28acb01547d816148bfb8e70f22a0ad3a3f534bc0452;
0x3942e232a30d4a941a32ab45958ac49b08b0a8a416ff6dec7edf4f0dd16b8ff;
0x24de94fdc7fa872eef8ac471ba7719d5f3f534cd988248c154ee122ec2090ec1;
0x13af3a6a5530327a659e6bdb0e3f2643db75dc7e9eb06a5c139d84a2888aefa7;
0xfff230d63a7ea1823e5c5eb49fadbb46522853f0d6eee45948d326f54571ead;
0x1f67b3c311ad5eee7495b1e9ac1236f8acdd8dbbf5b20aded3c3947baa0d7fc4;
0x5be06d2aaece5cdeb721c87ce053e8523c8992c91a1884edcdd72b96e8e448b;
0xf3b86d20e5d8b37d9c47c0a1e0e5654edd5bf9fc4202959848cc3951f58971d;
0x28047bfb585f17ad6e7cde5bc033d8072f3b3e90d63b884df2ea6f3a24d10603;
0x1186aea12da52c270bcaf4bd0f87943cf5cd9ddb63bbbb2d7f34dd184baeeed;
0x1e4d65e0bac14ec3fc7970af0d64f4ca9b932012dbee59b3a93ee42b8e52e06c;
0x265d09835a19ac5c29f4327b9df3f35988ca8893c1ca8813a1f92b555550aa0d;
0x255b843c053e9dd9b00d06db176106b632b4ef0e6e345ed96775e4ae313dae6d;
0x1cdbf2d9c9e1f4099652361d830c6d691ec5eb951ae3164acd715f49aae612a2;
0x4523bf1a8f284c6d95b310dec2b54e0e00e59b571dd9d46b6201c18e1b56dfe;
0x26cd056174dc2477de6fde6a95b7805ed343877ab35f7bd16afceaa9771fad20;
0x286c63dc377caf0ca4697164bddfd29a79aec07b52ebe4fff1a4601bf3178ef6;
0x4404a2d97266886b3a00244a049d2232727c70f864afa44d11a2d37ba4179b1;
0x2d7b33ced5c2aff1ad6b4ccd8482024effb1dfdbfa20ceb1f2d59aed40da523c;
0x1a5a78c756a7ee0cce31b132cf6752a1fa0e904e2d6dd9ab3818fbe9426d24ef;
0x26634b7dd87a8c0e9878b1383582b9a3bf658dd13c467e52804ebdb1698044d1;
0x2222ed015dbbe37bc2578814782740abfa00c4118dcadc8e6a656587aa25bec5;
0x243a463d1befd0cce1a46b772f3d11351d47cdd86ff8e0a6e6b8d0f8c7486da8;
0xf4a9dd0ccf52f31360db5fedcde0405406d4ce2042b1856c7c14bac187ad37d;
0x25c6e507371aba88824acd8974ec363c21ddd450a13b130f38eacd5dbc5e8c74;
0x864d7ea740ee93ec7d2ffeb7adf4a03174c89904d9c33a683d8897eaba353a2;
0x146cae6d1bdb0318058f424e893e0892b0a1070de370a5f460444ad2e535a920;
0x1ebcd64df7ad6f0e1619e26eecdfe6e2ff1e69210578cdc6c052e1451e9c17c4;
0x1a7f76a8b9a868b7abf0bbf29992d82728ad277aa0c48d2db00ab45c7a77bfc2;
0x32b7050fdbd512fdcbc9e9f530c139f120df1b53f26240c01dfa397e227d62a;
0x118e701ff219612ffe9524bfa2e515bbe11f2fd581a4371f18d7f45f64c7aba2;
0xae4dd0aa671c0a3dd08f394fc0eda68ab2beeeb58c6c94e60229145f0869468;
0x187cd95af561e161bc1a2954e04a82488721c80e7b970b51a11e318b43e3c340;
0x13c74e83abff731872630e45384b122ed9fd07176f336d1c3e3b87837adc1c39;
0x30392808edc88e0c24a9f0f4a384e3bfdbb65382fba12b4e7ae01b712b5073e1;
0x1bb68781b9f841dcca210b93a99320760e7f3ac43b4ed9d621fb50ebc3440467;
0x514eeca7cd002d04a4716478bf62c108b3f314a288be687fcba7c6d5103ed5f;
0x1a4c1caa217b647d099e3c3de03d9677dc2398277856140804f95848275cb05a;
0x1959d1f1414c9a59879e9489315264b7691dacd96ad16f890ebb2ec8c55f40a7;
0x2c0e761217503c6c0b20014558eb78e6314e607130844c97ee67dbe1940b3d4d;
0x248c9aa70622ffe24240bff18d191276417eff7762d96594e4fdb9d6803b9609;
0x21dba9d46e89f5875fd5e925eeffd10ddfc09ac71634e69c61e9805bd0a07d1d;
0x21280806713dc524e7eb2c697ee2e197d89bd2e73f1817609be21c35dd5bdd5a;
0x4523bf1a8f284c6d95b310dec2b54e0e00e59b571dd9d46b6201c18e1b56dfe;
0x3cd1743a3de44e9a172804c7b159ec17a83d2ad838f9a51f5497bb5aefe9666;
0x64682ebaf66d718813a4d06db5e8bdf665dc8654df4af96578526fd7eff644c;
0x27bdca50a989caa4dcad2f45d2bfa7e6d455549753fb3e8c4c3ff2553803b024;
0x263a2119f3bf5d5330c11f3036d2521e40f391da9efb1879bf1af39f5f4dff0c;
0x2df2f13f954b1a7cb58e84ca4f3e2ab7d0f4272b559e58c7dce7ef229213c5bf;
0x2ac40d567d483e8d671c8e194075fdb2ddf9ec51a174219e8c351dce02d32d52;
0x159b9154fbbcadc7209c9978cf5783aa8a47cba1a729bb297182aa674f7fd820;
0x1a2295de4f8dc401aaa4a2b1a83d62fdb4828ced253dacc132ec9d5186e1e2c7;
0x2404bbdf4995ad241cba1169ca4d85d5ad276ca9d009081ee3e2b5181d46d29c;
0x6fd221e32b98c2db6dc1602ead395001edced38761cf45ebbbc340ea35cd7e1;
0xaf3118afd7dcf599b5c65b5a3e74a8ed04faa2791f47cd2cce3a31e541032;
0x2b2dd6d065365f0b808bee0a2f7ec63eacb1990cc04608b08549d65024113ad7;
0x180941c6fd6e1dc8a0aa4fd86020ddc4928884b68074c8d78e52764aba6c9f9a;
0xb86cb785671c76300f9e6d4dd23b53aeb9e2d5b6d209f966986aca09ec59801;
0xae841f0d25bfbd009e0011201b47e2042ea8d961248d90ef9d44a360b317617;
0x1b2f66bcbdb6fc59dda5f34ee11c654d0f2dec29e31928d5b111393c8e0f943f;
0x2f16b66d80614604ae85a13440d46bba9d09d98d5161c878be67a0dedabe3aff;
0x196328adca8167c649b987ae985e9e54c0822077188b8af34b3c518dc21416af;
0x107664f2d3f3bc3ed01013faec284477785f08e9932b4226945efca7fcf56b85;
0x2fc54bc47cdc7f7146f9b81462c64093374c71647d4ca27439406ae6e6f7cca9;
0x8779b3359720a0f3e0898942f611aeae102f875627f2c973c97356554911cc9;
0x2e30be5c5cb07090ca3249386926194684d1f3d2d3ddc114bae2bca9d4a07f9c;
0x1ea45a4f0b12b578b58600b9d085aa8d9c68a583cea665805b9389f8563d53aa;
0x1753a308b286260ee6ec2934cbd59f0f211c11647cbf22f6bf5fa7c154c0f577;
0x102ffeb8a2a94fcde9001e08ab603aa8975edc2465d6de14b73c14df40d61db9;
0x1ae8a9e95ee69c8774f8d3a8ff484788ab272d3d174f526a107b2c8ac34ecd95;
0x166b84b5e6975b9e8d7ffcb7be641fd89c53d1b7238748e85f32084ddaa3aabf;
0x2b2e47acd6445423d9e61e96965da98e206b611f52af1d13becb4ce4966e1a3a;
0x4523bf1a8f284c6d95b310dec2b54e0e00e59b571dd9d46b6201c18e1b56dfe;
0x10e7554983562b62de4660b318bcd5324003e95edc617d6b1c23a97b93802e4;
0x187483dca9aca475f85b9f8cbd78aa6048bd2c848caf3973c8feb07573883a99;
0x2c13309dec41b4df5d8fdda2b063e8264c35442bb120e28de7555569ee771f8;
0x11710271c6783060aecd410a60cc5c96641c1cb26591b21632914aa9fd94eaa2;
0x12bbd77d7be4e06b77b5c40e1f9888054041bdf4f8af2c5378e6386337716b6b;
0x23ee2c9a0d3324166028728c80d60cf0e21a7bd9ee90817058ad3b87c6f28cc9;
0x58dd3f4009e8ac3fa07e285bbd7391c2dea81930c732c3a769c9c9249084d71;
0x128d27c4805d2365d84c754621ca2d1a82297ea43dbeda87c0baef506c851079;
0x20f552e4cc3a62cc2f3eb768b69d8549ef4c24d2887d7de0550b17ab4f7b436d;
0x235730472fedbab358bc7dcf25b1d0befcc70746de99e78a6dfec8f626c5a9f8;
0x280c2ed868aeacb6be7c9e773b08c56f43ea871c01acfdf9ff5ce9d4443d3376;
0x1bc74fb92afe9db8c0da68365326cd9944db988b65f46d032989326fd901e923;
0x2d9c89c56578fa5031afd1a53d21212f1c3ef24cf7076460ff533ede5fc360;
0x1e2413f3b8f23a2304735feb3fde9d2d0f88d8aa72c1c60eac921588bfaf69cf;
0x53a4cbf4b57d882174b8891d918af78b40a7caf832c2e2af02b8ba5bf5c1cde;
0x5e736b9e5f8a1b93fe3aef1ee0a69234f7fe62ea998a9f2559f650669d76dbd;
0x1e88d8b3d140ec659d6cb33736a0254e178fc6c0c37d2fa5b36ae4a85b28b5a5;
0x257237c9ee699f5d79a62f2647a3b51c8362759cd955f10872346ab3b401b04a;
0x2b6d25849d6b81e36cd329d20ee973c15cd9b62921e27acff048e7589ddf7739;
0x1ac7317e2e5e3011420558ffa430fcab50b2f3fb778311bb25b1019c88ced146;
0xf3223d7e88918a33250b61acdffacf1965a5ba9807a23cef7c89c837afe5b93;
0x1f733faa9efa2db68363757b1a50f443fe9bd4e3b8639f21f1e12ac25ef00b79;
0x8e2e6b13aa7a352b8c33d0f52939c16819e6a92f7159986588a09e2196efa3f;
0x208995a721ababfb4d527db0b69d35d50e263bb1c7d97b24ac52c2b316b58727;
0x1f91d022a78f70863204042dde629c18af85757bcf4863b3eb916a8af132ba1e;
0x63a2f4c8d518fa72d9ab87e414eb7ccae4ed3ecb6d24fb734d68b43a92e8cb0;
0x2915c64a0bf35200cca5779c140c7f9e888ce72b9c458a9ade0f0108eb2ccf5a;
0x17a2028a54a30e4e0eded3f7d8681d6dddfadf26ef5c43cbd1952e584ad5b0af;
0x4523bf1a8f284c6d95b310dec2b54e0e00e59b571dd9d46b6201c18e1b56dfe;
0x2aa225f58d57ec9fcb1d6a6711daed13537cc6db5dbc485b21a8c4b13ee4ef5;
0x2a9a824715fb8db1d5d27fe975f011320887f593d36d6ca7e2be7cc305eabbd4;
0x9bc4b62c4e071e43c1e20d96810ff912dab86a98b4870d66af75d10ab6578b;
0x2d7d326fb2cd64b543ef4afc9d2969abdd53042e6038cf53f12d36ba07c21807;
0x1e66dbd30fe311dac75382ed3843cfd75e560bf2634f4213a0d37be91c269cbc;
0xa6115e876e097c8651c2370fc0c0a79d4f67199cbca00b3c69891c56dc81cc7;
0x2b4cd16c063e8d125a334909b5f9271bef61a5e6fcd117405e24b7a8d505453b;
0x19734eda61ff0dc7c62643d71daeb291cd8f18e1083f82a73ff05e5f8be31906;
0xf44441cb1795b60b9a424df927fb54b55a53c75a98eb90708fea4b42da18eed;
0x1e0b6f3e7526e310b7b870cccf69b9d716929e7b1f078652588617ea0b71feb9;
0x1abfb56c8889d36a1cea7d9658016c9ff5418745bc418d8134eb44e3700d56b7;
0x450b96e26195e4290a1e94d896daa601b0bdf44651b8575602ffea487fb536c;
0x75d3fba1c1f0b0869714cc5b4e54a019e13c5a9b745bf38139f2b0f09c93231;
0x22a1e5663700b7b7af22ac5604b120c3ab73294147889f73b3c986a036fdd5c2;
0xef19ddef71117af6afddfcb5ba454602d35ebb7497d65ee1e7805dd61d807c0;
0x293a52d85a881e3845f02993f54c6af700f6344def2da90a2dc13a714760e224;
0x10f47c70823694adb395246c750745eda7fb57dddf5f6e71ce1a41c2e9839cf7;
0x5b7b0f8a9586e0ecb9df50b8450b577fa537c94ab7b770ccd883184ae2718d;
0x2694639d8fd48e40ba301e56097cb270ca1e4a6d0cb5b09933142aefd1c44efa;
0x2b40678245e68225c4c9d8f78d2e660c5e7fcbac631d1299b1a78df3b283b195;
0x88322cb02937145ffa566b2f0256d5c8dda53b85ff611a658f4de8aa9ca5672;
0xf5f45c91500d38fe1acc462a8622298c1a6f53c735abf1d4a971d3d9fd10cd4;
0x17af880583031ee7067fec80f5b3760f9e19dbbde06343e59591da9080b8dbfb;
0x1248c5b2d3ebd0f2870307d965eda53ef7d83392cf601d95da0eb124b05c35f6;
0x286b506a8883d6f29ebff1bcde7429156792da00142bb1292f378d0f8962a158;
0x2fcf9e1e6970e8b883f8f72bb1c48c53541fbf72f7b43ee9f3273f9102b5548b;
0x17f7f929e38a4357770f905e9cc5ff7e287e043d06054c78d44097a446174e7b;
0x8326d0c8a128c073a72c7d722a129fa450fd429856732886fbda3ef61606bf5;
0x4523bf1a8f284c6d95b310dec2b54e0e00e59b571dd9d46b6201c18e1b56dfe;
0x244fd94ac9d2b6a02aec10be6bdfde0707d8a95440b04a34feec4eac0a881823;
0x18f0be2e75ec1ac912920d0403ccfce0ae11a66068ed5e7f0e60146c1eb78757;
0x67d513ea87808ec1cf7f5880f13c4ff07cb83b06a442573c2e74a679363edb8;
0x2fad3ebee463c805024a9884e2212288d97d343a199eb1ed449d7f0cf21fb86d;
0x29e2c3e0e04f7685d1e2cd797de07f3de790cccbcdaf77f1686f159d4e90b0ea;
0x10bdf28bfcacb8635108ea9153bebce77eab04539700acc64c084f8bc3f4a20b;
0x10b6a895914a782aa94948c650f6c045d9a15d2706b259acf5fd4da311e1d425;
0x2cd506792539dbd2f2cc3c96795d96831c21fdca7bd8988bbaac60f254da8ffa;
0xca9da7606615f15506a87151200b468c11dfc0e28dbc306bcddc6d4828ce2d1;
0x20d854f50910c52ab1f923102bd6ca5d82da15ba3f0f54f89a1becb7ce1f94ff;
0x10de4900ee8ec243ca53404556e6dc15caa2bab8dd7f83148dca55a598ea88bf;
0x1b6a8eb28c126c8682542278e4e4b2c922caf387f9f08980c8b469aefbc69b75;
0xc2a3124091527d21e1bfd56cd88f9fa0616f2209454b5d1793cbc1dce9d250a;
0x1d4744f598a2e98144d017acc5fcf08c5187aedea146de6ec74a5612aff8c7f6;
0xbd79ea1a224987ccdd83f9ac4490b76bcbc554fa7c2418e0fe38e9da27dea1e;
0x2405592dc81a66a17567e6acc20cca7179ae3c0971658fb792c0986882e57107;
0x14f497a9e8110eec107450c0fae64d03bc8a8416db391d4c4770dde9bd38d3ff;
0x29f8bb3529da3fe6152c5ef9cd0046568adbdd9daadfca8195ff20a0df7a5bfc;
0x2a032300fc92bf19b9cde88cbe9da3f72e3ff50c62b6342e57f713b118a5fb87;
0x1b59a7709a531a650d5ec2ac01fb09ced8327abd4588f619f36e0886c16c3df4;
0x1fc0a3436f100a4d61ccbc321771ef6f85e421d5663bcb4c01c889ea5049fb5c;
0xe9acd5d917d4160434a8fe7037b041c269eddceebb9129b6a176c8a00910d22;
0x196cc8a225f2c2986abab4268b3d6342ddb645bbcd692863e93274b717d02844;
0x11459356b20c2ca8913d1c0b45087f5a28559190d486f04038c05221381d4aed;
0x25e96c07ab87f3f5c0688608c095a86f80ddff5c250f0f6375a45398034d64e3;
0x15d58252815ac471aee3a3d097d799e9efeb969cccb08c33ae0b7adef18f0250;
0x6546b3b7f85042fde21f23c3949c39c2276f87701537434f147a3cfeec10387;
0x1e2aa3704b080c4cf11798a00cc0c8619c8d5997bc3121a17553be7b2dd65678;
0x4523bf1a8f284c6d95b310dec2b54e0e00e59b571dd9d46b6201c18e1b56dfe;
0x19e24f5e120e53bfe7fc01338211f4faa1f95084f2716e5587660295ecea8d03;
0x2ff252a61572b7b92960841bfecc4bf5940bc0d682f1770fc272f70d41682844;
0x2b9ce87d63d943afd940ae87979d5ddf50b784fdf8cd4d1ef0e7c4f220c98647;
0x18eef6bbabd4d2a581f11e2b22a591364f5a4fba59146a97551fbeebb865fc2f;
0x1b094af27259dae5e2f1929f16f00fe53d3acca1867d359d4681ae8a71f9ed65;
0x2f2fb2e00ecc111f573d8002c53959067f3bc7b52959d0269ccfea9729d89435;
0x48c4f81825c5584e76fa65b19b9b9fff7db07039d3750f3a65faa0a608b71f6;
0x20be19e025ea25f85f5998c77a52710dfa5dc65bb2665e58faaa5db7a0c8a92a;
0x222a05083d24105754e3f7fe45ece6add87677e8e64df3f44041618593aaf5f7;
0x14f3d89c38b0249acb03dd0e1130100dde039b1e442c1c92ba36f8368ea16825;
0x13667b7bba6c07aa7e18db6ce06e1308cff4eb1c0aeccc1187798aa1e97967d5;
0x2bc234f4828ddcf587bc65d2a2bd5ad0974f5acd1f790d590d66e8f2ec739e1a;
0x21464644fa0fb22494f8f6a7f7a929362ece3b3eb9fcd77cfbc23b2c9066a9bd;
0x8b65df38447cc47455b407b32c8bc2c740c0b7b37ebc4c61d867b75b844fbdb;
0x2369e1c199639bc505ce0da45601e0a51eff0f26588d74853d07b41a40b5b701;
0x199051763385672f6f8303896f959d2b24b4cfa4d62faeebd54cd43e190c5e6c;
0x201ac20d62b94056b6da288cb5a75fe62dc788a8b0d37063e22318f8c8b5dda2;
0x18157f398ab7dfe77094ab6e91a5ef4e0ec471fa1a04e89969d1c11a2cbdce5d;
0xf33f8f6546777c507e2a79f099a48d743325864e9e90a927478545a21fd721b;
0x23703db4b584d2c4873e7674c6f3df0e16dafd344ffa9431cc3348424e2fbaf9;
0x4501063364805e7a5e7d0a9b8797953e7f08a5caaf873917dfbc3da3c5be895;
0x2ea0b23d55d50d907bfb16497f56a979ac7f460172477dbeda7b450c7625d243;
0x68dadf39001f91f51a0613004e9614a54402b6fcbb0f4b8bd8aa546275e3075;
0x241c7eecc6aa39719bf6c6ac8a980e2100d8c341565d138ede2b374177333aeb;
0xbb9576b315160e6d9e5878bc54cdd9cea38c935d75fdf8b39daa3479a29b27;
0x202599b284bf67ea50cacca315c66218f4c59a49a27e193edec4b9f93bf05322;
0x170070a071a8648635667f8315e5412c48c3196d1d551ecd114857cbff9b9d3a;
0x302e841876fe659903563549979b9e27ca6d36f004a559bd2461d5dcaa40d2eb;
0x4523bf1a8f284c6d95b310dec2b54e0e00e59b571dd9d46b6201c18e1b56dfe;
0x2731f1ac5dc030ec117fbad7b53c6b02a6c9e04a17f64bc0e56885fba0c2ef3b;
0x8e4443070b7fcb1a28f620f990800bf0a23bd32146d7eaa824f2b02f50a48ae;
0x7f1ea73f15d8be5ee132c68b1ceb3573909753f86582c57150eb71932972e5a;
0x5d68802b26f0b520b248a7d4fc2461df7756641131a1ad109fa2588c462320c;
0x2c6db9f72cad44c3dd15a83d5ef9eb7216db1e716bd8bef960e52cabbfca8101;
0x26365d95008667a1e1b2653e98f899a378e08643d7bbf706c7d3eedaac0b16f8;
0x52ff974b2d04537b8413b1b0c85065f727ad6da454f909dda0aa5994f7cc2ba;
0x2b769645daa19e2b07470aae4cd88672e7160cf3c07c7b271b60668382810327;
0x25f56a0ae50d333f294efa08376a37c386dc4cf24367139c640514547dbae38e;
0x2f2d49b2a257d8aa58b838af6357d865236ecb76e7db136a09a5a094ab7c53dc;
0x2b173636674e54aa05d0bf2c60c5df0b31b2e801e6afb149eaa2c6fd73d6a626;
0x2eb41bfb627052e1e7373a7392264e7d680a19cde030d8687053755207c44037;
0x1841952650b7215b249cf50f8b6c78511c2983145ac405cebdfa1a8f54b986d2;
0x16569fbfaa5e330f4ce139b103980e0569db854d701d76a233ec9c5a8f7bce2c;
0x60c71281c4ed3a23d7ce20dd30c22aa172e245ce529234ed18a130222a9e611;
0xecd53722d116536580be7b8a5c43aedc798e1110c99fe9d806be2140f5c7786;
0x213c0693e38ab9e0cd02d2447613d5033fce7f5444387652f03e95b9a18dca64;
0x772d0faa6c722c861da9582961e239c0f4554580a5a067f9d9e9bd71f978f85;
0x139feacf69de1ee3d14f4fb9ecd06681b58d4ea37d309f6062a2bb34806e4b0d;
0xfdcd35d68b9a0a9f0d39ba065449a7ff04c9301927aef113c5f34061299da94;
0x125be84a276a6acba551894f5dc8e14f3734797d489cbe94542be8bca82c5e23;
0x2be65bd8dbfe8d435018dda75806ee34820686caaddb53f133ccd9877913370c;
0x78ee87a14ac262c2d74b17aba71d620685987727ca21484bad37052d59d3bf4;
0xdff2aa73f9fc438777ec8be74d494ec8c36fc04ad3f12113624a58ba52abab9;
0x282f6e2312ac752d294d116b0308981e7ed45e2162403c5ff705d136fc05ae60;
0x2791a0a3c213582e9a272d6b667c740e63cd918d53ba444d23d095df767b68d6;
0x17477c566355c80fc784384715356f69c8f104b0154533af3c92e0a8a1319ac0;
0x2fe67e79a807315060135431a9b4426982e90f3b38ecd5d8e0ed7a0cf58d6c1f;
0x4523bf1a8f284c6d95b310dec2b54e0e00e59b571dd9d46b6201c18e1b56dfe;
0x957903e40cf2319059c20c0fc70a5f3f8a79a64f3330d165e2c60b5b2e7bff;
0xfc99ae6ab79445327c6d487e32997d5b476717bd26b47b073471c8367a3cc;
0x2962bbf10efd8a8efeccd09ff80e9ee162249389094019af228cdacd2e42549d;
0x25a909692ae443abd87eddd74f8705c80584216d5be8a42c79ca3079fddab520;
0x1c0e8c1b8bdcb489bb68d7239dfcfd5271c4ac39d27e222be925de97750ad5fb;
0xba6ee96962c66ec04c070eb3e71285d8c91cc967d20d72de7291f020f2c35ab;
0xcba1238e9ce747c7d499320e3bd270db14cd796ba829328556f7c98d64c0d5a;
0xc875635083ed6976d068751efdd6cbc3cd65da7c97f642b5361ea734f970295;
0x1697dcd735de9b176c4d10fc5ab1228775788ed4beb16dcb0629efa99a6a7e57;
0x244cf5956b0289a789aaf00f2e2cad480cf0824afe8eae41e259df395bebf2d8;
0x206c3705f63d7b871045c5245bd3bcf720e12e4f0a82fa89a1f913646d38babf;
0x20b58ed4e80e868305522f5eb670ce452ca9b1d541897d51ad7b42c4ecd13205;
0xaf72e95de70f64d621db85a37f69f5712ce06e7596aa97a1188bcd3861d6c2c;
0x1c1d15ca4b3e0508280869c3ef38eee25c3d0cfae188b5f3d59d5c7c5211d773;
0x4af306d94e8e36627df09ffc20ec563aec05452b6b8c1a17e93c8a3f30a9207;
0x2f697c34b59c559aa232e40024bc6da390426adae165002df519d7f2c71461ca;
0x8a7299528acfb65d196dd9a7a136401178a7d03f6fbf5df3c69e6629895dcd5;
0x221f628204240732be38e2d0fd3addb1080248592ccf3d655364e171302b4780;
0x2b4a05f00a373b8fb7938b4f8812be582796986113ba1d80749be041dac49088;
0x16d94da79927c24b7bbd25defd5c0fcd67073d738f31b93ff08bad9078b2a23d;
0xb536adba2330baa9a070a63f86c465e3463d4afcebadf59a233a0319d1bd21d;
0x1c57a599441a0b1474521bd0470a9cdcce3615e2575ee4baaa38a25958cf1784;
0x1f13db4a9d7ce5fdeaebf3a571fa14807e979a23d8f1d426fa16ba9941421c60;
0x12b527cd8c1fe08e9d909cfae1c405f11321538cf59af3a2cee67a06b11d9859;
0x1f2c0fb5f11e6d74db0c30125e48be344c15529c61d4debb013a7b06f07fff95;
0x1352f4a6320fb513348dd5f02ca53ceb1a47d8616892608eff2284ccb7fb1d01;
0x146dfeab263219dcae7613a9b5403759d5122c9aa490e36ba5b4a37d489f8e5c;
0x1edaf73615e187effe0d876478e3682fef5d63e3a12edccc216dc302d776680e;
0x4523bf1a8f284c6d95b310dec2b54e0e00e59b571dd9d46b6201c18e1b56dfe;
0x1c28442722fb49d44d40b2b6e86e2218f956de3f4b376c3963955666a8f57189;
0x20e9e5c1b5d8cae475cd16e899d1c9d923d8d20ec60727d9266e66cb0585a67a;
0x2f8dfa1f54af676eea3d05bcc648b8f511ea011b5ad23e961e1b695b4b5267f2;
0x1a1a5037e57e4ae723753d3d22f965ad8b911f613d6b0e5d64ca9050ae43633e;
0x1ba983e3c28f6398d73ca8f7e2963564a9be471ccd5c3eb0c4f8e96635059529;
0xd4adfe4a7dfeb3cf86702e54888304e36057c89f10d46186d647bfa700688ff;
0x15c0166eea20cd705dec4b44aaca007e6c9e4aaf131b47789cf70e53c069e6be;
0xceafabeda1dca814433c969943e534008012b6555b08cb2a4abf43793fe0e5b;
0xbd15d8a31cbfbdb7c36e540f4c70a5eeead9d43a9414023c763d2fb643fbc76;
0x17b69dff9f9dfdbf6bffec7c7ee15eab02eef17254a526022d878fcaffaedc75;
0x272fe422dd56f28e6375cb725ad469069e1e48aa945dffdc1e9942b46307b763;
0x27d2db5651e5293ff051000a36a2c949a7a3e7ce326b8c993845ad572ed1816e;
0xe83466c2741c36fe6f5f5e6e60bad5bfe3ea06a7db58680dc4a518f42b6ddb9;
0x1b97b0489274a5912c53c18137e918d8f7d3985034c617d9d5dae4cb75990486;
0x8b09b027647befc8884bf237a58efd361641e4a25ab1e8831616ad9096aa157;
0x22f46a0157b70196720c57a7636285c4b10854721e4533294283652b1911bfc2;
0x2f1f803aa4a96a296bc8dae8d07335ad018e77ae6d779789bd718e72d8709a53;
0x2245e61dfb52be01fddb5fb4179140e4b5bf8cb1c7afbbb6976382cc712d981c;
0x1683f9bd4b791410d1a889953b716d95c440692fe4b4886107d052a8d50307c4;
0x242e864ffee30fe0a080e21e4d275db8355560f07b7745a4e5aef58d09b653a1;
0x1eb483efd8310203c93a42e06b18be5b4a0cc9612c335cdcc82c104c38b3e8e8;
0xa5b1b4c8982984b6ef162eae01f0a53337c0991c27faeed2b61ce3cf99f6503;
0x10c25a14e51fd3df8e34f70db38cd60124a4f4837d0b024d5a0cbcfa8e316724;
0x17e9f3efea4275ce4dd5a760f4215644cf5fda3659cc82c8cdc1c66ba5336c29;
0x25c1bfc4e679b3b3a692755b3313ada05f6d747365325250e0d6c0c566070ca5;
0x1356277171f1d2a2e677bcb161d9d760648150d1f297247ea842abf2633d4715;
0x28aab6b87f9f0f8c708695594610fc99a820dd994d63ab25829c0eee980d246f;
0x148d7520ea0a3d7ab3ee550cf30cdebe434ca7c84ee346a5b8b6d5d35ae06e88;
0x4523bf1a8f284c6d95b310dec2b54e0e00e59b571dd9d46b6201c18e1b56dfe;
0x24170fadfbcf05e5d3c5d0d5d051f71de23175002d1f02002939eb24ce5d6d29;
0x29491e9171d578c03ba302262531a6d8ff03ab25af7db467947e543553b25e50;
0x10acd03b983a457e3eb10f10666a7540b46066effdfbb50a1c5996e8e42879e0;
0x1fb89a866bed5ce87cc2170f998132512ebfde77a2aafa84f288024ebd9e6c78;
0xd98b830d880dad4a0755da7626c0cb7dbc454bef88b16992f3242c9fdea3cb6;
0x1c0d9302769b138d161d471195f06bb20a5a59f53f083731bb4b9407af705880;
0x299bbd2c9b64bffc601a51ce60185e770765abb952375055e0f8c6edc3c1e7e7;
0x1e3e012a3a23cc56b69b92c5a82ddef538fa2745d68bf99e6c4f65670b8a2581;
0x11f5e20407ee480fba59b35af723c3c1e7e60fc4817f92d6394cd7a9c65ec766;
0x26d3be3bd30f29131705a60fc4f5d51c6617919993bff2a9e9cbfe08819ca686;
0x2b29ffafe79893a89844e650ccc01ada03f91f4853166006e0efd05aaf3e3647;
0x1fbe32c5de07b6d625c86ff0062102ea1ae1f63e80ea0473ec747ad9a67e8a08;
0x24e36875d9f11a3fc2dc23d8ae5270150759b92a7dd422d2bb196603835715c4;
0x1859e0cdd36899ba3ea1a15b6a5343985e2429576894dcfcb39b17485e965a37;
0x2e823c343fa815b8850dd85825f5ea80cb32e17ed0a8ecddc478609b094952c8;
0x27ae666b5dbc3dc0d19c32a000a7df0fdf669ef25691627c4d7b17c6f4348d0d;
0x13d3988c983fcb3cb784b222b2bb8d4e947afdd3fb1d0e5bf2ab876eab1ebfd2;
0x26055ed2f7cfe90bc54ebeee9ae37eaf62f11d4ce7ebe370e7776167a51779a9;
0x187a3031170f0e0ccb8ca67fc2cdab2c2a5274613a5ce191a1790b91cc6c5888;
0x979a5a4f896cec804a633285c9457728b5a6fbfacad62593a23aeddefffe055;
0x17a9aad3bfa4cd25d929abf715dcbda7ab2933a6868d33720a5e6c60f88e31c6;
0x51192a624e65c0f7590c37385cb1a0b52b46205d2ae7109e076c08b307add00;
0x2aa14feee17ac6700e5e58952f28d5435fbac37769c3275ea9fd35ca622fe7b1;
0x354581b4a29a9ad673f3c57801bbb6f8a57098c9cf5c15860b4dd240d83b536;
0x23bf29c02d8d818da4257fadea084078a4f7d772795ddcba9e53030e06cfe36c;
0x209923e9cc079197d001f330069b05b75547e48685afb804931af5a3a241390c;
0x6d614256aa7a08f67ea8d06bf03ae83b820669ef7d7c1c7fd992acb22ae6773;
0x1131b48492673e474c8e23277571bd9f9b892b8ecd3b6af754ef83a1f30a429b;
0x4523bf1a8f284c6d95b310dec2b54e0e00e59b571dd9d46b6201c18e1b56dfe;
0x17ff3c20af33dcd172bc3042ca7ba8b9acc7c5d35694a795bcc8ae3c35d9e748;
0x273eca5bc74073b2f6761b6b0494d48407c4a021056f88b79f0dc3c475802c39;
0x24edf79bc35300c727d39b301de82e8cc21435e8ff3f34905436bedbfa6f9d91;
0x2cb3232131a5d86145127c61ecc8afd66fcea63e3ed9b1ff1ef3099aeb2047ac;
0x1ea49fb0e46edcc3a90651f6e1a4b36175bdb25505cc998a101710a4fceef13c;
0x1e40d394feff0707116e1d43c523a36ea293d11ce3059b5562ee678a008a594e;
0xfe47524266480df132a54698b09e844745eb540cba498623a93f36e48c63bee;
0x1f113b5d7c4a3e1f1156dcc68358318ce699b352814ae0253672d6c185422980;
0x1aed347277640a0a0cebbc2f4ce523b9a51b3750672eab8a9e689c488bc416f2;
0x1ef98e57380c6a8084a8d77b701e23dfbb56339ef9cbdcb9644460a72a1f32e3;
0x297ab0678798b06a4cc7147cc125baa11a058cf0889354e63229f185336cd356;
0xee54e4f901531d3811aa6575c60409c7e6ad4b475e249fd3334883b438a2097;
0x1b9b0f52375f34b4210e078d4824d0d385e6e412cf177f862aaafc3b6f11deef;
0x261fe98c4a6882bf586ce9c03ba90555d428567bd98761ecb57bf8b1ec408458;
0x28d8a46abca186e9fe9b326c166870f98acf6655eca805b881ee02ed4f3e8134;
0x4da6035fa7dd89980485ac0feb277b1eadc58f522abf010de5bf9d33974f232;
0x1a9738d1389ca170c20ab5bc4d39eb39992acf40d0c4da20ef3e3394ef369b88;
0x183dd4932830f3f29bf1421cf0e03a90321b974c93a2779cc64031c4c0166274;
0x1daefa57c81865e8a1e3163ca39d400cf5ce472f21a1888f300741ca61d61a3f;
0x2ae49d27bf8dae3b5f8499fe9f76fd2f247b3825a8f4e89e5c53596a6ac5b13f;
0x9063107e2a28ad8dec4ee2a43760006c728ea07dc7eff26f34c0e88becd87b0;
0x327db09f5185889ae36e52db244214053b27bf18d3f240552dae62b60badfff;
0x6e61b73f704a3cd70cfe843f37956d0c35cafe6bd28c5dfc1be98399c734fd;
0x484994555a799cbc175bce4f3add547300ea3bf0597b52f08adba0d0d7478fb;
0x1509af8f777631bb65bbe5ae68fb4bfd3e61040cc4c28250704e3e52e393a7c9;
0x2502148be563d2dbed722eb34a878e32686eddc63235292ff336430ca6bd5f34;
0xa90580e651271747716e4e65ea8dc039345e0609e4596fe65fe9539daa129fc;
0x1268ac93435ddc3de28c7401ed6612751f4b244dccfe1a75269da8036a1173bc;
0x4523bf1a8f284c6d95b310dec2b54e0e00e59b571dd9d46b6201c18e1b56dfe;
0x11aa913289660f7deb7ccff2f4be6dad755ef59eed4b716fc8d87e247a6fdb45;
0x29e72a16e4534eafdcdd6139bec5eb95e22b7566508e1b748614d450b54c15ff;
0x1a958e6a0b1a339f1d3dcd38ce1328571f35f09abb1686e2fb4c3459f036c58c;
0x2ed8337208e410744d73bfaa8049dd98a673eb4734b2f1e6c50dbfeed2532eac;
0x29377f640a7f6f76b922b18954b3ec12216ba9c13e0010002b59ea34fa974bef;
0x23454f27137134b9af8d43dbeb2f146c9a943bd5ec7fc7642da2ec887e9bc4cd;
0x209816b4da19597eda949b4db4754061c72a3c902f9130edc98b592470b0ee5a;
0xc1eae8b0bf925b0a155e42b2e51678cf5efc23a07e62a16ce7de2b5fa23a43b;
0x86f81d19a31671e41a874adaa71edac75c4eccc6a2115c2ac96bab6e4da91b6;
0x4c599ac0280aed84f94db0e328837392ea3338153ff37de61a7e28bd24392ce;
0x2c4b7cb11e988d5451ea53bd7bc59c1d92a3250e5cb1b81c8017efd00693ae0b;
0x20b49fc26af7d51f043b48670b79a409c4fc366332e67dcab28cdaed5fcb8f32;
0x2b2de9914033de3d614ff1cc2a46234dd1f3605a9f4e52fdf2169986b31a754e;
0x2a0a9aedae2ddb9eabbe22dedd043c670ff098249bca89b2d7b789c1a200e832;
0x78bbcc544330029c5703ad867d374a907efee1f38764e417f6b724ba2156685;
0x27f2b059159be5955c9e227e865d0a8add82aa951ebd9b2fe43545704f0c4bde;
0x7a6c429e1100125d872120c307bde17b721dc31e16763cc096a989c97df7843;
0x10424964905ef646913f708e8d4321e9ae2263875b83e5c65d096516581d4090;
0x2c33aae7d921d4b90a0376b93aef9a02975fa8343dc0026066d791e9030e04a7;
0x1232983e555c7d4bb4288fbdba3df682913813bbe616c9ef9568820e02459b4d;
0x1ab5023e5ffbea8d4fe8e006beeebb3162a26e2a4546f51b1d836d3467816c0b;
0x1cbda131f20b33ebceacff9339451b84854e65775fdc1f5ddbe8c35fab2116dc;
0x2ba0bb8404000f7361cab18e78692a17d953323a30934ab439e23b6605c023a5;
0x35fa0580ae06fc96e0e4af43e63b089591bebe233c526a67973f25cc7fb482c;
0x70babb38665a3546e6e23f8f3b26f058bf131abf19d3c13d6d0588a317c6d8b;
0xb642882c1295343e9ea28b89a62ceebe0b7919b6ca5e18811aa978bc181849e;
0xc68a36f6df8c27deea1f66f891c80fc215aefc646f545d63cadf22ab44b5914;
0x66489b3cc989e807be1363d97207014a2a14052de80edcd15c4e2f88d2c65dc;
0x4523bf1a8f284c6d95b310dec2b54e0e00e59b571dd9d46b6201c18e1b56dfe;
0x1026e6257b43e0afee22a0189f28e10718f4cc5e49b3d15405df85d8153e8e1b;
0x3947588e943dfdbd95694ddb3a1ba7f51028c847b8a45164e87b5522418aec8;
0x1b1cb2c496ae764bfde288ea50405ca6ae4ac6f9ad1998b83b7557787120cb1a;
0x24fa4f9ef707a77f4f3742aaac6b8fc5bc59fa8c4046f9d024e3d5d80ac0c38b;
0x21dca28d7160687fbc8d0d144c062711e4207f617895fa46dd87922777ff10fd;
0x82cd14685bc3b3219e1a76ba6b2cd6b8286405a38705273a7faeda1da62b3a7;
0x288c7734ce6cf001742b8e84fe502cf5205a623a3f0fe1d79f0fe916df073c4a;
0xcbeaf576571ebb86d175b804c4655da7603096f9865f983a044bd8ebc416714;
0x257aece5dd9d7be08e83df64b50b5ff1e31e4cb6ef8610c6dbc9eab409ae7383;
0x178df36af677df81aba8a9fa9d31f995378d1f69d782058f7ef769555ad5363d;
0x889c87f38b0244685014312d379ae5ae934531ba20b7e89f6e1e975e96d5bed;
0x28898ecb6a12d999474f7cd98e7d0e3eb9da404cb45de9285115b647caf3102b;
0x1544b607ee25873cc317f6eb88b72ba9371ff52bcb64753b0e90dcef61032604;
0x30b741264c73950635ba61ae3be32eb643d9a78fb6a6f695ad4046f1b29a87d;
0x25052d3381e118c1995ce20ebee9f1cf615053caf4d2ccc143fb1e6c4ce154f9;
0x2f30bea892f8f2b335b8e8bd925f244335e430f0c77a2313013ddd6ed40de0aa;
0xb0d65fa768e06aa8e5b1aea32a2d0eaa75d2548296268d7bdc1c4b7a2234989;
0x1fa1a1014ba36436c1a7d8cea18580c577928229ed8e30ce94dabd98b873fe27;
0x301c506433828eccfffbf89757d52692c7ec633f32e726ade9fb89f7839150a5;
0x154a7110569dce2d4dfbb0c4d590669811751558a06207a1602bef10d3428ee;
0x2f27c0dd673d6353840612d1cfdec89407d7a23e25678d1fc57aaf210355a84b;
0x48683bcd4388885dd3956fb83e1890710c7d1cc5d103b48c2eb7a4e48d3c5ad;
0x151c3648a02ad924ee9afe8dfa7f163033d1683aa8ad9508a6c96ab29c08908b;
0x14baa70addf9eba4a80bbda03d2fce92e571486eda83f0c0fe59a7e4605eaec5;
0xba6cd972cbb3905ed976b62ed34d972444d8211c71f82a79c089fef7a030e4d;
0x25adc9138d823eee97b0dcf9e7142c4d791bab92c10215d5b4f44ee166c44018;
0xf0416997a418d2a20cdac6c53e67640da3ab4b5cad5aa3c9c442efb895b7744;
0x1dc3e4e5d9f2e587fd95028c6372a304d987eda0525879d1b7da7c775f0a417f;
0x4523bf1a8f284c6d95b310dec2b54e0e00e59b571dd9d46b6201c18e1b56dfe;
0xcdacd248084fbe79ef314cb06a96f929ce94f525301e8858e6b0ab419a7b247;
0x28765df4d0b75915b2000538e00a7dcc8219c6e428e82f452ce8882e609eef99;
0xe81a5592eedab517a051cb7235c8bf0dc0c332258a65ca6e29a8625a334fe8e;
0x88c064bf7c553c7e4d1b38425883f54d57f18a7f8e9800e06a3c2310f01b2b4;
0x1d24333468728c030f01a3c93fe035e9fe913f3222c7149cc22e21d444fa49f2;
0x81e4d01326c4596d16d5d9df406a063f0c6b323e2a8e406b2788391a6b2addf;
0x352a5a0fac781a16a2d8bd72c9402a3b1d36199bd4ea46125e33c33732ab311;
0x26618bc0fd81464f23f6e22fc19fad753df1b3c076275c95e0ffc437760fbbc;
0x228b70124680c991be94ba0f8016e384609e7a7fdb2ab40d661614d65a52193;
0x1d0ba067834fa54b50347297a3525a6198bfc7d47dd47106072c7901b900a4a0;
0x196b16b4a3f2641cc6b343a57a66867f96be45005df9c9fc9d07710010a1df0a;
0x2f45695ff148cac7bd348b093d94e075a73f4f60b52227eb8ed6048fbc47aeb0;
0xe93289c741402aa1bc152dd82b4889b657db2944dd6cc5c9cbd8e72e69063e;
0x123380ecc6c09da5e9f5ad2d298dc60dd0a9d37a4b67d4833d2fe428ae7a8db2;
0x883e804219d5edfe1b0bfae68a76df18f1ca939207b6b0bfff7bef4309c7187;
0x21588588decbc2f33ff25a389fec95f429fbf43b54ab23ab20d3914ab844eab;
0x182c5a52fe6c6d2aac38a2fc06ffb65595a1ca4110cb09ab6f5070f5962fc478;
0x6a58def11f1c27cd234bd7d9be04610f52b68575d9560d3dccf8ad9b5b741dc;
0x29cbbb5cab2c9dffc5b12c9230afaa59c7d0b1846ff9bbd0e31de3218afb7742;
0x9a1d4f4f00323630dc4f2d326a5ca2823e77944ebf1c22cb9343963c627f17b;
0x25f5157f8a190e6bfbb1eae9cd55819609220a196fd89cd44b5b4603e80e87a6;
0x2f0794e7af6874b7463bf9d7f7f6cd2b9141b2c71754e4a8e487e26b723d0d8d;
0x2a816cbc315eb725995b6ab706c6da8757bec6f588849f85d10b31767998bd4c;
0x2c5fd92cb6990590e62056205768da25c8132d8bed9cc787e73b81dd9ddc5448;
0x2e80276a04b486b1a36aaaf7c15d1b6b4bd48238065cef5eab1c153235ca6937;
0x15257a77d445dde9259c6151c0af6a1771f5c23924a4c4f7fed58669ce49bfa4;
0x1219c007e9664d8a54be73a03262d03bfe15eb3a2f8e7c9194271235eb435814;
0x95144c721ba3b18324e55e532885ce67613444d3cb3e95955d7201d779812d8;
0x4523bf1a8f284c6d95b310dec2b54e0e00e59b571dd9d46b6201c18e1b56dfe;
0x101a646241a8315f204d41adb7fad83b1a502ea09e7cdd815b21625cc0ebe09c;
0x19282d6967bd22091e34c47fe72266e1cadc9f58d4f4679dc9255c09c2854963;
0x42b2e9365e95f6b6afec41632d9a933f4744106315e3df2eb6633fb87356af2;
0x86ed6b49511d6bd4815c76513809a77c277e506c3052c2beded9606623a4c99;
0x58a4f66ba158c1aa28b651917f1fbc744b5286b3f6672ad39fe177be503345;
0x28dde10bcf8969aa7a5b6ba1d48e2dcc3f69dfbb224566cb3fc977244a196cd1;
0x3842b61df1832bc6b4e0ea70d7131f7b2561a94f78de3371aa976d05d635894;
0x2c3bedddafb94b9427993c19bfa19472ed8cc066084c7cfa5c5e7f803a7582bf;
0x163541b79f81db7f2742efa3584f07e1e7dd25a19ad934623e14b87f99601790;
0x1846f2e5b96f8abbf20a2a6ed0d9a263337310372cf570a318dc3c91c849f112;
0x6c7a3cee3f4166e6212f93f7d6eff60103cf16e252df30d110cfa0102331b15;
0x25be194f6a3d69e3bf5f0b7cf58030a761e628b1a4de003d9e8a02fc2080ef74;
0x2699fb6f71316244c10b2c672b2fbf077f217e1c910ccef06524af80f9c3fe0f;
0x20e39137899fc0d2c5391fe185394173003faf87cdf3e438798b1666146b56c;
0x22b9615e9d1b58292148c5aaa8c9eee5d540aa62bac93ccbe16c5b657161da59;
0x17a4039cf90fb2c8ca78a2ab8474e5fcd1bcc7dd4974302128890f792960a722;
0x296a7947ed0816212521f82cc836f1b747640ed9311e5a8432b24f131abf74da;
0xe6222d1f658021ae1a8c83fef1078b54fe29719d30a30e33e95530140b2ac5e;
0x24a832d0b62d7fedb241b289e95fc7f4507556c422183cdf1bafd1a516301960;
0x314978ffbd36b1bf6b6efff9ceffdfd22c3128dab03035bc4d1811ed3a22465;
0x23456fedebbef43f154140b56f0106c7b3a5b7cd60f7ce2a085a59d219364080;
0x2bdfd3aa4bca894312e9f392192596efe7aadbe7b2c22aae990c18ce32c56f2c;
0x1767d8e87ff8dde844b861af172f011a8094f2c93f14a367e3f4008414779996;
0x9afea3b803901209c60fbed76494748e3af704cd3d68f6dcd846b5b37efd752;
0x1eef9a7f080331471dd29d7d0106b95b1cf30854c201d0c7354699f2c0ff18fa;
0x1ac0df8788f7b6b264c4b5fb1d15f9f43ccb6914fa627a6454bd7b107398f328;
0x153587dd8856ef1c5ba584cbc5c6206ff27316111bcb089a37000e01fe12156c;
0x1ec3422f01d367deb6566ea3f37caaeba6e6f1ab9b487e6adcd9abe7fa2d17a3;
0x4523bf1a8f284c6d95b310dec2b54e0e00e59b571dd9d46b6201c18e1b56dfe;
0x92ab362071be64ee1defe4c464b18ea957003ddd4fb25ef1ce8c93eb0da67e2;
0x2087c4812bd0d03d971979f341256e284a686b63564b913c6203e3a3316a0bbe;
0x15e9d37afb1e0877c55cd521cb79c5f20658f8f238b8679a50abfab5edd498ad;
0x2d3aef5f158c34c12fe84c4d48d49dfc4b27ef3ad9f6e9c29b9516be85df233e;
0x244a3d476b0a0690158a1bedff28cfab8bf6f5ba4491691326e6b1b71bb2650b;
0x10e9d046cdec45124f7bd3aac446b7f0eba568df3462c86c60751ce3e51c3ee1;
0x2590289589edc3112e5d87b4f474904fa9dd4dc4f26298d1e9666c281dd58357;
0x13765e0ca93cb708b9cf1ecb6427f1a0df0b53a7d112bc1a1439c3afc8e8c13a;
0x196d3192651b1e8b5b1cf54e775eea3a4f4d67e60db2f0be380ee48819fd495e;
0x18c81e4ef19c7276d9cda9d9bde0b3d4334f4748c76db52bdc4cb0de91def3a5;
0x25f4226ce2c992fdb6affc2c85c8ca64c9db486e8471f93e30d97045eb4aee58;
0x2a152c83769c9a975382957eacc862459e4227080ef497775273995c3f30c3e7;
0x13bdc6f2694024b1e21e3fe7b281e44a48e32c31ae815aeea28a283187bfce73;
0x18be50dd564a7b862bb9f3fd822a9e6cf8527290d0fffd2986b6efb0e4ec3ecc;
0x76b689cf6fc26746914c11187642ad45b934b9dba8499e1e0f645d1e7360976;
0x24cb96220d02e7d183cd28cdd89024647df21deba55e20bb0a529909ed483db5;
0x109261482d8eefedd9555eaa2d4466e1b9582cdb50dad968f73ad96df83b6afa;
0x24f33850fe4d7019ffafbd669532788d02c6a0dbb39948ada0b07f444aa824ef;
0x175369adaefa269a66baec32ffd60d1be0ee1f39ca8525dcb73a6357860abb2e;
0x25b9fec7cc7f651e8354d7aae86dc9b3964fbdec440c6c8369fea81eeaaae8b1;
0x2d0c8b82de5ce4c55025fcd286e9ca575c3b0b90a7da5f677a0504c05a4b0cb7;
0x227437dd063cea6ebb85f7b564232d22be29cdd7772640936c3698b7c9fecf66;
0x1bbba5bfc8a010cb25f637ba686157eea46f820848fc2c2fc636f933d4014101;
0x14471102a5ec4909add2c73da2c60ca518809f1e160be7dfd14a6e9b397683e6;
0x1b13fb4a716a8661bd984574b55249784576b8346fc245fa7ff1154e748623e5;
0x26344c34f453274463aaf170748550a3e5cd38fb0dfff173a2ffca0a7f2dded;
0x2541b62c8a52ffbdd29ea87ae0919225e12dcabe2104b5f4708708a2cf4fc38c;
0xfbd922b73f16d661458c67bf7b4b325aaf303c5a12902a667a78c8507036976;
0x4523bf1a8f284c6d95b310dec2b54e0e00e59b571dd9d46b6201c18e1b56dfe;
0x2355f03ba072a620b568e7d310d9fa639d134ffd98561cdbd2297beb13ea0f10;
0x25ff4bb05b96f0a0b05562057a8db99f97e1e2951137c0c40fa932de73ca19ed;
0x2daf950c80154f6e7c49704d705e14871273499f2f619b86c5c5d157a6203dfd;
0x51cefccdb8cf6928b91c3127747d700e86844f1148f0a34c6d77c5b849fe690;
0x238262ec5467d6af343b33543cd5fdcdf909062c84f812fe01aed5cc87fc476b;
0xb7daca406fc36c69aa958fa616f4838d61a9dde2e45ac8bc788fb2cb21019e4;
0x15bc83c5e68048d36ab9dd5750982c086ebf0d155254d898c60e644231c54e13;
0x1c63961d501d08c43558a7bbb6adf0248ce7d85c46ed8d18cb57fd255d70da87;
0x2509bb8169fdbbd47da25a7229eea6ded1c619d3c047b7838aaace2693656732;
0x69a50d4c1eec1a0ed50274c6fa4867ef658dc1379d8fbf9878d4b35e9fa99bf;
0x15d74c0872e9b1164992ce0394cab9fd723220e0696d28ea011620716be1af17;
0x10b0c815190863422b42d8bfbc68921d1ed561055ae5057b45c5e46be5a6eb4e;
0xc11c306b5211eb36fcbe505a754052252ddc622d02f4420c77390851d6c42d2;
0x150cfca445b9336ce22dfcad1175f597794b2f4bfd18a9780eaa12eef2ee5c55;
0x194de31d0ce18660aa746a9356d96070ce237944e5304630884874a2fba798d5;
0x14c2071d9d7df808b50b19e77e314406aee8b339c4a245b2770b802af790ebb5;
0x15847c79aa8e1c92c18c3bff302c31eb38f001804c8291fd590cb9025a7d12a3;
0xfbba1d54897882de6c7d26203aa96c3db29d788b0bd435c1d354c271b126973;
0x1a3b7ee6c4f24ea92d2228b4b760223f9a34d8f70c3872400920bc066465877;
0x2ce61015cc1e5520a83c0124f38a8359caeda53051194702485e00cc2ed02bf4;
0x2b8be03a29a0e8fb62bbc207e587deb46eda5bdbe99e522e773bf63e6cff6334;
0x105e1aedf0cf9f12ad2416a44fbf458d6237ee895960bb8c25299ac72bde12f2;
0x120c504e8e99eeb16539249612eb1a9687e2f99e4fec80123f0c29378553bbf8;
0xf35ac3925b66d52bde5da31655b11df9975be00efcbca7da24e85509dea2f50;
0xf4957169958f20b8cb24ddd2c1fa8668bb5694fb82c2779a93e2d993c2a4369;
0x7f61b3cc5f1220535cdc630b9033172c02afa0a7988a57c373a91c13263d805;
0xe16429a495a0878289a4e187af2b3b9e0395ca3401938b70f07c0647273ad8d;
0x18190cef50589e6c73faf348b5cd88be8dcbb44f37ecdf70e94a3b4045fb2620;
0x4523bf1a8f284c6d95b310dec2b54e0e00e59b571dd9d46b6201c18e1b56dfe;
0x227f232164c4e3c741afa130d206cd84d835e4817c4bab99ceabe0bf4da575df;
0x1b1d09c8b7aea951d45cf1390c95b03c29f6820492ce2478739df09b9bf0fe5a;
0x1bd040cdcfded9e6d08d3d6bbbf55a86aba6aa5c13cf09ff4cc6db28420a1830;
0x2c4d2f16535632f050256086dd4e2c88479a1d3684ecb8c25fcf3096b3e1a6ca;
0xead790bfabc7e81f7ce3b6d68134286977c619a13efef5ac110244721c097a9;
0x8900754358a5d9716c6e2fc17133da9069794fadd42410213b5e30e7dba7565;
0x24c0631f518904d6a003e225b34d3d02e2e5645f7c6bcebcf4f9944fad419f2a;
0x9ec6105a057621f9bd18fe13e9dede1ebedce6d72461dc1c4faabfa1aa7f105;
0x79b0343c865e073462767b20213ffa9443db0387c9506503586ee533302e802;
0x7df63d142bd6c29ee03aca8d1d5428920a7fde6437b949149327c2967d14245;
0x2ff26c8169cec62032f72ac25650a6c94a18afca7d04da0e3291d3ce71a7711c;
0x164edabbfeeda046884e4f8595e438127c32f8467d9de721fb50a816688e33db;
0xbf8306af475136a305a5a78b818c1f2d49ab9fa181c11de516e38a96ebf9f55;
0x16da51bf32b4e134bdb05926f7b975562a7f2fcb671bf0584fb0e4d33f33638c;
0x142930caa1828bd842e28c8790df9d033eefae7b165ddce53fcd46f86d3be2f0;
0x1ae7e0a72e9bad383d09d0555a1f5a0bf1753ce1a17e254b49bef0fc899a6e99;
0x280313df7e066df1cb639a4b30ea2aa78ba46720595d77ee31b55de2a713dc54;
0x1ba62055d4a6b3257fa66b471f11be979422c05d3a839ee6aaffe7ac1c0b247;
0xfddc6ca4b45778c49a7db293c78628431edc830512b7b1c8e5754ed2f39ff04;
0x929d32df53f196e858a97b178b1d47e42247d5dcf37b08b4852ad74f9cc78a8;
0xf967d1490ffa3280071a718013b3ae7f9727755d261fa1d85c3ef7b0559283f;
0xf5490a89b5fc95c115da17e181a7e95b3d3d2229e73581c6bea89a0edf5421b;
0x674bfe177fdc1301f1d49c2879734cae162898d11000050734402c75384c736;
0x18e1ade3d71eef67b1499555516671ec9978a13c5da32b3cc87a373a6515eb66;
0x1f9179afb7f5975be537568da903fe09944e257b2757934ccf2e36149021f009;
0xc11a256c35c638a65f02d745d35712fd303bd7d3137311a1322339402479ee8;
0x2ab557843dbbcbff147b3f03de15fe79e8d40e9cd6cc556b12958bee7a900f67;
0x168dd127ba4582848eac364d737e87bd02024b8924b4adda31a9a37a3415cea4;
0x4523bf1a8f284c6d95b310dec2b54e0e00e59b571dd9d46b6201c18e1b56dfe;
0x2c4d427a7bec8d19617045360e52794c7a1a6de79c4e919698a87ec516366cca;
0x36d01a16f30bd802544df169c77ea02c0008342cd8a415e67e49f2ab20538b8;
0x104dada7b72b24405dc07a4feafa385fdd6e87d0eb0d0b0d461bce56c4f574d4;
0x1d189ce1540193127426e68c7efbf6116be294f4e39c2ac7fb43eece2a5230f2;
0x20969c1c5a7537d61331393f6a5a2ad15ebf51efacf6b61f37c08c8ea0823cd6;
0x1727f8b0eb9595229baf305b3fc99c51d538637e2d2ea8931037c7350d5f96ca;
0x1897f619c615a92fc082a589d89a7c522625432213d6a92fad9e2626aa0ee79b;
0x1f62599143f1f32cd4efb433f14ed14544681878db55878f13e69694a226b3f6;
0x118c2c92848d6aaeda5c8b61d8ed6953b7b659a25efae602f9961353f7c781d5;
0x18997289e946839e6c3554194b87e6c0d4cbf30f47bc73b126d6eebe47a1cec6;
0x130da6eb344dee64037fb513703caa96d8aaba83f7c8099308b4e6c82b14cd83;
0x245357b0b612c4aeb12540db9ae1526513e7885ce50ee8ca0b58c5bf54261563;
0x16efacd482e07f1fee18c96ad1725aaa33cac494d4e7301aa173f1c29a625581;
0x1aaf282a0db417234b2f0afcd782874ec2a635899f3ebdf33f4bad118acdfaec;
0xbb16e9a26f6e4449016a392f58cc0abdc15838cec0863a15cf24737b7a9c804;
0x1ab091e043a032a1a8a17875c09930f2f3f8f014966977c7672e052387a88724;
0x17a1b1b5e07302afe1156372691356ad32f77ab95b6dc1766cfdd4c02d260e0e;
0x198f8c2021281502a922a03b04b3418571d4ce4f5359ca251015e477fd983d96;
0x1cd705bc50da7642e8f41975abb2ac63593ce9575a0ebe0ec412e33c2955131c;
0x2f634bc6e688daeb64b11b71780307d998916ea7db4cd7ac0761a03dd3fb1744;
0x70efde061570346ca148955dee284634e28b4f5ef14d09018e289a5b6b5c643;
0x129e1fa03e4374b6aa7cc2ccbc35e20a6124b84f3df49bbcc3f5aa1c25f8567a;
0x872750e7e4e00867ca29aab19b0221191e89a4e7e17fbc0e0a97a6b99d79816;
0x23e8c43c57b9dc6fd6b899818a44200e2544bf0865fdcac5b4256777fc765928;
0x2a6b794cd03c70ef06885cb5ad01698f2340877a5a848c8f49ede93b5c9e830b;
0x94578409d6462e7e25ad9d0816a6f6e2b198c464796c9c8d4fd566df266099d;
0x1b2b611f853458bb3f92b07d97f4a8d0fe323b635959664d7003ace44646b9c6;
0x205b0fa2b6f2ebaad41abd2b1feb4f7af003b5e73f91d342dc196ae182fbea21;
0x4523bf1a8f284c6d95b310dec2b54e0e00e59b571dd9d46b6201c18e1b56dfe;
0x18813c17a1991709dfc3d21cef51ad2b5a728731db369c24f53c9c18f7537922;
0x28e2f1491faa1312b2fc0756fc93e6faf260cf3c9a798c4c75567e6e2450f189;
0x2456cf94d7ff6e124cf859d5c41e4cf38e76e96c66356df4959af90e84caa6b7;
0x19d01fae3e6bf2a3d738e5adc140ccb0566748abd79323db3085fd1bd3a938a8;
0x15b9bb8c1653e644f0ce9be50bc599be543d181a965c47b1e55e75c128df6451;
0xaf54a3486b44d6cd344d767948c8bab86a3b770730d578d35c946076ba55628;
0x2c403933d9fdce9b2356ea5599a17ca6fa2c527472702d33a1bbe1dc6481585;
0x1f8600480399291bcdb8f2bd4410cac16f4cc035599a6e7f7fc3896dc95595e4;
0x20853b736e1ef67fc8dd165d3fe11a6734287efcbb6524fb6eae1a66a7b1e8df;
0x2f4630a0f0018b04c6bb77e84776e06e3b2452d47be2d16220ead1da61106b20;
0x2b9036c48f9af1b32085e3eae9f541c4ea7b650f1a5226ea661b9125215e8995;
0x16e06530b370ba9ce030ecc30f063bc064d716de78cd74c2262d483406e0e68d;
0x16965fc262e0ca879a932d721e95d16953229eea7b3e95cbe325b48bbf4e851f;
0x282361e61365be447c940bc7b8caddef10a82e8a51423e7ce17f4ccc8ac6826e;
0xe5f05bc3d2f27eaf48ba6efbb95fd33d29dd9d371afdb46065089f07b5aaad7;
0x45e49d05e82f9c8192a3fd3c936e73ed07f0edd6db0007205695a23c9272ba6;
0x1aec3601dc7eaf614f812cbc025ea069d2ad1eb2b1c8bb602500cdc8b4ec97d7;
0x29182e5f19d8e48e13b7a98a19be4552f09b452d0e93fb876b3672cbdbd48d82;
0xe82f9feb507fd178f0e2c0c324e07dcedcdc0cb2ad743ceeb4e2b62dd1355e3;
0x9c0bf03083c7a7f84dad628b3528a89001d43100039491bb3729319bd75f304;
0x1ac08c4bc322282517d3e9201c601823165882a09f83e43fac846c1620aa01b8;
0x25661bfb76d976aa63291de2624e7f306a50ec4a32128a39bcbb6cfe34a227d0;
0x2dfbf71289f57fad67be3438cc1f0dbc969529942a623a899addfeb77ef1945e;
0x805aaa9f12a17bf01288cca68aec10cf08db6bcf49a8bb56edbffb97f6886df;
0x2bfea7d79a17720df5f215d42ab5736098c83da075facb964eb2fef730b22564;
0x297315ed7ac6f9bc92b4dd4a4052519a5029ce7c97eef84ff11a461864dbf9d8;
0x172960704ca74222cdd9c8ebf1821031312b4c21cbb282c1f11cdee3ec28284c;
0x14b30a8e90ee6a1e22fde21503094bafa3d61004b38a69cf94b493e101a3dd29;
0x4523bf1a8f284c6d95b310dec2b54e0e00e59b571dd9d46b6201c18e1b56dfe;
0x25c2fb93758a36327dbeb7dfec90e331cad05a04e5c84e6b40e65987d73ee448;
0x15be6f22cbd5f38ec70f9133e8392e8fdb41f28d831c27bcb36e415fcf9fe843;
0x1d2187e9af970cefee949d0888c73dc41e7e257e327a9f20e4648928551e062a;
0x699ddcb91e856bd25bec8b21980bbb163d38a20d47fa9d813a32324e80ac79b;
0xfced0a1de64093947616ade5773e0f7ba22eac4862322dd5ec787fdffe3325f;
0x27768b29635a400d365c934202e4bded719df8effad85e6eeabedc24a4154888;
0x1b1f6642ad87106cd16ec5421b38c40392423fe0d12f282efc8474efeb957d1e;
0xa3e365d3159084cc673a44044bdd4260e1bd25b74f746772a3c77ef3e48cb9a;
0x24179d5e64991d45a0634da43510ccf0a34059695e151682b9d356411edb7cf5;
0xfbbbb67aa88655564de38814ec6376f4da97ee274586c5287c163d1b0f98dd5;
0x11edd5438d9b4168d6e2bbaed31f31ea464dbab80ed5e702126fd82ed38350eb;
0x1b76cf5e219ed4bc311a00cdb03e28ffbf86542cbd0252d0715bb48469c15dd6;
0x148437b32c2bc48962d356ffcaa4edc05be984134fb75f3956d5d91044f79393;
0x10942207a5f66bb8252988730fb82f23a45be26389489f66da6fa113a40ab0c0;
0x124681e28623f42196e8ad7bb2374c77487c37485bba1a9075859582d10c061b;
0x2f9dc5b15dc408e7e97ead3b9d8cfc654f6914922e33d7bbf4c061cd8583bb2e;
0x11597e8f45721d0f8a2900ec7823302003282aafabbbdfffc64e5f3caa274777;
0x14ee771b1e80f23b2fc58d2f98d43a75dde2a5c7d37fb0ec3a90b661ee4f191b;
0x22142acbf84a03df8d16dd2ea6dad8b4100f864e5dab2f6afaa6a4a36612a4c1;
0x17cca25c3d45d22a57fe904ab20f916d9b1890d5b7f70f56e5732325a790e637;
0x3120041b1c3a4c87445672333283fe28d18f05deb5c7e9fdce6cda7fa4d069a;
0x965b18e93bde84a1d8424a74e69eb6aae7a73fc920e5cf5e86410a46511ffac;
0x3601f2a0058f85efa835c5ef0276719f80779d854e881370a3d4150a68a4b65;
0x14f0454cb6ddaf09579651aaea20532036ee6f54bd9893614b2eadcfc041d756;
0x11844e3d73731aa76edd24afb82a49d60c861eaa25579c45fcb23de6a45667d3;
0xd49b3c8de5c8a009efb91116d019f97c01ee5289ca666b6807fc89fa0697e32;
0x15ac66208d53f730d995abc5cd72d50ad90909c8cdce17c5aa78bc0b274a8571;
0x1c9c5cb02fb78be508a818a070deeb6963c687dce2975aa4593a89ff1ea675a0;
0x4523bf1a8f284c6d95b310dec2b54e0e00e59b571dd9d46b6201c18e1b56dfe;
0x210b5dd8b7bfe15189d3aea8e53b5bb7b462204e8eae1f9596bfbf1cab727bcc;
0x1e72e11f21abc22a4f68b374dd8726a2c72f9891deb6536f3a4bed98cec40858;
0x1d0ea48d109e37ba4d144a4251066d6d7b7910bf92f44aefe7081027e1e94ffb;
0x19c6c9e54dd8314a776b1b1e8d423cb2fd5b6d4951f3abdf7176875a0837b3e8;
0x1722bd20050713407ab428b4a1598dbce86e6a04f9093d0d415b546bc1d265e9;
0x1bee9ee0577f4a46e9500f2066dfbffcbaf775211450f521e13aceacd519010d;
0x4f1c326c88072a05332ad14d25ede90d430394bd8e80321dd6869a561282e37;
0x2db49dfe6b2f6f8f38102e019206a908503e268cdbd5fd7689855932394952e5;
0x18cacf5fcbe1e383706c2ae6e294c691eb86074e611439200f39b49db2739409;
0x251e39efdd606e5efeefe439a1d01dacfd6c29729472ed884160d4018d1e510;
0x20ca4abd314e386d0154234a94bc5b85522a1730c005528a74d7f2147e449437;
0xfd8d3092bca7b55b7ccecf94172ad86eeb0336257108ca5a1786cb88be7249f;
0x14a262e3bfae15e0345a1f837f1343b2b245fa3dc706956bdd64a74c48e86e23;
0x21e54491928f3904814373340aa65a0f97be52dbead9b91011fc454b2dc8f6ea;
0x1a41918b8c68ea8d675330f618419302cdb44d7c4821561bf3f75f10824cc06c;
0x21930445fb5f525159a17da94a2dd4d28485794801b0c9a694b03b849e0878da;
0x17535af3d952f2a356554ad0183697eec1c86ed9db1121036de89df8f758c7cf;
0x1a82f3c943c80fe4ee37b238146142decb389d69918a0d7abd97a691e2ab80f2;
0x53b942c6f210f073fa9c58f6e607da4fcacadae35e5bea34eeb6a54cca2eebc;
0xd34f91b743a6ba52c32052bd0623804fc8cf2bd384bc98002434a2c9614337c;
0x2749b7c85c71adfbeb5900b6334c4dabc9925e9885c9a525e74f1edb1e630a8f;
0x2284a0f1ee6a86ff447d51e642951ca76a50fc3f4c0d009228aa67f9a9b1f953;
0x22c7f25053d11e887909b02af7de7e57f5b5f9d37ff75acd8ccdbb74b717e23a;
0x29c30ea916675045cb996f3d2f3662cae115e6822329f93a4d159f18afcfc49b;
0xe555cdfb1576e9bb5cb70a9234a6e9238b912c9d65100f2dd5f3130bf5a000f;
0x2f16e6a9e0bd6fc0b41d91bd065f60dbc36179607545fd58f0b1e6efbc86e172;
0x25f261e99981d3fd2b094a13dfdd14e1ace2d0100973ce0331081826b8c69ca7;
0x14d1b4bde07ea82505ebc4f4f9b599ca214a099e081a286a223bf8309e9b1348;
0x4523bf1a8f284c6d95b310dec2b54e0e00e59b571dd9d46b6201c18e1b56dfe;
0xc2161d0dfe1fb1b030d25ba9e72e2d0f9c7be11edc3ee0310dff7dec3ed10e0;
0x1de725c7f6c995721e1a1d0a90cb31563110eeaf81456a3f8a9809440c9e9e14;
0x12389968950116f0177afe2b7732608bafa5e8d50393668844f9db50455729a6;
0x17aaa2062cdde57f4a67c7052c0990ba08b3e874633dd41237cb6094246d678c;
0xb9984737ec0a6541f484c9fe4837a7639b58d017cdccd2beb305a937a0b79b0;
0x320982d756176f852dcd74ce8be156b5d7f92db99df5ccbc5cc96e93d83773d;
0x2a4319d0bc04e4c18b9b105983c8744ca4cfc428f20ea477e9a60441ca15cd52;
0x182b9434e89db547bd499a5122ad77854562962cf0435e21d960d1c4498edb5f;
0x1d26abc0becb0e422d36f4c59b34f6fe77ba771192b2fcadc8cd0965bf0ccfb1;
0x958a9dce1b6a17620dfb54c364af3ee428dc932d81d1dc4669503840dcb541f;
0xa8a70a8379d71136fbe77851617cbf9d52257c32c9c3ca4c8078c90ced7160f;
0x208a9a840025bc0c38b883213fbbb42c311c4d7a3f1c2d53924999892fa9f931;
0x1f1acec1766b25775db439929b1550734fd8204b77afab09e4251a2e1e123664;
0x387e51920edf06b64c6bbf3aa91d6de80a4c3a6a55493c4cb038f55ab379b97;
0x283a3b099b37a60369426569295e1919635a5f557c26e2d9bd62024ed42f6cb1;
0x3a82b07486a61e769d4f4a9691129b1497ead1ea2dcd4d44fdb626b31fa4c2c;
0x15aea7b6a44e01bd2a1993a824bb751773d6ff20d3459974f00602982b20f837;
0x91383aa8ee58024a7d0eaacba661fa0afa042d4490bb02061a005799d8926fd;
0x1c4738d32fed84629967a249121d25afda758ec66b825730f4c0171f05981826;
0x5e10a29beb202a5238338a3cb6f3ad81f78d044a791cb03cfd63367678373c7;
0xe3405582a614f4ec28465cccae382ee3e56fc67f4574846f5a011c2ae4bb316;
0x13c2e18736871254346e7951da5758a3bfdbaea4a37c62f5204e2d833c9ffec6;
0xe892a08fd4d17f277eb16d8cf6ea60a8ab263ed317c20970c54e02655bbbd4d;
0x38c23026542424fca9729f5959d6b7a300d7c8663dc2de7d63c98fb737c885d;
0x242560875a24ccbded928c30e4c78e28f36975b1767933888f3a3eedc4e56759;
0xe32ec6d6c80d3bac0aad1635fb195ab640de35ed9e19e60033751b9b17b7938;
0x127f81d915a7546cb2d35659181f70a31cda6b1c0f011cf3d4d2d908e44755fb;
0x2feeb1c3f308139ae4f23ced4a2bd3df75c7dbe7ff9d89ab31405ff4e1f88034;
0x4523bf1a8f284c6d95b310dec2b54e0e00e59b571dd9d46b6201c18e1b56dfe;
0x1abfd157d65b0faade670c600f964a0582539691f909a27f1342ae7f1d1f1659;
0x287edf9809122fe7f424748beab604c04270dc4bb549932ab49db3e42ccf675e;
0x574627cd0b8f02033621b45ee0293376d29811f14dc701b6aac4565c5e2346e;
0x13be344cefe3cb23d84de26cb8dcef9ec21de4e275675cb81d8e071b52dbbc54;
0x2bd04c2debf244a79c22c363e0656dca89ee4a641137602268796e048f222ffe;
0x21671759ce3b7fa3b8dd29ef4be836d011c802e90a5bd2850db423f0b84b8f97;
0x15e2eca1f4f24c534ee99f492613185b6eee35daa601ef5c73ccc1b2183b5928;
0x1ac428a1c403acacea5b19eb5a9db448badb082eaf12a0bdb39e33de1b2acff5;
0x18d056fe0886b5342e70987aa78d6760e87ebf840fce54ab3790159a2359ba63;
0x103478de82699756c898690ad0431b1a62d0779b072728b2e8f9f1c3dc0fdc44;
0x3ad3345d4e0b9af20a5acebcd23f067ccd8aad3109ac7d180430242a083bef3;
0x84a2a0a197a762bd6c633ed789ae1c92af3d189421801e2cff4ca4cb7bb4b9b;
0xb9fac3f1b5b7769bf369780edeae7d4009586d8eed37df7613d8532240a4b2b;
0x2b6c5a5b0b2e999c52d385c1ec41bf6fa8bee62c6be1e4896ec6eebcb6577f;
0x2b891566a83432ef436b4c379f8033c4297d73e413ab6d3dde28a446727d6d01;
0x215093cbac4cd6a567810f829abc65d556c7c7d81937770546c68fee9b0bc5aa;
0x59542cf02d9ed7aee0b72da0ec5092043be68c53e4207e4c9d05cdee2620c95;
0x2c5db84b283b99e21c2d7387fcbd3d71bcc262ceb616379ed537e29d3d4f4511;
0x23a84bc9d5e7f467120927f9570e3c4646a6ab1d7177df4a0972c42588ea47da;
0x1af62c1dd6f9e0526f8c4eb716f2cb087122b6efbab08fe32af30d76825c7e59;
0x240df1209a4dc3cfa2e57e4e0b8369b81ae2d530ee1e022f45476ef3d5541f14;
0x1d663e716dc9e681f325217cdd3394e128afe26e727a3e74df24263781c370a9;
0x280935cb8ce696be4fa88e7502cf01612d955d783b8703024a85cc776ba98bb1;
0x13dcbefa8c14a98bf73e722e6aa233610b00c4687a29badca7ce239074b0b6d8;
0x10184429c03a6a7dcb093b06a4180cf8c2b1ebe3786a5a58149398a80bf85015;
0x2b9b91c8e29a94d655338b761838c1698e4b8cb751a103b0a35bca7380413e61;
0xe8036f74c51d11dfc744f686ee20f62dfb45bf99bbdaf43a5512b087566369d;
0x1e20b85a64e45febbac3f5fbfbb8b1efc111cd57c8cd56e83dd51bf62a4b2903;
0x4523bf1a8f284c6d95b310dec2b54e0e00e59b571dd9d46b6201c18e1b56dfe;
0x27d3fefc3fc713f9ddb2e3fb5a4943e55c336d9881f463532e63bd3257825095;
0x64c66b3bb1fdcd169d3d15cd51d5f7b598642e290207911002b652693f48a9a;
0xe9a5387f39fff6e25b4c460cc50c1d9a9d772e889ad7b3d357f016eb7bbaafe;
0x30372e3fd7ca7cf85f5c5fce64deffc2eb2f6bc1f0f81b9447ced714e4dd47e3;
0x1c698c1fb76b93d6036f01961482e8db670da8178aa66c57ea8d6f02218046c0;
0x165745c3218528545f671cd07fe2a521f2cd6a5cc268601b120b9794a583b2f;
0x1bd6ac92ec06f6ac1f1f348ce1f5608e60679a7a13c7d37f881c147233749072;
0x646a2c8ed477619f611baf19f5f2315d030d93485d7c72a057d7521b05126cd;
0xc5d7ece37cb949c5fcf9dfd72b620951ecfa5411f8ac7f9cf6706346077b2ee;
0xe0f95062611089d30cf1641ef9f5142d5c09677428dde2a5b70990ce98862c1;
0x1167dfcdef684e802ee0ad2745b448bc9488677fb4a9f21f4306ad438e8a7154;
0x8b58d9c87ea695ddef4557a17c6c6ce8b34b20ecf1dde355d4f564f529d9e52;
0x2c0c0c0caa80990aa8b3db0b093748f6d4148b7d56d6ac8448363d592d495bb4;
0x22cf8f510e15dbb54dd7aaaa9acbb79d93c91caa6790069822f17eadc58f3bee;
0x1dcbdcc87c651a39a1cbbf4a2429512ef5d3d5d2ef8c2c272bb11943f15dc73f;
0x268f76f1dcf5f445f31a5c3e2f77f9370f0c039da51a0bcf499e89c50dde72ea;
0x12ea4be23cef2bc588a2c5d3f0a473d86fe2e62aa05e4993fd8e3c3a04fc81de;
0xaa8a1b42480a433972000e6b714bd6205cd020e387ab80ce788b4d244893d9b;
0x9c9635e93ef111fc995b0f41181d644507a96adc5036626025d14c67280340e;
0x2f19542276afae3f9bf2d8bc1ff25277634b5e44631c88a3ededd309a35fc238;
0x2bf08e4ad9318465d011b6fad36953dd572e1a06e6ae04acbddcfde42ea6c978;
0x2e415ee818590fff4a8eba14dc2db89eab455471fcb48723a23d28bd07f22181;
0x2ba1b1348857a0dddb145fd370c4a5145794b555fe90aaab30eaabbb831e57b2;
0x2c45b38c22d1834fad94146ecd9e2084fa0801d4d2500d3c9b02dfdae2c686d5;
0x55fde4fa51238ae151360d0bb3e53d6bc88454434e0a3e7e81886971f44f1bd;
0x1b500c091d518878d60bb9c1e46487120fafcc07d99070f6abeb94cf72d099c1;
0x1507c80ac988a1d66a9b7d7e0d489e3dfa903dccdd39cbe30d66e70a4465cfda;
0x2c5389c4c3d7db5534ec96975e24b341bb8a3950817c95fa6886ffa17e3729ad;
0x4523bf1a8f284c6d95b310dec2b54e0e00e59b571dd9d46b6201c18e1b56dfe;
0x220d668f431ca31318ddab3a7d699e1daccc2681c19e28782245bf06aa393eee;
0xf82c73508a680275741c5449a2108b0b4deabb7adce05695c6a9a56491b09c9;
0x81d2dcbe555ead7fea3650ec79e20c01aea1bd8694204cfcb53f440ee9f0c4c;
0x12d6def4feb3b9695f3a33305c190d41b44360fe4f7edec96b9ac2ee5d19d237;
0x188a70595236991b549396dd83dc110ab7848143320ffbd8bfbb8d067daa0dc2;
0x1ee5cd9ffc83473d252da6d5f220a32b0f14054ed87e47d163f611b0a03c0500;
0x336f443081e4e4ef2f80daa0d427376db59a5cd44d09c4ca4fced8213c49792;
0x2e31f59a54ad75b935c7968deccae44c7651c6989e7a194d8eb75db56f3c8e6e;
0xfc66fe6e89f9c6b8fcfb1b825a394b791404b4c535db02105a0cf9b814718cb;
0x19392614602253f18fff6c6add01041fbf1ac573c430bafd1be9d0bed661f9e;
0x26bc696c9022801b5558f13a240c2f2595cba3d923740bb15f857012d65b4e30;
0x3e41f8254eea920e176dab66a494aac26a9050a6083321aed3e9c60da60f30f;
0x277e13cf936573c9ea57fec54bc20dcb76b9bb22e43dd7d3f0c88ccc4350d4cd;
0x100790eb28152be3bbec49d19719f1e819559e0b83cd3fa5f55b3f11e2ba7c5b;
0x8a5bcc49a8ef4b71ccba577422b91bf7b0eb873ed4f819a03f84b7b22b3748b;
0xfe17cdcc7b34315c294c9afd7ada649e535d66e18bf207d0627af9b985f0fc0;
0x8423e16c6102fbc4eab76ad8b96e75ab86107261c8be93c4fd3312a65ab5bf3;
0x24659f4e6909f198d2da3d29a4be15ff86b279a012972befc5ab6d55e6d38807;
0x145fb5febeebb5b6feb24341d5ad656cbe31346d4146c778f495fb1948270c4;
0x13ad1e400a7375f25b79fffb3e0ad1d1022bfb6eec76f9f2762919eabe8d63ca;
0x1d087711ceeef2c9423d13cd5d262f9c6d536fb84d1c171bef1feb446ecf88cb;
0x2a914d202be77991a1357bb453bd09062b6073f195f314e552608fafea4fb38d;
0x1660b2ad261b31ed9a13147bc1ee06a9f186e70cd619111a21b51b33d2d1169e;
0x1bcc7790328fa163162a0e8544eed39b1a7a96cd61e0aa49b117ae18af29e75f;
0x2ac02b109eeacd4b06cb5378f08cb37d622a856d0629fd3bc03d8e2cabe54ea8;
0x30616182ee240c6e1792a51a9bfe54aa6851cc10b377c468021dccbbfa60a3fa;
0x37e7fc430f341384ae6aa7f96a7173a91f7d896e77d464e1f8fa8c470e187ac;
0x2c238e1df2dcb6d7c94bff7c9e3a4951fe54db4e926c431fb6332e3f6ad23da4;
0x4523bf1a8f284c6d95b310dec2b54e0e00e59b571dd9d46b6201c18e1b56dfe;
0x200ff178d06931904472b00fe23a8a113d17ceb33d6d0c910068fd5168a541b7;
0x2c3afc766aee27aad8b1ba9fb14b3d56e2217c9c7e9ad3363d56fe5b31721680;
0x2128f1a125e0c64edcf0d03a397dbca56375f0fb87ce41480e525c2470391e7d;
0x9c62fdb776c4fd510eea089910bd2537f8efda0286768d88a2c9ffd4b8151f2;
0x20426c548d66b90866a7ecd77278c69e33b3d1ab23f0801342e4064b3be82618;
0x7adcb9b76dfa25de61d2902ce37140c9cfc7d51fb2f8ef8e2317163f06641d9;
0x914a79c6d02adc94876ebafea2b8e6ada5ac238e7320147fdfda370afed4e94;
0x3a5d3e37105e1d08281bb2840176dc462a386409ac1e7eac82be7dba931e9a8;
0x12aa83b029bfb3b8f742e689995ddf71c0aa28984dc073e73a38aa8dd8a72de8;
0x1b293978db1884bd8802eb86d98477a690036f148d0a07b165b9437a87c8d30;
0x29f5d2ca3bbe30251e5228e63e1eed9c906c4d98647410c4a3c74315101fd5ff;
0x7bf47ac1aeee2ae48457ad8031ce6b2c072a65acac7427ef29ec2166c2d1f1f;
0x1316c94951ec5aa5a37e96922334dc116d22f3e3fb219f8195e25d93e62d282e;
0xe5a891e769da4c1b0d10fbde39d81225fa6c48216717edfbd9443541130abd1;
0x10a84451b6d2e943ef60255bb33321f4d3eae64981695a27bd75d7c72cd85d;
0x344e6fa9e638ded4d99a92b2dae4381ab2401aefd50558fd8ea90764cade9b3;
0x28a513ee6230bebef34ead9978b224ec3d8f252f2c3956a781854d04a293d5a4;
0x1e21c489a47bf56a811404304e04714ece44f376ce998e3499ba91fbcb0fd207;
0x2563badf855b5dd41a35570028bf5d97e9430a60962fba0441d52860765a4120;
0x209333ede8112c2a18bed033eec46e7899c53627cbe5d7ff49e932455ab51612;
0x1b740c4dce2fa0cf3af1053e8da92456db1f2e31c99caa6918c8297e3350fe88;
0x2310a0173db9d135f259497b3f27551d01feb64d4e0cf2233f7823c8d4e16219;
0x2362c8df290b748b65a8680c1ce2c43c5fa82837c5f84f8107c12ca823709f6;
0x24bf53879bc6be25827e47537248702baa3a4773fb5c17476e142e70ab17cb69;
0x193b4986cecdda54bf346868bb20f1d62e3e795ae49a775191a01eaa4bf095af;
0x171de60c3b1f06108a0ea4c621016c0400fc9b96af211250f9c25062aa3f971c;
0x170208c0bb8840367fc496ede9af48ef98913cc6800a76318fd8fef208860c19;
0x19305439f5cd0d17d75d1981b097bf61709a427cc09e83e6e983b41bdee4d8ab;
0x4523bf1a8f284c6d95b310dec2b54e0e00e59b571dd9d46b6201c18e1b56dfe;
0x14d4a3a0742364a9f659b29349bfa5455751e48da07705179afb0d01e8989db;
0x14507c7d18dbf71926567faf318f25bae7d15d1627e930fbef4dc76068a1eb9a;
0xab92e37d54cdf29da56dfe18704f6517ee8894c9db8e42ac9d3f8c80009e6de;
0xd3a5cce50b706d0e2d5ab6d99cc5ee19d414a99901ae56d8ed2b90c70161473;
0x1faacbc551048977f44fdf37a9c68496027dfb6de98761ce68087ca0892cf084;
0x82e2d6fbcfedb2a32622e4c9f6d4ced6cf0a570062df9b838c4684f4a8f6c2a;
0x15345de0a699ca5370e036b6b65ee4d4d3412d46901b471ca44787cfba69d203;
0x125429d4185d9e71c4e428cc2cd6b98da229e56e941f37b846d46c6dfccba94e;
0x10f072b77d74f20ba0d03b4115303bf37ea98a20a51f03b54756e770e3503601;
0x3a5a00dddccd6eaa0b88cc6ab2ef6b0452a206a04bb5bf2361baa3f2136b2dc;
0x301071c4a6d3e6b3e274dd6ecd6f5889e65e92dcb190e6980d8765f946ea5ff7;
0x497842511b8c65d38dd10ea79c157976239b771f5ee8a72930b45c15b0ce6e4;
0x1a7f3811571bf5bcd0786a27a61702e4165a02f734965b52996a6cbc1abf6248;
0x29b6c15ea8aacdc694b94efd98045716dc81aa60c6ae224970ebd0395a6c2039;
0x1ac6bb7492d1e4f715604b57a281164ac925c56efc0cd0fe495e189914f1478a;
0x1671405a7351ef20e4b093337091a308e1858d50656a24a08993b416dd0750d5;
0x29784e4a72baef66066c6b4a580e5ee0d6010543ff0edf90ae6177bccbe3f34a;
0x15bb878d0c3129d4ae1e3203a7e88cd90f025c8ba652403e8be7241c2908a334;
0x145ff66f889d0eba5e243c1c4780f5ccefc25775a82f555aa6acfbb1e6f44792;
0x2397dc005d52a49fe64bcc7e71398f4668e4b1d7d23e2cd41f5a240b7fd2015a;
0x104fae947bc81f5ebb40171e9ce8e51d91d558d686cb92d39ab245db3b7f980d;
0x11d92195df064b6bc2f2702af25e1d57a49adc4774f769d32b632ad5cb29c38a;
0x1de8fb3988b840fedd6f1ec8f4156fdcadb7781b895ac7267ff16635a57cfa81;
0x27089624e599b1c50dcca8257a778965238f557d50adeee696f52f5656affbdf;
0x1e5b7ee2346227404b1492732b5e6f36722d8bb7c99f2ad8f48c6123519218c1;
0x44744daf2989bde9d3d36878bbd2116fb0e6f03f36ec8c360ac7180c6a87a9c;
0x18b6b8ae538910b9634a54cc1903d21f0e9a4626abe012f424ff26e7a4f389db;
0x1ea586928d1078d44a1a4bdbd2e566b924a14187c428717894ec06f47d01269e;
0x4523bf1a8f284c6d95b310dec2b54e0e00e59b571dd9d46b6201c18e1b56dfe;
0x299ee7098c20a8d8485fb78b37b5794235fb37625243103d86edaac65fe67351;
0x173d58cc84bfde0327aa48c131cab0183f9b471f25ecfff26cd950bfb4c4f744;
0x163536baa734cee7b3ed0d01cf2dbefdfa8e8f5b26e6fe1eac9411f87cfbdb7e;
0xc348237f64f9f76bae51d147a191aa505fa9134ddf66975b7f54ca99b377894;
0x23efe24fb00b171697d7a06849d9eac5e14e032631c17ac0dfd273eecbaaa293;
0x1e7878f760e864ef15b4039e253047ddee33b082b6e3ec3828e35c184d455a66;
0x2bef7ad013467126fe0cd58abb1dc92d50314c8ae9410163fbf8c886f86fe02a;
0x2202801fc79b3c1ce769d85ac6bbe8b8225e81bad63c2a26fdbd813eab14a147;
0x12a9c7120c9ac72e58a53bec642e04890a20bd2080b06717d971c5cbc74e9d31;
0x2dc68da29a775c40fe59bfb40d1bf330871f453995f7cdef71b67e14356086e1;
0x110afe2764fc7945d4fb2f8bee04cf7b8cb3859bf62c54bb37d0cbbc8fa283e5;
0x21ef54ad10c3962befed62137a17e8cca0ef4476d68f57cb31290cbd089e9123;
0x1c4faa0f27dd17f4d20fc930a295dc90afe4b2b319b72c7ab3d5d67fd659a716;
0x496dac1141cce7811aa16c3cc7ee5bf926b19b57e4c2a3fef441f6a4f3e5e0f;
0x1124c584f931153f9eb51cc7bf62a908c7d935eeac92ad89be0cf7b3b70bf0a5;
0xd60e7160e15c49ac0535919cfe58b9bba626b7a560d187d93c02a2013d7a25b;
0x1fb86c2a75e7eb166c625ae15189b3395bbac9ca27fc7140420929c57f254dfe;
0x302e9af922d3af8a056f402150e34809253afae3405b769561958e2ece0eb937;
0x208a3e5caddbd869846894744991f2d5b855cf126f2fbd0da3c7655f6c44e6a7;
0xfd167a0ef538adf695b83b0c7e2b65edf204f994296f4154adcb45d5afbd5cb;
0x1231fcf2898720a22a2a98204af8bc2b06e0cf72daacaac1af1b08d1310e2b30;
0xad52af94770e15ede8be17b72e4f2bc1bfe73902d78b7f3a52a254898131b43;
0x63dedd90276c2738935a71b3acef9d2f2dd3b9bd49e54ea8b62261422d3d77d;
0xf58416b4af85510a6f3becec11d8db6c097194ed62d4a04e5a2a295011a3bff;
0x15933b922f212592a806daee6209c9a02ecb21ce2bfdb1353862d7629df1ef97;
0x1228654cad70cfa7a1f1f30b4cb5d9279d2f49bfc233411477c333cb630256b6;
0x1b099efaf6a089382b0231daf9a65505b77b54b6af4491365b9316f988bcdca6;
0x75756cb31cafce46aff3d873280c21ab9253a0c587f5a5e107364178091e73b;
0x4523bf1a8f284c6d95b310dec2b54e0e00e59b571dd9d46b6201c18e1b56dfe;
0x2e36976f35a34be56bf3881e93370f08203d1f8b0be967cad4ccf4d9d2c83c52;
0x1650b34e0e8b2ad5ab5de19ff253eaf6dcd3e20d22bc69539c834437e0888513;
0x2154f3f4c1b5b2a42078df70bd1c6b4f042ed01adcefe5b603b4830008715af8;
0x281286cb63e657f78e369c0f6db3c980cdab1e57fdcf32505ccc325e7a9e8c40;
0x3008b3f202e3d206436f7dac2412d51744cccbc8e1ac457c11e0faf6d6060cf2;
0x2c0268fe5d032bcf88a2803e4ddd2f3e1dbfb58915b47d0fca518043272d5b27;
0x22e8ab4fa7bac348cedbcfd376a8ec6512fdf78adf936f6548594d6584953227;
0xbf717c0f092d04fa4598afbcc898ccbcdea3eb9d3d1f5042b0f325ebd57028;
0x1f500e6028390530690b82421f359563c768803db6fb3d0135c5366c9cae12c1;
0x1b9881d9fb9346520e1e411de0696df0a4dac3684a15c02154dc0e7fae528484;
0x24ecaab85ce3beec4c380c207c564f4ba6995c3290f2766a89b73010eacfca19;
0x756a8ad9f562abf2600b8dc808abe6a2bfb0d4352824251e07be2c0e64dca67;
0x2a1d50d0f3da33a873e9dd5e5e2966bd40445c1e6eb9504dd4b276ecfa0b318c;
0x1fad2242540d4366495a5ad4fb69ad25b8261d2e1ee56d56669be07686e9217d;
0x113ad8b46c3eec20c9965b5a7b2e8a51529871d0401b4de6f63de9e5211623e2;
0x1fc50a16dbdfa1c3b99038f47f81a1c5d1ef6e7b221d4ccca6e821220130e000;
0x1214a9d6d7288fe85651a8cb83048c7669c83b5ed82ca2642fff01e852a44b4a;
0xd421a7c25af5538788f49475836712af5da156f88c5867568cd958e305026cc;
0x2de8ba83d2b6ab6a711fb9230adee1cba46de8c930c86d266acb8c1cb9684e24;
0xea7be82f1cb493b1bbd83ab7ca285bf0a1559ea05c3f59827b3b013d0a91fb2;
0x1e3ae7e5775d352651d713ebdfcebf9ca8e905cfb792bf7874239450f914c8c5;
0x5943e3618a32cf050018a4e2375f4d027b8c14ac82a0de57cbb90c5122a64b4;
0x603755180f66e98215d61e5346b116cc00cfd058274d7d969b3af95e78bb335;
0x19817db66fdb8215ecf70476c4044c3f41d78ac5a549c684e35845947dca0b11;
0x73965f7a9ba8cb33a955d42da55fd7c37a3f0226b029d36dcb3fbea95d642f3;
0x9a550431430846b6694125b5642b00607f36a1a29485361a3cf427da77eccd0;
0x68eb4e9d6e0a588b61a6ad501f380da0f009067666c0853d156e33d59c43515;
0x225e00a0da5a7f7496b70d0923a7cf7ff332bff06958cc0f3fad439874f6024d].
Definition tabC_16 : list Z :=
[0x11e27da7b7ef964948a332974d07cceea778bc33aedbcd09de222fa22ad0b101;
0x1f60381b83b44a8fe65a0f4142faaafc5fbf55f79133c5740c53f036a3065b65;
0xfc1e1ac8ad3524ebdbfa45dcc51576548234d0292adfe1cd70a706a1b6dadd8;
0xa40798ead3a12b78bcd8f10bb15cb0c426bbd2282a81dcdc070084ce78b8d76;
0x2dc09d3357051155987ea95594436b6cbf393b0135f51e2f675ea5f462f4a9c5;
0x104b9241d534264532eda181de1a154dd175ee150f349033e46ddc54181da088;
0x127a6208d98f6cd387b802fa44cab2037b3b91f0622f17084f1b8d8ac9d12698;
0x2d075ceebab54341dc02fb1f50d938ce1dfdcde659955a930ec18f8625f86d4d;
0x44fd5c2101a20be2ad923bebe15a477f40c6039a3dd0d7443fe72758042010c;
0x2b302c8511fbd3702b815564c5399acb8a8f2a8eb77f96c7f0849628e09f9bc8;
0x7cbe339db90599455d1eded1e8a870bd302c92a79b1d0f4ee87222cce99e22b;
0x1326749312c6e8bd4ef24c97c809f78ae548394c94c3df2f28ffa8105debe211;
0x54021406b8d1f8c7080e7c245304e4b7a797cd236dad92d929b223f269780e0;
0x5c0e033b589f8ddb23a9d559eaeecf98691a8d018f1279bf406d08f2787cc42;
0x2508a8cdd450f969b61c749d566c9459a16ead4330e35d5415b12eca38584bb1;
0x264dccc02e574ca7e736da25072bd8fbe9909621fd4f4169b2bae8d368ff12d2;
0x137199f796d310d7fe22d83663c8e607d342407dc28c10d27aedc4a45c8ff70d;
0x2f6877c1a818cf1f087343dc38dd120833574b9691540d03128a2d051c1be240;
0xf418e13a90e4295bd384c4d4764398e1e44865058e6d85f10396a7cb0716494;
0x1a6864de7ca70730f8657bed417c428aa5dddafee26ee78b942c86be61a962c7;
0xf8be2e253cba2f128e7365d8b1ad95f8986968cc60224445f2bd717c26088d9;
0x16a8d9f265a66f69fad6d7b744cf090e490552c6d4ac77f89f09d0ae70095a5b;
0x25f1a51ea7f88847cd19c9dfa9c8587ac7a4f4b8a10bf900d20270398b9613e5;
0x28d4a6eebf392a9378b7ad9aab8862245279a9f2c0b1678cb6d3141ebb14644e;
0xad7537d9d5bb7e34936eadf66fe924d80c893745fdcebd5ea08b79f9137aed5;
0x6ae9e1b3a2edb869b5c6f231fede58dc7dfe42bf3802394ce5d62c3a65567f7;
0x1f5d4250771eb130c046c8df1e77f7f77da20709346a334dbd22c72191045cb1;
0x14bd6a1b5678cda4ea3a16c3b5abbf38ee1d82219849cc37fbcbd934e7de1162;
0x22905156b6bb357e2727bdcb8f39a66a09828307046296c6d5322abdb932d0bf;
0x2023fcb87f89e6fe4cefc3d315249ed8133834b56aeab6fe07b7fc246b096c;
0xeef78e23ad00648fcdb65eb246c737b7b4060b37b6b845eb914108f1316646f;
0x1f3030be5da4e16c0468d631074a65f5457462fd6be6db36c3a522453164e48e;
0x10dc200b8c1b565d4c2e88d5bc1bad12c490a20d05dcc4cf55e9644f3534455c;
0x11a9cf0b8e97ea26ed0d49abf3a09233703333789a390d72db661fa70b1cc2c6;
0x15b97860d1a835a706f54a97ff04a15c69dd3beb0f86b51c83803d490c2cf2f;
0x1225bfd0d701b349214873ab03716319d9c96e3cd8d962028b17db843e4a7f19;
0xf4ebaee2abcbc49d408aa52c60dcc093cb0da884c4a92d0f280d7b100600560;
0xadeeea75944cd5d35045ec8cb6a57487287a92d1f70cd0b2389a4f128792ac6;
0x1874870c72a32f0d385294a73d0ff67d7234af8e0ec57c63b4f77e72130591fc;
0xcd011ee52170682d3777ba0085ec1620e19b1485d9898800dd2b1d74f613576;
0x2e72b9107cc1e1a9bef16bb21a308c9fe3fc9221e55f5d4cbd43ee8de297e02b;
0x7ad8d8e863868745d2c0c6e1d08dd357803f4653ea2045792edb563399f7d84;
0x273d3298e5b22284dd66bb0f5e963f0a6af68c14018c728fc42cc82acc384db3;
0x111b832918546dae5a1a71d312b412462b9d2bbe867be4fdf089eb15820bfe13;
0xc4dec2328aabeec22bef040c565b1227753c1dbcd9e470f906a4fcb5cdbe7ee;
0xd21f2bf0ab2f74a5eb38abf787121f015d88ac22de1490c548d0606b8e6d7b4;
0x1e08837512f3cfe1319b8f8babf49e738abd159e322227401b7a5441978f77d3;
0x211eaccc37cea3485cb8300994538c153b1dc5b8d63c96b437b91434642a11b4;
0x123e045851f8649e6332e3e208b9d4db39099f077a1104555bc38f68c62deee8;
0x8b66ae60a35e192963af9ca3e8681012d5288a5abc67065ba52bb151d4042e1;
0x2e9188c8e02a08b719f7cf8af307de827d424a166e6f9ebb172ba41855a405c;
0x52458b94157b0e5d0b5cef9ffe8e014eafd7cfc1b43611faf31c2d8d59b4eac;
0x24bb0266c20a04010addd514bf76e3da1276d13cc58faf89668e238b9ed2ed6f;
0xcd9a619dc0621a5f4cdba8303b5f69da6206bf28a04b96d4fdfd3a214e3e54e;
0x119949b91445ca55fa6ea8da2c11d93892e5b4cf3485599f41106eef149eea9a;
0x265ec37b545cd5dc12a27c1128c314a13e8cb222b5d25c3b9061934e93cb97b;
0x6aa84e7c246cd723c78fa394a7ded19596e074fff4ac200171a1f4c75bd7924;
0x1b4e6c237527565068aa65269cd73b5c4675b1148fc31fbabcdcaa341f63205f;
0x2bc7d97b099113c5ab67254ffaca493041bc43e8d344be98152e98a4fb786da1;
0x1e8fd4145c4cda03e17eb62c0f9d8cc97f5b13b83ba8400b57a3d80009c00eeb;
0xde458ac4a2ca65e25c6c028b23e73fcad1bdb3e3f1b6a730eb47e04dfa65318;
0x2d1ba2bfddb58785ae140c239197729f0c60ef611f3b377d4aae3c6dd444b5b;
0x29d94b0688e3236b20967ec747b92e837fcbc396fd6c348b1e0c748a6ee021f1;
0x2ec6c5500bc7998c7b821d209c608a630195b734c02a5aeb15b1c755b7857d5f;
0xd185c970b8d03fab0cb058605d2c0871c76af2047efcaca0e1be393a4817ef2;
0x300c58a0b3c59893a5acfa7a0adc1de29dfa3f16b4689af0535cc2513d60920c;
0x2360aebfee8827a4b9037013a6dec8af8f38308d119b3167df19e3eced62ef6;
0x43ba139aaacd5a1c1349104235e9855ee8802cae5a30a85edad853b092b5181;
0x1b0597b0023cc90297b8a4e996676d65276b1a4c6409d7c3c26008e56cfe6f63;
0xeb1857692cae615046d0febd92edbed96417c07b841b462f78b90960771ed0;
0x6399b5873506855684d027c760fa5b89721ac3004096114ee2b0c5ea727eaa0;
0x92636eca31acead1a2e63131e25a2cb4cb5e5db766615861f4fcb06e4321eb;
0x2e1d940f15c6a1f49a28f66c0d539f5ec4431ebc533ddfef8acf0f5463b7d0fd;
0x946412137bd02c889bc3f6600635398e5c29347a580994338e44a6fa41b40b9;
0x18ec2c5948557c8699e5e425ae42b5f51db8faeadb62bab808d1662253e61cae;
0xac166679eb2864d7674a89bda016c235736783820591cb9504b890b9117fe4b;
0x4db97e1cff9f2fb62e16077221c20306c32f579be40d7838e6ec15320c38443;
0xc4d540ab17d3ba0328f95369e86fb073f3660896d85a679ff9c6c99268bb7fc;
0x2e6b4be5eef898dd7bf66b3754ad1bdbab013ab0ed99c1632a489c76987f2ef2;
0x15f2072ffd2d6caa3d6ca13f7703a47c0bba942b0d9ba0b141047a297ae19899;
0x1ef8155e5c33f8855bfdcc24ac895db935559d5dbc442514d4272e0b2270604d;
0x194f4e345835e516564677d1af5193e67f26573afe1d12fd77673126e4b6c1e0;
0x2a3fd58a40436abcf4ff7d7a582c5bab55edf2150a786ed51c56c6ff2b668c98;
0x11729c1bf0a0f91ac34e4456d39ee6d2dd1c064368c2f0a8b76f555802d9af0d;
0x2e13f7ce1f37ee5f2839bacd94feb1063960ee6438f10e01000769bc2856e755;
0xe1442f5f0fa8737f50d8935fdfc204cf07e6fb3acd7c7cbc78fd28dce78deea;
0x1aac56dc7ff6d0adb2cb7b01c67f487e3c812350450993bccb186b2fba077957;
0xdb64a35a35a8fd6b486cf00f5324887f84c20240637b071d462a8896af11134;
0x2cf6b1eb727612b4676e65d750a2cb15c82f13bc858e0bf6c1cf87b96f8796f2;
0x761d1ff3a90fa0ece518705f2f80055b7667ff667063fb5bdaa950efc805199;
0x92a84456e8ab1a26ed09f4c9c78dfbedbf4904937bbbaaae9a23dc680fb01c0;
0xcf9cb1a0a9e17a9d6bf4b296ee0530c1b88141bce69357f964fbc22796465ce;
0x1fd3b34a7c3a44e18fa8eadb896e5a17ed439bed8efd723246a009446bb95f0d;
0x4b5ad182b4ba40ada5f69e436740417c1bc901b58515f969cff2fbde530787a;
0x17aed43f02895475ab9427f84c57b965683d44ac92554d140ebd0434fefd6944;
0x302772848bcacef898d59e149ef84e4822edaa6091e236aa41bd683acbd43a7f;
0x14b66c4b0f5ee36c9f94644a4110cd09825cc8c85f6cb328391e83fcc86c71e9;
0x18d6d00bd7b85619dd8b979158baaa87e5fd97a0c6d536c211a3ec663458fb2b;
0xc094c29ad77018d4da01ac5d06bbaf353330bafc55a942fbaa30b4876e11240;
0x1f6c4bd9672a340c114623c83ff250c8e410f0a3a11b4fe769099f8be230e4d;
0x279d9751ee739e974ab65792beb9276773537e2095dbe80baf236adaf2d9de3f;
0x2560999bf8b9ba17804b13067dd4b0b0022219dcbe167dab5f9300b68236da2a;
0x211d8050a0cc08d433d487381dfee76e39c8afc46292f336565121fddf4f8b4;
0x26dc6f484d1445c5f5c208ff1a487e372f1f8782dec0a5da03a85f706ef48e8c;
0xd11eab567c463fd6796c3bb711467a6a78f7d847de201eb717dba516808d237;
0x239b30a866e3778491b842a8c2df9ae14a6315981c2394c26d99ce97c4e7fce0;
0x2e35cdbf79533471e4849a97467eb4d1b21c6ad8ef34691e08b74ef19c27735a;
0x2237729ead5273e8d6acd40a63eb08813a2293e21dff54ea02619c6bdbb18c77;
0x290c8723936f36b91aa1fc42768007ea904952ec0e41480d074b96d41703d648;
0x1c279f1d50860ece8148cc1b59f5c14a850af2f3a7e2afb8fddf72964fdf9c53;
0x1938e4214605f8e2fa59e7f90eb10eba0e984c24a5f5c1b719f41421229922e2;
0x1b45ae36a32c689150489056ea161cf38ed1506f33a711d6b471657277d770ee;
0x2f0ac8b7be349d38f0ae7f7dcd7cc86eb3aa06c708b3faff90f6b24a8b691431;
0x1c40238de6c61dc8fdb5a75611be0d4bf7f5c4eb39fe9c065c26ae970e2b1f06;
0x1b4baa71e93d13018ae4ebb790bc188c4b46c892c6782a27115bcac4d165f3dc;
0x145d0fd15960dfe597187dcdd2927c5170b853928ee08686555ca5a57ab4b1d3;
0x83791a423ac40504e7c99084980599a3359ca693c6aacc47b192a325d6df626;
0x2999885c947c9dd00616bbfc088819ffe4c0d2f9033b04f408acfcf1d79651a3;
0x8d0a62a3ee05bc36241af5eea0b62dfd4f28c31fbe77fbaae392fa7b05af4f2;
0x18e93970a8a8070a1835114c4316e7ffc242eb128031aca086d3ce2cd3558e33;
0x126590f273bacddc28fc87c100b5bccf95eea5c1607dbbcbf05b6db2992cc12e;
0x21a7b2a18aba9b81406cfe7c64c1b0b4037c241e7565b52760d74e7720e92117;
0x4985dff243cbbd8eac16b7b6f03603118293966de095b2e057043891bf5174d;
0x18ad558446b1c9342e3846c398d05727ebc22d4a8c03de6380cbe55aab7241bb;
0x1b055d908da8e662ee4b05c3c66886a35bcefb67946cfa6baeeddd8cb06fb65f;
0x1a10263fb63bd4f23fdbacba6fb3f0d7499fea2e1e1547b36b17c4fa79dc0eba;
0x114b2c3f7730ae08a1a31bbdc27ca1b3fda63d5d8eb55bdac6578b27633395cc;
0x1a3f27e20df3c4045f3a67065ed869377e0c63a9a367f09f7a3bc63d4006bae3;
0x1eebb48e654885e9fdc60b3ad67b988530923f65fa76983851b1092640bebef7;
0x2ab3b05b9cc58838ee853f9d4a4817c7bbb1efa9deedb84d52c90ad9d80c2b1e;
0xbe8d510c3f0d8edd5716971f2452b3106ae0f4933d894404bc0b5eeecebe356;
0x300225e792be5f679ad2d4f8b3d070495bcdf876e50523cd877b4fce9bd30543;
0x2df4b36388d11c2ca5d95c24c93e8ad10ba7b74735753cd0c7aa4805fadbf0f7;
0xef6deac5ae321c054639444d4f0031663195997b4cfde163c75e989eb0629b6;
0xfe041753831aa6a6bc0ea08a153bd5a409de14ecf636b3682539074356e5852;
0x107105d12a394dbcb31832b57081aedb73e0aa17ac7c2faee1870d2dac147f89;
0x1c2618562f04166bcfa93b80c537ea8b35aa07d8ee33703fda76079f7b78f1ce;
0x27f7f4d91b9f452211799438a638f0c80e3db58ecb8d194e97e211e158df46fb;
0x2a9982f31c9f628b43652dc20217d9a91bdfa94bd125e1e032e4f6626eb3bb02;
0x2676c1451011dab5891ee8f715409412396960849613d13334af036176b7f343;
0x27c95df56dbab27660262717556e57b6d3d66869a0f834bffdcdf58c80de932;
0x50255c8e75aa4e294b921733803da9d6b9a9eeee28606bbda643a9122fc76b7;
0x26a0dbba1128c1eed674bf21e7a7d23163d48634967d0daf7e467501768d237;
0x16e80c84883b3370e75f1ab266b46f0b839accab3726278ec206998b62e789df;
0x9782b1fb5ac39e3124c5e857253337a4503950a6dd151f005963c92254ad7d;
0xa6975f45d3f7bb18c7db0a286cfdfbe0d75b79c74e67ad2265cd168c1670c1f;
0x9b2d6b4df7d70732ad35eeed1b468efd932a780e9e74cb82c3dc1c47b4c8440;
0x96195e37522c163f5fd66f13cac8bee72ae4b445224ebd85340a69b5a322739;
0x26d015d70931042ece8bd15db6b08bc1496b7501baf0c8bf4a5534fd60422941;
0x39f5d3bf59ceb12854079a2675ecece7b8cc5d9ab9c3d79adc1d181ca6198a9;
0x1352b30ec61d92dd82e2360d38137d2fb02c1e78d6f99cc437e8640becc56122;
0xbd8e9fb03b03709c0be6510b233fcffbc1f9f63f4d6019b110f77417fe381b1;
0x14d37b7920faff9ff10ac3568122fe38221ac783e675bd5f6e69494755853723;
0x2208c576d439a6c9c0c380e7063fff76a1f2685bbed6fd7bed23c732f345501a;
0x8f4fa71b7c3c71c66c0075a5b7a0cb6271c6f7568979d3742e2847cd650aa55;
0x30553e47d42844f4dc97d3b96dee7b6c483d2868125eb7de508164de2466b74e;
0xe10c2cb9014f110cb54d27ae0130988b0c32a55f8d111f2bf797dc5b2c39a86;
0x2801868c0861bcc953405e4964dfd447a8888d8839aa7e414de176c7c061e238;
0x23ea7dafbfe7bf1d8f8b4ec83aa1f0ce31fdfc9ac5d2cca02f14ed1b87caf599;
0x22ff012edcab66b7416dca632a59caba6d641e02f6fe47e7510ce945966f3721;
0x2dfd80076ffbaecd97311a5c0b2314400005a1f07b6c21d92228583ca5b5a4b;
0x23c45a61f4f2c8b3e066a26e232e26db93aaa24e2f65d26601ab2d7a1b95606;
0x2072907f984ca35bce9ad3e82d8c30f9acc0ce98d145e4fe277e628489594e2e;
0x8964e49de9a9fee1ca762ffbf07f8c4a8122bc4e90e7b567fcff008a6e45e6;
0x2dc503267b1497a821453a73030f2a3523213bf0db9d5b061342cd859a1cd907;
0x5fd4295ee0e76dc56af4119e7376a593e4bb185af60adddf232b91e67fb2aee;
0x2092ffeb6b7760870dfaf471823ed7591fcf6e6bd5b1bcf43775d3c07b462706;
0xbf1a49f9b9ac34d30e463ba797e3e08dfb424791ea612b280932ec208c7f800;
0x272a88a53e263ff0a56bff4cc645fcc269d3ad5a63f9625ffe9eac93a36b77d4;
0x27bb4022b1f689184b10d6f29824311ccc5e2ef14a3914aea8f06ccb7f2aa8ce;
0x178f0ee74c834c0d22f7aebc5171f960b20546dd9cb53b3ded78a351ab41ce10;
0xbf6df276b3f28afd5206a8646dd6f4c095fd98871a5060502f3a6444be321b5;
0x219d4e79092df13b3223f935d2a0a2573c1f7d509a91dd7fc5533d4c3c5d098f;
0x20f5702b749f56df810411ad9950ca9f87f1e0f97b8163280b3b2df05b679b4d;
0x117284f038872bce68c791ad18246ed84badb692e338f716793f5a6bf216386e;
0x2c2dbc65a26b313f84567ed71d40847093d08ce8c2b8a343c62b7f57ef63d968;
0x1743373e3858cdc0582049ef7e0284d33403cc8bf56997c508a10b5fb008ae77;
0xba28f299d1ca31db5a3bc0e8202e9ce8fe85f80c4f03f9eae2dab5de051a659;
0xe46831dc32f73c1086055faeadf047d3408c2cc0dc2e725c878dc9ce68f17eb;
0x1d8635cde2ec64aa50d8d979e29ef11fa0060bf86ea00762250e314e2881f70a;
0xeb6d86f7e11b1e3dc21882511e03b7aa64063688fc52f655f12e34a343dbcb9;
0x20bb2d1b0caed114b06fca648b0703a7346f6b2690f220f82e7710b586b6a81;
0x1c4db5ac81e0e47818bfc08f7ec2d66bf15daaab8ee766728f588539eb60075e;
0x16eba5f5dd46415f55abb8199b0069ad3ab7a78e8eedfafcae845760a4b1e525;
0x46718c49cfcd67cfc27daaf0bc00db0165a8b34bd1801110b85c3f890779f02;
0x10eccf3b4cf167cd78f9eeeacc462eed71eb92a2e31bdc1fc4b16c0b19feb44f;
0x16e1b2c0dd88527774f18bc53f4274fd15a5afcf3656f149ba7bf0d67050f3dd;
0x1d13bd396da5a68e7b801ff0b2c6c2725f961bf633d0dfaf1a4b2c904969ae53;
0x2023518104868b1b97d9a5170d7a33230bff0618df4a31b381fbe9a0ea3224f4;
0x84c4f9050120239d86cb0d84535ccb94821f0a1def04495ffeb559f153ddc26;
0x1ff6f423d94667ef2d79660600e05c570f74d77ae07139d2019069ff96c83566;
0x7b5719a1e09b96a5ce2c130b9d3ec76002d81bd6a8b46ad27274036bb363bba].
Definition tabM_16 : list (list Z) :=
[[0x2b6fd7bc3a3b595c206c43daac752b765a12255c37ab51ae183933737a8b8099;
0x111d04c083f51a6fdf87412a537f6601076d61f435094ea16946efbfa4893e97;
0x133c5913f25ff5eaa860d0318f6a4b4349fd22f2d53530e5c785b70988a3a88;
0x8875f47d6f518c8c2df51a786bf2207aade284067228f440e7d0307520a56cf;
0xba9f44a107a81cb23fba66f2bc34152728f5f5ca68406649a7efe47c9473f21;
0x542832ab23b6c7a4b547a1066037152a2442e998c5381ba97698413153ba6f1;
0xba1f764367360952942ccb6edf051c8f937906a816641e0d1e9e2ed26906fa8;
0x2e0611fa4ca3985d7bfaf512f21a4081141f4ed0dc4b022834d3cb6cfd8b7ffc;
0xe6f23c0ef6f159dec68341a87830fb864b6c08cb954a14a2500876697897fb7;
0x1a7a2a4a08d87e75f720302bead7ca21c8f7c2ed2debaced9b8b1b2da461cbc;
0x1d8005df48c8565987dbb442b482cae5bfc10ee486ecc5b670ce861345979d1d;
0x28122254823f8926acb7e98f557e796282e5e1271618858e76d49d0886da16f3;
0x2414d4aefc7b4857df681328e68a582d23b2dcffd579a8e6aeed6c61050e05cd;
0x2f710c72d6da19c7d87cbffd55665b472b0265d13e2326a9a33b96e95d3746b6;
0x2e285441d0bed90bb41d6480836850e4d76da8211b04a236dbc7c3c30320c00e;
0x2964901a2b42e9aea1a6593662aeb9e12077a287434bda4ec2012e36a19dc95c];
[0x69b1779dec3eaded3f07d0c3e6cecd6cffe78d747faedad9c90665aa2d92cb3;
0x187aae261ef3ee21b37023518a071675c6d00bde82bd7f5441448abb632a764b;
0x169538094d4f752529471e3fddc9ef994cfad4f96dcc7d636f0fd509b8eb9c31;
0xa68830f19c0a729b2f89be27373d397ae1157bf507e7799d4220166ea0982d7;
0x18ae39086eebb98d1fc5f05fa0f87ddcb149b0afe38d1bbb85a65697895e63f;
0x4c5ebc771344cc0612765710bfcb1c2e6097abc3d346f049495f7d7b7f06cb1;
0x29faa7dadc8b7e9588d4a601e77bd80aadf272a1bfec3c443ca3ccac81d9e1e1;
0x2acf3493012bbd818724e7ceda2431e97c8933bfaeb5d7463b512e6e8e8f7fcc;
0x23b34612e7d052f6b312ca0e0cf70034ad232d9bf63c88821085383b6f6ec4a3;
0x11680cc6e80b0e430a4cd3607017fa8331d86c4d03a96dfc18767c97cbe0a197;
0x1fa772ebde6f3732444623d67fe991116298f8f30a2d1010c8ae6132a3d6907f;
0x2e63f1740332f57e8317f2592ebd8db0812714d6604132d525e33e19b3c98494;
0x1202e349d1d7b805846e90834efc911eb6b10c2a09eaeaa29ed288bd779b14f1;
0x168fdc32d4aa8dc9034ad4a4fafee89f0ed5c980d3db424d38f8ce5cd04c237c;
0xb9ae9f5ee6ad70a651b4b66e34f521b130d18c49464d86fe5d4b1820489028f;
0x6c2194af72fac58ca13a2a5e3223104ef49a540fd2eaea0d67a920d8567040a];
[0x1fa4effc83498d19aaa598b7771f88a0554dddda89d32dcf8a6f4cf776d13b99;
0xda28ede7f63f75596a2568b2dd7a584576e5b282f284795b1a7aa21663822b1;
0x199835da95f6eb22c591ebe514c7f283f674fcfa1eb787dfee5781a64f082439;
0x2af560600b3e25abcc7f78a4d6e2cd3fd99bcba075ab82b55e9841bef7b9210d;
0x101544d131454f20b549b24a65ec84f1b3221fd9b43461ddc6d156833b34c52a;
0x1a51740cda5e45ea4d4bd7bf5ce5466a66a11afb5bc93cf10d5309e07d410e4e;
0x1324558b8a5d4ba61b17790128be9f2440c0085dd5d6065b88f0a3b2537bdadd;
0x13473024ba419fc2a7743e7df8fc8375aab150d3753a54250a808d66f2d06b91;
0x13f15bc6453df6f9383446550534dc57aedb10139e3053e83bafdd99356175f0;
0x1314b54f8786096244532c9f054b379636e2b58bfdceb3d48dfb2210b529b4e5;
0x56a8ecd232a674c63d7b603ef8cd06321c560df2fd3f6c2649af576467fd798;
0x98b740976c2a1031e75132e050bf3838b739d061582543c1c7f95c152ee262;
0x24b96dbebfab6d23fa32c2c8e7758cb240bacd8143323c53cdb48dc8b65f8e4;
0x15bbd5619f0d59790804f2b9b37e069fc909a2796d1f77d0c62609deda2d0278;
0x4760054bd5d07132548bed7657f17c61c038ebcdfdd4025c7b802e08948e108;
0xa5494c9bcfa06aa72c36fd22d98fe72dc14dc0e4e74e03d1755f38ac34050ad];
[0x1676f5c07417ab54c37ec8ae1a8314bdeeb09964769881592043dffcb26bf41;
0x2043bfe52d2964e4a3b2da5e30107716cc764f9b1c8ba463f215ab1f7f03498b;
0xdbd8662511dd7000991b39da129f9d03b565a0cd2f218d6eabbb49a25f105e5;
0x11b33a9f1818ed7f581cac020051de26fe28dc0bd8cb1a4457d5a8447bdbd6fc;
0x26f2f58d63ca6ef59bb95206ce3ed3124885ec21762bbb1db1d6a7771ec6650;
0x2eb6ed568377b696ad3cb237064ec68e390c24886e1f122d21d7cf3290dc6d08;
0x18faaf1c91e002f7dbbd12f408bd5c5b92f38e02ce3635824821e0347faf53ec;
0x29437af1b14f637a1f0e39955f2604bf20439fcb2a090e346aa65a9ebe69788e;
0xedf86bf1b1599fe27c66f3494862d75df7764070a8263cf88778f7287938d8e;
0x1336b208e00d8ebac83246a96ebdde351063fa3f635887e753a0ce3e29c7eedd;
0x2646341eb44b4800d56084cb48500fac48fc533891f557e96784cc6004d8928b;
0x6f53c79fed9e09848e112a0742d8ae84a04bd9ba5aa2765b1e5edfb1602140f;
0x2a3c9f55afacee735a1b515526426384ad044291f7691974d9c05c634b43947e;
0x1e16e9ca2502d696023bce3427244ad6553ce86bbc4c349a34ba61067c6b6d6a;
0x2a4c6d3259779c396ef8173ae5fe87bd611dbe25d1c048ada96306db1e3a40d;
0x265ca211180b012c378e0198f0b5f7758c155e3675fadf92ca79156bd56fe339];
[0x1f4e7bbc8d42779e58aa07bf54ff324b814fe687b4c8eb81b9b7e74448ee27ff;
0x27b48a636a39b51a938aea3eb552091559fbfbe71e096d518c40d908dd2570ee;
0xdd0c118f15ae07e5db55077dfa46e08109954d99e18d72cd2caf613920e390b;
0x45c617f604c1ac9fb8d76e8d380322e5a3b69fa7b7c2ae2c8ec5966d6a4c788;
0x25b974fc5129d82ae4c6246e35f802e03440ead09995865313c8ca91c820c2d1;
0x181589b140c9109e492fc3ec7d8ca8e3c25a7ce58df06f13ef43561d58c5926e;
0xee1288b29855e2e38dd26292b39e260529841344538d6499996a32e7cc523f3;
0x206e4d445315b764280cc643b9479f49946ea86d7304b6a2c692ac34d7c98d34;
0x1641648c26b5a2dc297daaa6d4ddb6a2f258ba738f9094e7c5cda6efa8c993b1;
0x1887be87f7a352410482ef3bdcf7ef17976e087eb8990c76d7e971c44c048239;
0x231f2c98bda8d48bb4a6d9c98bbbc16027235a22a1ed4f88bc8d3a6e582209f2;
0x1fcea89286dc1db61fe1111606af396e98cb53dab5199750aa5e5d11561fb145;
0xf7bfcfab17db34c144cee44636bdeadfab44a6bf4fc8ef384ec89a4ae9ed209;
0x1dd0a5502743aaa9f583bd0ad35de13ad8d5fc98f1961f2612ad4c28fd9f9fa;
0x1959db01f5c8bb0cf483490373e75b0451b87b43e59181be0b6016674f3f5efb;
0x21f659fedaf6c2617f17d637cd6f54a27782f4e8431f87af5c8591932ce7dab7];
[0xf6b18c98fc89fbfa99a04c8c96ae5db35c296479f484b680df905d4cbd1dfa9;
0x17fe75a3d11b4b9d2acf7856d6dea3bbac62ade0c501347b16864f3c73ebb7f9;
0x7c921bf45e354848a60b0e5f292bb03c2469498b9c1e4d322f4afd1867408c9;
0xe6197fe502328d0ef7f9b930355312b347204b877e7f85d9b569dc34f064c1a;
0x2d409bf78bd6f6a4eca7397d065023f0bb6732207925d3ce4beef9f621da2ba2;
0x205a6d5aab2d224b668c70fcb41582ee9ebe1ff099292b4bc50af8b292c0ea42;
0x2380ab051d0ac580a7d116f4a9337eb31090a4c7ecbd4e638e7717b7a52bf106;
0x1382c3c24bf2489fe9efd80a163e650111f5d9885e58a9ed729dca1f9a74e59f;
0x280c4522ad0ffd92c391e94c70f87120b8341890c3329af050625f2be52f3a41;
0x1f405a9483311e1497568f1bdcd6d58cd6bc813982a0e71561b620003b888204;
0x1cafcfb62926fbc04857b0bd7d7392b8d8add16b5cbefb54b4d5312826e89942;
0xa12e162620e71beeb203be56594416b083e7e94eec23e0f44a5ffe9e159508b;
0x17203c4d2e1a428a17be2c27d1c4c5960dfc6aa36f22bdde8be56a0cd44e71ab;
0xed2cfae7b36f470a7d1f6940f914e8ecd322bfd6b50f9ad9f6a2226e7a95db4;
0x1849cd0910d72eacc32d891b71faf500bcb93e1cef2504af443b94f8b1ce7212;
0x1e463ae3f4c3bd047aa1049f4f091a2f1d5d3550e3d5801fcff68f9a5e6828f4];
[0xe6cd10883e1e11c6c191d36329f30eb0045af06c2d86d0c439f5c1f4fef54b;
0x2326c3dca7aab6b1852654fb13fff42a152ca9632124216cc7cc6f6d37522a59;
0x1f694d1acbaab0ea5bc026a1864d568be555b89c0f49b6134e9b895ae141da86;
0xcdfe099e7a154278dfb6c0388b9daa1e8ff323a20be6a6aa7a8438333f879cb;
0x17f732cc1354b1fb476e70568d2dcb0b6683d30b02415dfd385504736aa86de6;
0x28239a882dc7b2f3ff7b9aa8de9e3d81af736d4ee6ed991d5c6b4fa540148f43;
0x158926b9e94b10fcb321b293bb8a8647627a5bd31315808d397c1c94f650f2cd;
0x17cd11864fd2c73d0867d37264b4ca14df935a82f2a6f432c4998135fa5f4aa0;
0x1d772098b6154921db8e7506e6f0372ca44f20af3386e13bcf71ff5dc0d61b1b;
0x209576be72db7b0c9fe2b8329125e7dff0489a8e900a5f14c1e6e48604134264;
0xb7ab1ef17ff6235f7737f044161902f03d594cf4a0cc67b4ffb4711ade1eb0f;
0x1b1bbf4e9f706051716a0e28990caf17573086a5d818c038836696808b12d8e5;
0x22a8ee74367413eccf7aa03fdd420c6bb6255a6dd82081d6b14eda9a9752329b;
0x2c785f9d8834f5cf5d08f106d5f9918340fd414abe24f0a9ff2b8e0492b44d83;
0x4b5dc2057b88170a718a102e0ca9177afc757ee26773a0290c6bab159ca4fb9;
0x27412191fa2b2e5327a11d290e4b439a4124f48145c61ff4ece8448a4373eadf];
[0x425a9641fb01558bc7170a2ffc24eb6a514198b296a1629cc284d983bca8757;
0x80c442909227f4a9da92e33237f9a82cb0c6f7d0c4155bdea5c6517b046eb9e;
0x1604de6a2db122bdd5d839540a1005ed402425bac3b85e3a72224d337402bdec;
0x15ded859d501c2733feaddde22ff36fa8ae85803aec7a204f42b1f6553bcc655;
0x40db0defe6ba4797b74a43125cf34d86a2b33e7a22e2710b0fb7a5568893aac;
0x1ab15f2fde6f535e77e615c8c2602193d45860cc015849df578f9fef9a5bb283;
0x264fadcc791aa18e76751a895242c30cdbbd1197a90a456dc278e10bf0bff5e5;
0x2de279fcf77a270823a91a6cd1aafb58e9e3ab32fdff0b3b05c98d554db6fad3;
0x53ed8ad550d8992f4b9814920183dd839bf355eaca8cc7b07020a22614a808a;
0x279702b135d144ede943195269c00bf620f058bf0186ce9fff3cb38b22245a;
0x179a82b77f2ccb94b38eb582ac4abbb16df429ecc22471be73cc7766f96d9948;
0x89efed00e9d993f5fc1d5af2f2b5d47a9b70e6d5a603fbaaa8f65102123efd7;
0x21e25f0a7f8edc38de25ba605a86cc08e08ccb03e77c5e0b9edabe74768b60c0;
0xd8dbc3fc854c0665c30c48846d7bb0eb18d3d78a4f70fef07f242e45b865eaa;
0x17bdf338072884b522ce3c50ef4711091b9daf48a43374bdc0a830c37e5dcdc8;
0xb3a769c8b371562260395ee4f348f88bb056a2f0ec0f98e4e633bf7d943615f];
[0x397a7d7434b0aa941348de45aec442cd5cad2c398884950e8233c58dd50335;
0x2b1c00ea00893f9f91331bc907397db865c37d3bc6c4b39b81cd931696fd7837;
0x25970ce31b7b10cef221267bb1be1656ec29146df06fdb5b4f6fe6607523aa08;
0x2d4026bfa7b37a19a300abaf2e1d5c32dbcd42240ed860f681f61dd6d6214cef;
0x29e89034942414a1ff6833d6e22742d4106e0f5f37d1f2ab80e5444e5a52c9c7;
0x32b6266f24017fde1b281d0fe206dff30b539d5c5ba13b5312e488d8d6f194b;
0x2ea014b61ed575392239bd9411c0a6c4202b7334cf2e0dd8c3040528e4a3dfda;
0x12ced5254e260a9db7abe0cbea26396680f6e57dc07732a755d409ef751200b9;
0x1d4f9ba4fd8ce4ef193b9f870f44956079538d63bce344f9016ac5ed63a99a5e;
0x2c9c3135cf64b89eb5b714d7b2ebcd81fc7edae637cc6116591df208b6b2583;
0x18b63685f6fed2aa1904856378442151dd1fa01c7ce6121d23e1e9ee20b42558;
0x2b202e1d2626c6793d68aacf9c3a8fffb27cdf5a0b83ff8f3504f9ab26a43d15;
0x6a78dfde1458ee341a089c15f953a2193527dffb43f552cdad595da7c6fecc6;
0x22f62e45e50084696ac2512a25db9925244cf0214b6b543d3a9f83b8e8e58ffa;
0x2d9379e69b178208b8496b8a0a0a90d578b21f090c53042be4767e3c10d3b40e;
0x1adb4c87433d866e8fe5ae26d01477e3962879c20c8c3a170c0727167c06d0b8];
[0x1d66f208fc04411a1385c22e203dc08f0bac2f7cd9dfaccdec20d3b93252ad04;
0x92f03c7e98e61c2a85943ffaf9c04dbb0145fc2055e4d5be90bb68b90109746;
0x14956f80a65b01f9ee97e2eb070e9df2711cb8bcb538dd98e532636cc60782e8;
0xbccb669cb016d498464944f7192ecff6716e6cb5f895d2715bcbbb65b1288c0;
0x121d2ba5bd8f232ecf44aacf1044cd6ab6f93f1e537d7d1541754fd49f51b225;
0x4e358f259a33244f4058a056110a26816bbec3c76ab6a5f7be93c9e0c92f3eb;
0x2da2603a26d4fdec35318204ba5060663e15a0b1e4d9395258d5e6eecaea8fb1;
0xef5f9ee6ba1ae1d1264cf1a36e0fe4b8043ab0bddf9b9c3200fb687a8ea5c83;
0xd53d61c8a5214e0c4715274ad67a5d6a2cfb9fc3c1e791d41de22c8ba8468a4;
0x252e78b4838ad5007f518bb9c6a4ce501871f71128eee3f0c9784cd64b183fbf;
0xa27a8d1af6a0460ae1724f32f21a06b036668d0a863be50fcc47fec5763ce93;
0x3048a265d0eeb40e5a531633ac22bb825f75cee9036e66a061be3d4d248c862;
0x3fd94e51bbda6843d31a282530d54240aa496165d644d5d7737b1e5a7d60d52;
0x2f26bc13ae48520a439c9f546abb35a1222a307e38fafc3e7ffc843f6c77d7ad;
0x14057d02e5ebcf33c166e18fe904defa9e342a19e88d42336377f1c5e67ec30;
0x1fc26ed027db7b9e7241c2c760176662f634ba05a9ca7a850e184ae588cbe215];
[0xec1ed3ae3beac4ddd1fdb17b9c7c648e7ec81885a07a5bcbd967e6a3676f356;
0x2a0f77bb3624fc4826c9a2a66be4ec75dbc21642a16fcc4182d2d65c0fd8d7ff;
0x1d799ae83ef6552f30edc47b9e82adc0503dc4b74da40ba0bbd2cc9eb1b0a53;
0x5de1099c65f08a990ac0f1f45ec2fb872c771e10275dccfa4fce1146639d0d5;
0xf0913eb4ee7d3c02d8ce73d1cec2b6cbb176a92129b34a294adf066243ff6bd;
0x25a9ac2d1ef84abd98927b52c24f38796ea60e63858ec5b50196d7e169c93b84;
0x20a0e3f4e1249c4c6af100dfdf63f8bdc69ec7885bcd0d2c2e98d98f9bb9d104;
0x6b7e18d01b47ff8e4ef08078e8128a06693be657489492ac4195a854722bdfd;
0x12cf87253913d45d287e975f2b4f5b909d16a87d89c889057f666f6ba61389b0;
0x29a7d554e9ffbee639867842fd0e7d41ea9b1bc9621b654fcb398f71c95b668e;
0x186756775058d09c639cdabbacd01bf3c2744152156fbf7e8f3e999fb610ed38;
0x2532dd7487fcae0dc3a7ac50b80ec330c6fb6d4cf885f1135988bf6dfc010a6f;
0x2efe529db1de3c01d6fe7fb8a71f1eaab6af1641fb1f7aad4f2b88cd13c9fe5;
0xaf825f7ca24b4a285f544762d9defdc99f2b85c1b89fc5ff2079d3d50e6d4ea;
0x17818dd0254b291d0d8f4f1a458c6a21d8841153661812bbe986b1403cf270df;
0x10175fb6f81b16436af30682f36fbab396eddb7829a50e946c75f27e260987c7];
[0xb3e601e36a5d82e0214362c8419474dc1cc2c0ed8126534d69a3f790b27c603;
0x1083b742d35332a8b79b80e7dc04a72f7e86692e529b6a1ec5687334b607da7c;
0x12417c001be86197013b2b4871c4e9b0dceb83991919a9cafacfe54666f590af;
0x2c465d9b5eb852d79338b427b3184d941f34046172a82cce44e2b8e5c4379478;
0xa0fe66c0d4de00cc7761008732a0097fb14d6465f9d1df835e0423fb207d979;
0x2f521f24bc02286ae2bf8484fbbc39843886755f52bfec7d3dd5df78d340721d;
0x2f1d3eed36018f9679711e030bdbae51224b5efb8b1eb1cdca8ab886212f0fb;
0x23aa7ccc3751b740eec9f35a29986bc958a4dbc7c4b12eab2be8376706deb20e;
0x2b088cd30a10899babc325bba32aa343d329f9a8782469c4d25f0f237ff607fd;
0x305a0c2c2c4d35998e9913829f5602504363f21bd720347350b604193e79bc3f;
0x8bd9ddd192d797a19dd1da049beb39fa6596598a27031ea1c2b28966d96180c;
0x12cee8e3d1cac1ca84517ab3def487c460aec058348ff220c801b78979af9e61;
0xcab504b22a3573d09509f85d3fbd94e94417acb25392342bacd684006c37185;
0x160590968429f480f55611c6448912fdf423d37bf483c36acccc1ac9a29d2a53;
0x1c95c2917353c53b4cdb7f750a0fe86ce10f8d5bdb018032d3f793797d7c0a35;
0x23d300373bb8ebf7dbcf314a3c0b1fdecd5cae23f7e7bb915bcdb6a6782b57fb];
[0x163cb4e3a5ec92e57b25b095a3aaa8cfdc4ce59267718cc6090a07e14af10b0d;
0x53e95f9455bc6499d447b6cedd0b6aad9cbced97ccf10060f3c9ef51e28e76d;
0x2171fd11f94485466a819e24d0acef08b0c87d78b46d93bb9462b443fa40cdc5;
0x23918075c8fa0929befc2b171f99ebe9ddd6683594ef9a83f84d4acfd9592d59;
0x898ed1ec1a43687ff6aba32de5f819434528a0752b3928331899b0646b2f061;
0x1dc3f7a659530a13accad181b6e265474108d8b1469266552dfbc38cb679d06d;
0xe388bb105242406e372080e997a31392cf4ffbd9c694163fc366eae770e435d;
0x2273c370eb5810c03903605d7cc94d5a92af6aaaa7b844f35189e77406a7e86b;
0x19972ffdde7898ec8be4fb28e4b19efaa43c7ee20c88e29096ebe872e1c19475;
0x61d78e1953d1943e2d968335b73e15fecef89075e96c943d39702b214ddc5fa;
0x194184a825de9e9b63ed7a7bd071253ef5903e1e75a50536db93c26311a72017;
0x21c0d1874decaf90613183ea827b91c1b2951839f71f329cb9c9b0753ffaefee;
0x1cb33ad2ba7dd0c2063443432a847bccce775a8daf868e0c474905a4fa36d70e;
0x2bb32cf60f8d469edb1b6c56493d4c9338b4051ae2514d4b6082ef18b1d5228a;
0x2495b3c1bfec60741808149333fc43f04d79dec56582c292829ffdfb3c1a3c4;
0xf0417fa6237167e741525261306c17664dc3efa9247aa0d4bcfff38e89dedee];
[0x2dca90f3e5a15b29895f48d7a1290d7a33646b89620dd0a8ccde3aa3a51d41cb;
0x5904dae3470d40ce12749b27d646e620e8519e2b17cfa016caeb89d9e34ee6e;
0x22e9bf2aa02fe65e3cc74fb3d83d4e3351869bd30528c378958af462efd645ff;
0x15d7fba62bac57be5d97452a3c06d9fa757f144df166479ee7306967480a287d;
0x11e0b2343ef371d2d6d22805974f2539b6e510d761e0da170d0da90095a13262;
0x2ba39845393fcc776fd383e535d567621c7f64005a83a6f7f48222bc902092a8;
0x25143649c13e08d4b00bf34d2aa1a8e450f89788e27766896217047155c5bf1e;
0x2a7310e75fafe902e20287a91abe388aae8420b1ea4660dd7c159c26b9632cd1;
0x1fa6944703fe0012a16ee6042529ff02bc804313ef8c6d8b0f910a75e6f47739;
0x261f975babd7692822473b8e39f948b9cf98730a9785de393179d4bb99dacdc8;
0x2e08b28bdcc417d9643b3008085a27f4a9876792d3915c8b9da3567a6dd6ce82;
0x17e9ed191c5641d768b0e55ec0d4a85f6e5419d32f5668d397d5b6cb805387f;
0xaaf37d1f53dd0556e347ec705962379077cd543198e1c27593f4454521261f7;
0x2a4a72e9dfe5bf25f6fde750a1847e5b44298ba58fb504be57a595e7fccdc404;
0x2adec8549dffde7238b2bda6e7732990a911700c8d35288baa39e67015953231;
0x1e8fd20a8030fdd94e2c4353d8f82b4b212bf887bc59615814890b0f92a47d90];
[0x2c78ee5ea16d38f0beb9dc0733c4bb1893cb33ff671b737a1122d64f729cff22;
0x2e563b9dc5a3d4d5a93f476b466e371019c77fd6eea506126a4f79274f2f6b9b;
0x72ea2f5cdc8a3789fbcea414a91e7b27bbfb3151df510d080ff4ef7cc73f0d9;
0x2b6f16f812ba903901355955cc4ddb99f24f1c6e26430947e51811a68311bbf;
0x1d59d5c10b0c9dd347899377da35b7e677c7d39ef1b49166b974a7f2bc99c946;
0x4730fe04e0108c9a5145a5c48e60c5457e4708522157bfe0f82af5c664d6ea2;
0x12ec24239ba1b0fc9f952550a223a52d209d8d22b8b21ac24881a2719276be0e;
0x20098399725ee15d93ffd3e481e4a7b95c8c5083f9d69bff1714eea7c7d82d49;
0x18237af733bc44418ac84e623f483a6be28b8f21d033fbf099d645ba20f1fc26;
0x1e3d6cef37f9bdac23d1b381a6c58d0ecf06a6ebf58dfa7a995a443ed7df68e9;
0x28e55b0bed59191216d5dbe1dd05b22c009b079de877fd54aaf5401d2c867e02;
0xc6c9ec31c9e3be0744919fc555c77c0c125927bd16de2807712b35ca26dd045;
0x2a607facd3936fdd0e84e9bc3e4b4bac86e8102c2b5ad15cae550d28b3654e73;
0xc509a4bf48ad76e90410bea34a8919741608bbbb6b5503c93e732036f079d12;
0x178074303b90d8985e376584b8b8dfb7f952f8f4cf84d815f90baaa3b644c4c6;
0x18572826385dfc6eeca4d3c71d110b04abae013c5450d9e4947a3d019bb41b6f];
[0x2af324ec4f9e7786dcf00439c75a294bff753e3292bbf62e66471fa730f19c79;
0x14560083d980d172dd40c9426cff41467acea41d7f48ff11ac5fcc087ba2d5b8;
0x260f751c7823abae61b8f3748c84791c0bd84acf7eb6854870250178e9a52cf5;
0xf6673b7fb4be8cdea74aaa7802c9c73ff0d53a98e94a2bc60685d890a24fdeb;
0x1a15b7e2de27125f2e6a74f4ec7cd2455f1bbfaeb1155f1af819bdb5fe54241d;
0x75a09e41e74de8a2ac7fef27591e76a77c851e1a51185f31e99b5e08f01cc74;
0x79c04944d50b4777dd0bebe953600645ceca9d65fba020f97365146bef9c6ce;
0x2ca2bac7c1aa0c64e684123f0ffe22173923052b6a01f3c29be80137fd8972c;
0x13d9035a0dc798b04dcef0f08edd241524fdca0e95ba9cac05d207bd317e19cf;
0x1d6657d791831169c56b6e9a201f8b7b240246a2d0f854430489b983454032d4;
0x1c89d8f975f0304282ad8f7bd41c12c3b18ac6b80e4065fccda423bbb3ffa786;
0x20829ef3df9c183f8965e49c8f315c2995a6446a76053543eb750145f1a77400;
0x14a2bd5a56f87009db981546533202f3af812d2ef4d6b037f2830853b9f9039c;
0x199733da4aeed8d6cd148461617e8e46de22d3720431fc1605619b12a7fd4e2a;
0x1f5fc060028ba07d11fc9477f4faffe79a81040ea9a04c568267644895e6737f;
0x208b7c8c1ff8422d4a1bd13a02a94681ce217d925f40d2875f73def14de7a220]].
Definition tabP_16 : list (list Z) :=
[[0x2b6fd7bc3a3b595c206c43daac752b765a12255c37ab51ae183933737a8b8099;
0x214e865e2eabdb9fe5d563a141ce18bb254029e0e04e59c2fecb0850b5ff572f;
0x1e0e35883b0f1794db023f80354a83951383b62282dab4129db1d19e605c316e;
0x5c51080a74b8d28b50b14228c6a6de8ad5397cb9a4b9c6cf86bb807cad76074;
0x244e0857b01e7d7aa0eb2ef334fde51f16a2411abfec2c3beb6c62f7a7036217;
0x2a04852a90b74143f3808a150e9f1371e0177a1b6e72cbcb0fb8f1ddce8a8d02;
0x305a319725a0b7bf3def3f71517cc2bbae386b651550fe9405cec98dee21b1d6;
0xd92a7b009466985fef388ca3d70c7e2c0c2670d2260df83659d776002843107;
0x2a67eefc0930f82c8bc66ffad5ac09c107407814131cd645bc18cda6fff4f52e;
0x99674734918ce9329409e50f2e9041bd072f9d827737de601f09c7ade19d35;
0x449112125b3f10a53b2c465f2bf1183f03c13825e76d40af75da04b8137780e;
0x2c1ee387a8c15e7dbe92032a242801d1f7b411a7e5a36bfc4fa2749a22cacca;
0x1d687a4e31c6b3c91e67dc9d9dd9c47493c839b5e13ca1a9310e6ba011421cf7;
0x1dc79a5d9de443db444de0f08ac67be4826d018fd86139ee9eea781f4df48939;
0x2d5cf8172c587c0513f26105419f56319763c5cb42cf9ecb5e27d9a88c5d16c9;
0x25bacabe48b3f030c806aa879f25241fbbb17534d686bda8f5d478662b2a5ab5];
[0x69b1779dec3eaded3f07d0c3e6cecd6cffe78d747faedad9c90665aa2d92cb3;
0x29fb24fcfdda928bc18f54d5594a0c23bb822c277fe2bb999e04a37830c7595b;
0xc05c2d8ee022c59521bd441aa15fa2ddf43e6ef9811b10fe9640ee5e888c388;
0x122ca048d7c6d4b9053b59ab67650d10d22515f1365b2267c086dc7a168de657;
0x2fbb74d7dd4ab190e6244236580314c820bbfe34045f43ce14d1ec0049afa187;
0x2cadba86ff66600cf28005f0ac4870914118c62e110e3ae0513dedf3bd846d29;
0x30d436b101fcfc29d67d7fc4473218360f1a52bb7316c4a080a55c0d01a709e;
0x1041a8891a37452dae7c58396d225a87ef1985f94485bc3bb94588dd00132b2b;
0x20e8656cb5d68cf5f5aabd0cbc2384b00cd1b65ea77b1c0495a65f3270e4d881;
0x17107096614bacedf147ec8ba8ddbff1d99d5ec24df5495279a720144ad00dd2;
0x2615060f9b8b7972aad3c06f80079700edc591d0e701ac424203a6a7beb5931f;
0x1406d86f9f6ed52732899488e062f293c681767645a636d8f078dd40672e632f;
0x47dbe55f778c815cd8c79dac7d59526dc76570fef2224a93640c98770c056cf;
0x2dcdb0a971c5aa120c3d873cbd072083a649e903145e00829aa8202ef09be93b;
0x2bf712452a11b06765a0d8c7f0af790527a665863294a32cfa3d762a5aca3b0c;
0x12a68ac33549f6902b128cb376c2f52cff07f1279106386b26fde8fc49de31eb];
[0x1fa4effc83498d19aaa598b7771f88a0554dddda89d32dcf8a6f4cf776d13b99;
0x19b1577a9e5fe67f71e733732ff6ba035dbb18d129f701a566068c4aad32165f;
0x82f3674a3860d8034eee2f705933c2ebf23a5ebc7a3d77c46c9279df8930298;
0x1011963b5e7be95fbbfa2848d56da05d6229a3f0292c50760027cfb98577a2fb;
0x2ab86635f447d66ea5ef5e5339031197ae8e86b7350744069280de59d7256486;
0x14fc3fe2445bef8547b023a1ced3ba9e137e16fb0e3645dec813cdd7e584ebc8;
0x136afe9a53acd5e1d68cfc75c5630d39701cae3744ad5aa2aa34f735ea830703;
0x18bef702cd3178eb4ba589b84783071cef268ed6828f70c960e379508b9ff1e2;
0x2c5c474a63c172ea6d6a1fa8be92e4bc6891e74e87c5a65c42b61aa42a9aae4e;
0x27e3943ac99174b2829fd8ffab17b16837fdb88a0c6060e20c3e5c72fb420f8;
0x288a44d1afb6a92a5c7dc766d4cde4874b0f49cc3e798fc25292cd13cfc4ebda;
0x2d255d4f28b56db356773293cbca39f6f9c06bc4cb5275839555db772a969ba6;
0x262650e9b1667b31877c8d79a5816cae80e222df97e48b574ba91e6cb509e931;
0x22bf34fc02aa2e215c993994c7cff2626dcb7212975f7ffcf11cd90b07808e70;
0x14078ef63c2a106c8895143763824ffec7a868e80b89ad6aea82263b298132ed;
0x1d16de8069581b62949f3e5bfc1188e21cbdf5d67a5bd403927da3a66f49c6b5];
[0x1676f5c07417ab54c37ec8ae1a8314bdeeb09964769881592043dffcb26bf41;
0x286415acbcc8aba3e5b854a6a357f300ba4037eb8b7c5ef6bbac868d1b4a5635;
0x1aef1d337ca51ca5d2c5c116a275a81a21f90d89834bd1af61b3aa6bed65c7c0;
0x17e864b0c0ebadbd2fd4f75177b9e7fd801bf3c066464070c6527f096b0b4e9;
0x2587c2ffb837fcc5be1b5a0d520f0f2145000b6797a9a5205ae30240af69c7a3;
0x2ad5b37b82f9ac35848de9a7b0bed4262b3074c8047d8a4736959a21946f7db2;
0xa32e49eccc90d7135c8c66fbb1953bed9da04400221cc606416f0db0b06930d;
0x24e2c86170a5b4a8c95066d5f553eaaede655dba90c32e485adb53c3db9f65df;
0x2e90955a65c11aa740e8592c94a983b542bf95bedd9bc24673647687c57a419b;
0x11ced1dc351f0b67b8de31d678da740e5a0c4bb1e9adb04b119e8de79e908283;
0x9de8b7bde7c2aa28539fc3f31b1f28538a766c53ca6e92a1639bf1706369482;
0x12550c43d8d9b152c039868ca4c52f074e02f31e1834978c8b554daf43632d88;
0x40dfc65f3133acc65a961dfc4b365d21d41b9e82cd7d65aa2a3238a3ac5b92d;
0x12f7124beb62cae35c093ed96975ab5dfc8e00f2668c6ddba351f458127e96a6;
0x530ae305c7c8a9ce61943baa1bfc0b2e16199a994469f41aec17cdbd7d074a5;
0x243efe17e4617bc0c20ecb5f9bd76f48a8dd796fa1058366f55826b80aa69794];
[0x1f4e7bbc8d42779e58aa07bf54ff324b814fe687b4c8eb81b9b7e74448ee27ff;
0x238f0b87f232229a5c7489e1c7edc9d319f816c21e6fe403ff65c60c1ca4b178;
0x1df906bd755c6a965e2ecd7d32768ae2fd8c522dd0ddcbb002389e90f5c6a707;
0x2da47d7b5389318990e3d6eb9f9e93eb7404439b362a0d84da24d8c715fa8bf1;
0x17c623def2d2610588b3c5dd236ac31026a16354f29b2f8a1b0955c391701f5a;
0x1c6c37b8caf25198a4a9cc93c559e73b7c90ca6df6ac721a2f52cee03f57221b;
0x27feaf5bb57db47ec317018969e6e767f48d768fb138698ceb4aad474f10fb3;
0x4e392117390c777ae93ee29db53979f4f0e168595d9dc5fec4eed18ea0e33c8;
0xa1bf9ddee072347f46524461f66c65582c5533be183c39ebc5325c2e111eb55;
0x23382c75620eda77c18e3d166fee7b74e30202ae8309890010849e1a79cb90db;
0x234c33dc7c164b187746919301403d75c58237965627738d9f48d393a44829af;
0x216ffb6e7e5316ddb852406f11331c24f717439f27d57ca15de065958ea44462;
0x21269800c6b53df048610f35d1b344e03a0fe15f0a5b21b73c799a48e4d0721f;
0x86ec72230cd5fc6c7842cd5eb4fd6b75c3051a915deaaeb61e9b22780579a70;
0x2f54161c4ccd936ae2c3edc204637dc114d4d3d6d98bd9b6d8bdf603bd4b7e72;
0xec71181ac2bd7226495ff60adb20a3c9a7636dd9faf14db5335d8c4c1ba3a06];
[0xf6b18c98fc89fbfa99a04c8c96ae5db35c296479f484b680df905d4cbd1dfa9;
0x12567e67abc9b35af4ffb381ed3acf244a2f9019839f5f8d2f0b442f51be88;
0x178391cf8f91a1e3b00f545a3a4a5331feafd2a0d10d9027c56954c8a3f8ebc6;
0x2abf38b2c05989402c75ec5263e3ac75bdbe9af0c1eb92883d5cda564ecbdc37;
0x2a2c5e5b24751e4a10e893ec2f7ab96f83a970cdf3a543b20a48357cc7ec8570;
0xdf7d4b832373582fd4fbcdf7f3c49749f6efb59fd99f4e8fbedbc8190a0d8de;
0x72011cfb8afcbd8b431269dd5d74aa99e795c6628dc1dcf6c2d8db003bfb436;
0x2e369b2dc96609f8c17a592f2ce063683d148204c2912b0e53a70a3c46bfa9b5;
0x59b27028b4f0949345ed48b3e799d1081350784e0042c994243297744e2e226;
0x222dddba5c72cc2d12f0aa37e940a09424f6e3d679cf725bd059b4182393c08d;
0x1d4f2427689a1dc5f1d7c68311ce5b0a56a961b3d42a746f356dd81fa147680b;
0x2b29f8fb4f37691d3981e3fc495ee58c25ecd758d6e24c3f41e5c56221a64fd4;
0x267bb17bba0da1b457e2fc71493f7d7b9da4ef5d13a62e525defa3d080b766bf;
0x2e6530de833c3b1d1f5bda0c6f6a244ad8288750865136dc22bb752c8e044039;
0x1f0b90c52358a8a14da112639c7d2ea2ff1df537b41227f4d3c9ebf7014c75e6;
0xd9acd7178242914b81219b9a60ef7a0d6dd0fb571609e4335f8d419ff982d12];
[0xe6cd10883e1e11c6c191d36329f30eb0045af06c2d86d0c439f5c1f4fef54b;
0x2bbfad45e5a92d2fccecc514648ba944d35abca3f6570958eda96ab2e03d8095;
0x1f8bbb7ab0780d5bf4070ddbd1b99eecde357757f3773ce6a8a33cb6d3d6060a;
0x2578863a750b236e5975de83fceb91727b4f588c453a94e40327a18394e835ea;
0x28284f2eb4ef38ef729f8637df230532e3a410186dbbe5ae5497c69a7cafac78;
0x1c535fdc7111ed734def9074724899bea8525c2571335159af33af57310a8db4;
0x29037a8126d3d81fcaadaff1995a15f9e5113b205c2f7c2d0bc0361f06a9678d;
0x1cc53180a2b9cfb4978339d086ed54c748a5f77190e30dc2879a76a107553e6;
0x2fd6d01024cdac4f279edd9fb5219b414815163b384f502b615537e03cff2b25;
0x205885190c6d00c1420074e1a4a3163c382f7193754fa5f87ddb98a393d032f0;
0x23cf89940b6418fdbed6f84bbfe0c5f850a9ba88c41e998554a4a4123d0ae5e9;
0x968d36ff2a38e6aeca306fe28458719e69ba1b0fc76bb561fed0f82255cba8;
0x2c9814c96a72fb32442dbda9249a412f98a23304a86ba9848567c5b0754554d;
0xc11ab9629bc935469b9fdb33f48f22db895f5dd5e182575b2cbbb221105fc69;
0x2b98eb64b8642bf4f5291ffce416102088b471aac3d2f80da585b5fe1f245886;
0x2ba9f7efe0d61c8460085cdca6c1bb78aa7bc086533f20f301e010d5099ee790];
[0x425a9641fb01558bc7170a2ffc24eb6a514198b296a1629cc284d983bca8757;
0xd964da26287f09bc190e8235411bb9bc9068003fa6d6ee03229dde65db07fcf;
0x289c0cb7f84d62638c2a2f37f10f30a58d8bd8b4c5bd8f5a3ca448e9c668f615;
0x6622bf28a5fcb361e0b7bdfd7fa08717b51640d05d1f6f6ba94b50d26ddcab6;
0x2aca8f7acb59233bc4d4df65b9c6f30479e9a72f5e6821860b39ba9dc4d03f82;
0x1330fe288bcb4ad27de36ef48f063baa8ab30be65940592fd97623c7faed4e50;
0x9efcc692545703bcbeb641ece624880f73a10c0d2c2e6132f9624eb5f41b1b6;
0x2ae8d813634a87b031bb08573bdf237ab3701215b77ee9a4e6a2c01c1c1d4ffc;
0xc2b9bb36e8ab693866b2885bd4482ed5c89f069b3e6445655d70f4d6687f8c0;
0x1a606372725698e7d7f3a7280617fd86de9acaf98bbd8971d8ee53932c2eb6a3;
0xa6632613bfca8afc8939b33e4912ddf18b034be621106ad695ebd5065afe00c;
0x2479769cd60838cc140a649e8937be28ac92c71980f149caaaf0100d1f102374;
0x1f925ba0001429fe493f48ea404a8ed283ab2cc2f3275ecfe320afe90426f462;
0x1231fe074b771ac643d6e188f5732c209c71b768739b22447e6b5dcf499b4887;
0xeda204f434a347cbc55ef698aefb23df064c57fcd4cd4cdd810e05ece651535;
0x33bf863141b2b9aea2e59cf6c4faf11466700aa5c383af451d403c9c53160bd];
[0x397a7d7434b0aa941348de45aec442cd5cad2c398884950e8233c58dd50335;
0x1495e990865f559df4c7bd6f21272b8106e2c91cbb1a9e2089922c62b2a76ca7;
0x125496878120d9ff89d702f58154ba82158e818db90e3d12d6a08c5543536368;
0xf8ba5444de18d199aabbc5442c1d7c01cafafc79fe095da31928d776bf984;
0x1eeaa31dabd6b6a9efa74e4315917d902b02760a04b04eedb57e261fa2c6632a;
0x3776a7d69106118a4d22f86060ea7db0c9c8f3ce3ccd6c88ada43ee175cc811;
0xcef77234c42547957e950e45ad3b723735c011ef47ceee8ba422bd16759be2;
0x1cebeac557d2337e4687501f9f71fad7ecb14ad09550b52417ac33c2e8bca21;
0x6521b700ca47f222ea2e280f3193df67e1a5966b8cebffb01890aa3a87bb328;
0x100a85e6da4a0b92a81f1512710c889a29c8ed3e0695bc285a71ca5617705fbf;
0x1a6288255e7a54d4397ca40b3be72c0469bc489e66f916c1a90476816a2f791c;
0x33125b9cf766513a8e82a0d04374ff181bfa818f67ac1c7dd4298cf32b85e76;
0xf7e82720135b35277fc54ebdd88a026af545b745fc20449b7068c6865eac1fd;
0xa9f28e621172d911bffad3b5ea4b73a49a959de5c86e8ac52745d558a6f588;
0x18a93b5dbdde2e99c234253d4a49348312e58f033e87d4446945727da833c54;
0x2237324de68d18d407db3fce2a401e8af47ea8c5bc09d862d12b8dbfd3af5f3b];
[0x1d66f208fc04411a1385c22e203dc08f0bac2f7cd9dfaccdec20d3b93252ad04;
0x1014b540da45955bbe759dfc9ec4bdf32a99d56cd2742d269ff8691d915cf247;
0x1720174606224668a7067c3e8c53b1ee68349144af6d6972d38c90bfa6bca639;
0x6693893b45a40bc7366925fe7978bb80fbd5b9a3ea27c9dcb456b2b04670c4f;
0x249c8751e7443e96c6e3b6b78d7f288e8a00c05f12597c984f8f0eb3f9c0d4f6;
0x19afe6d81031fe1cbdff2b24eb7d691a50bd6bd8da98ef658d75171480cd664c;
0x2034957e3fc373e94d77e0a050a8a84ba49095ffc6eb3a7776dd86940d90f01d;
0x1d65f2f3574c1fe006df2d50fed257bb935f902970c7aae131a41f2de4b48bb7;
0x1563bb61629e83922438cf0723716cd4daed36ae948e74c5c85dbb7e9893d645;
0x2f10b78f744104a54a8149200cae59e443e74edab1cc3cbc2d8c170ccf2f7889;
0x7396d51d19d94cb34b304ac606b54399e89273abb22ff7bb6b433e472ce1e8e;
0x1cbb8fa4be4e9fdf0ec9ea67df8df2c1b796291e75db4f427c843216fe48834a;
0x14e3a6920a412da81d917e7b9d98bba849cc165e406fb3c43ac421f9ade0c228;
0x2a8e486afaa01aa8eeda571541d2199b55c8f5f730ca5c3879f246c227809c9c;
0x7abc38167a01b6bc5831587de4d790de43e68e6ca9eabcb64b8af6895ad968;
0x1e825483a9f85081590c0ba40059fea7861719e2b7da11323437313b77b6a8d];
[0xec1ed3ae3beac4ddd1fdb17b9c7c648e7ec81885a07a5bcbd967e6a3676f356;
0x1d8385e9787d1456bda399aa4d7f5c643cfaf25d6ed60e1be9ae8b98fbede91d;
0x2f574b85296045a2b1328f482a3ec674793ea300e0817720e6912d467df067a5;
0x291fb174e5ee77c060615a7f5a737a57d56e2060844aedd0aa86329b9b361496;
0x2362c38ea538ee898a12c6458c399d2870bdd8826307d56f03bb28e0e30d09f;
0x231713410ae9a8da08284c29b8b975410dab6f84f56475da37711345e68d5e2d;
0x2ef69fc1a737db3abc895f656811e59e7d873355b2e1342aa5134d8bf702ac90;
0xefb60fb18584fc86d88ee569da71046f765526b11f6c20099a6dcdfeebc4f70;
0xb044ec6d148637a47f917944f81e9c8b83b0c0c5ca1bd3462a4e0daa7703dac;
0x202678e431648172713afaabe2c8ea148061205c639f639b5e45d498be1550d7;
0x2a1e1954e5b010440c1679719e5a0db27c0aa7957b755ecf2c9b3571a8aa0a0d;
0x154d9e7b0dc8fa67c82016fc687836f61284431fc9d681405edfb38ccf28a6fc;
0x2a704d1d93253cb1096070fbf26d4df2baf4d92057d87596cadd063176267917;
0x2a24d4dfd6e9d6435e4ca1994ca11ad7adba2924b6ab7cf7c6a9ef5e7ef9ae21;
0x1688b9a9cbc3a63df3a2a35c6923aa0949816cb57fefa6e95d7627b7663a6317;
0x1d1caa8449da721f7c949ccdc38ec8c6134d97d7bbcdf58fa3c471c51a672ac];
[0xb3e601e36a5d82e0214362c8419474dc1cc2c0ed8126534d69a3f790b27c603;
0xe6b936ecb8a59274624533d03746cd5d266e6c5490d3c95ada22f4a22e80e32;
0xd56cdd730e1401d9d7f93da88d6f3bfb8eb1fba440c552b078bb38a7cba55b2;
0x12c0b93d829ff5b9641d9f6f2ddb4f92c7a7b147b794139bce98ad87d680d717;
0x2de07475e19762eb5baccae3e88aa1493d35d276c4d05c670697b43824a41640;
0x2ea094a22ee4755e5df8352b2ac671e231c24785db343b9145f9e44297b361ac;
0x2ab4682e32feba55370b3a477ad83f30c88db387bb20c6a9b2e567f5d60a4a73;
0x1a70ee4fd1e45c498e771e9d0210dd14145cc2740c3607e044e3c68b6a6017d4;
0x20a815e19a6198e3a2f8a8bc2631c552521182f63e125477cf765a27707035a1;
0x266fe05c631b74ae1cceb24143a96e0e9fff59304f04fedcf4db3da13508578;
0x190dd58a88fdd887a0ca830681aca5949ea89050fab84b66297d7d14dcb91a74;
0x1ae686eecd7623655c55154aa8c5c82136eb56020fb8d1199aff5c8bc11eb0c0;
0x20ad4678ee812d96e544ff8e5e65d4fb7bf15cc6a524e6f19de6af983c997b03;
0x2caf670c84f98b68d05f4ee672a1388306376e7886e30bd2b163bfa7fc15b443;
0x1a336a86dd0b3325933238a53bf68f21ff35e9569fef12cbb61d8ab9c1f50ae6;
0xe5fc7c1d17854a0673479d4589da85e6e61f48cc950b3cc531564ce5fca874f];
[0x163cb4e3a5ec92e57b25b095a3aaa8cfdc4ce59267718cc6090a07e14af10b0d;
0x19853b1669534b82fee656f037c33af733bed785ab726b0825dee79b629b9706;
0x1b164a2238c5e107696834ac58de1b21e49a366ff6307159dd461a3dd40c2f53;
0x2923c2a5464dc991733e46124db74c405e32b3fd9dfb2acb7d889b19a340ce9c;
0x2fa1a6b0c6b0e9d686ad60801c72955c1ac256d23c545152efa81dca6fe1480e;
0x27cf8750197630022efad9203e63aea2f195315a1d065a36894a5bed32bc8941;
0x23f9c83f88ce7c78d0c6cb8059fb86c2110c7c266778ba8169b665dafd9de184;
0x1d3ce51d11885aacc9a7a3b9fd2813e7ed602b33d3339fbd91bb869c6881ad73;
0x293f18aa77d8372bc9ca53668a9870de638a706734631c21edaddb20c4a6b85e;
0x197b9d069564454b7f26166ee1614896f153ed11f6215f06951b834c4da38045;
0x131c5cce643d2b8d9d294b32abf2c9010ec622bad6f1181e4dadba9545684bf3;
0x2556b61b7729a527f2c01544abc585ad6da9c92b3df9121f37bb0fd0c03d2cd1;
0x5a0d89380a2a2a14acb860c3bf32ab6b3c973d84b0d61a308ca73257c19cdb1;
0x24785c81f63404b46126436afb27fd2340122e9a98a58c467ff14abb5a90241e;
0x9fdc6f6ceaf2566ee3a618ac4d77e86327ef278b968013e33f0813190472b31;
0x2afc8316618c153350f4ba229e3382245c1399b2ee4aca25580229fc237f94e];
[0x2dca90f3e5a15b29895f48d7a1290d7a33646b89620dd0a8ccde3aa3a51d41cb;
0x1ac11195f74d7fde657d093a313171f0bc3cfe2fb965e5c352900faac25305e5;
0x28fae6efd55d9648b0d9dd3b8c6e928c11a5941dd6ec235a9014c6dd35ad315a;
0x12e496bb2680b7d14ebabfb8797e9c6bbac68a40c8b8fd65b5dfb18e38c99680;
0x190489ef4eb4182eca51332b895875d6ccb7dd060aa364c1d289e2e1a7741119;
0x15776583d7d261c6e8b338c3b3fa4323abde66ed0f477d0355119c9ff5482eb8;
0x1370c01789f712284290ef1cffc5d33288fb504c5763d2801852b960ab98afe0;
0x786ebb71e920bd16e3ddfdeb748e040b7f1b1a0f04967f55210bae2f76bccf2;
0x15d4d2c713cf58f480500c6e5916f52b6ea1ac070771b0c83a6fa17cf6c9b904;
0xfab2ea8e500aed64630a51f8bf9ebf040073e23a3cf189638656d6dd1af86bb;
0x1338a1a447a9df2fde50aa09745ed3bf09e32e4ff2caea1b3b736a666c715014;
0x59df1b1e661d317d01a513fc7dfbbd80c9192d33adc60602b0b0b9d45e08535;
0x2f840b4ac5c9227c0a648693878cf37e955a037877bd5e5ccbd8efcfa38466c5;
0x844b5753fd61108fd7fb8a707e770af891ec99da9d5df68b013a3a87599ff7e;
0x2049ee37129926ecd6ff3a08e0632a007ccaadafd0d402a409561a2ce095b52;
0x1f6570fb39247442fc03a5139944567ea46f6f534a0214b611fd3b2d3b878369];
[0x2c78ee5ea16d38f0beb9dc0733c4bb1893cb33ff671b737a1122d64f729cff22;
0x350e8d2eed84802dfd14d7878b0b77cd9077778c41ff7733d2ce688961a4b30;
0x2aee7c9d86aeb8744b9d3bd7cec5c292e1c65cb633de0afc101e9d6fd2a36d5;
0x16ba6796332fb56050e3fc4111f320cc05255c292f34db71e816440fcc452baf;
0x14ae46529aa1f2b79da80878382a86338323f6a293adbd91cd58270513f4b693;
0xcf33eddfc73e29bbd785035283f6e805133bf1e34bb9e3cc2f915e06b272e27;
0x28f704162c3bd521df847d4a8a4f75439e668ef7816a91103158619fd52e5ee;
0x1c207d7a9081da93b7375312e4ea754523d9198c501f65638f5af885708d23ae;
0x1cc29ba8eed43aa2f71831b62eca71c1a46ab68007777679aaa8d6121faa5b55;
0xb39596ec65e453830650f8dd87d0fe8abc96cb59636252e27797920e06b6a2;
0x162ceb46008b073da8c811a25a68b56da01182fb893ae1c6b03d310ac8944fb5;
0x1f2526ae9adfccd223ab57e9de7e50f5d3ee83284a8d62a5e40148f4dceafab8;
0x28ff311d4a44251feee051511cac4832e177edc8a03053e133d206e9f6704f9a;
0x1c362078a104c738bf6c5fda0edf9ce2cac3b21eb2779e734d14d7276a8e5267;
0x4458b88b13af0f9d45c2b43df72abe53d6e9b56fafb1d0c15cd45a13d33b05e;
0x23897eb294a5fa4f300110fb96ec236f8c0e049f29da5078d1224337e256e703];
[0x2af324ec4f9e7786dcf00439c75a294bff753e3292bbf62e66471fa730f19c79;
0x11930ca8a8841441dd799a0e3e78e1a949f05bf99603b382ff771021770f92d3;
0x1bd210b6e6c2074d94d9f310d6906e81890175e675cc8dd659c287438a08cc4a;
0x14bb891ffdff2ba6b222332764a72059404e581f328265eafce4faee0637c6cf;
0xfa8399ba775a9e98ea3fc29231e1ae7177dd8f63c616ed4f4819f0db982aae3;
0x17749627adaf3ea1f31f149cb0fdb032b9c2f17c262aefa35ec1d516e577e6d3;
0x17a14cbbc6c3e70e50145daab58ccda20416fa7a0b0564056e0366be14d9754a;
0x1ff273747279cce54284fbfbb61bbd04f403afba107507f76812a645fa9fb774;
0x20edba75b3695a0f934c68c90d4ef19ccf1d8b1e3042d32362b5238b10deb274;
0x26852fe3fdad04b05eaab62ab7fe15fcfa55e0340534e28e2d8a3d8181b1c859;
0xbb7167ac0c34acc1d3e0b83212f50e3360eb4e967004da532861a8bb527ab66;
0x957401bb640d15d04d93e3ce3756b5f06f9869e51076b13d42a53be28a36b5a;
0x4d4b72c6c7a5922a3c9ab0b0154d7b12c45e50f8a237a930802e4c64cc7163c;
0x38fd3c972d8ed7705ffbf9d462381628ab654b76aedf4f4bb29a2fc6c922cbc;
0x98ff2fb46bfa9b48439294ce85ad25768cde5510c85175e073f1414a65e4ea0;
0xc872f10e24c0b992944862abd52152c0faa0aa508afb99a6e9a3d2d363a5c1e]].
Definition tabS_16 : list Z :=
[0x2b6fd7bc3a3b595c206c43daac752b765a12255c37ab51ae183933737a8b8099;
0x2fb280a1f23df0c4566f310cf31beafdc3e238a7d873fdc50655fe827868e909;
0x36f175c993f4e409a6275e71558b9e1a0fcd7e4183891a7471ea6f987d6d0f2;
0x3be177a0fe1bf76a94d443647e0f69c0a74cc5dc7af217762210b2855e849f1;
0xed6491c4fd0f129acabcf5a68f01ebd10df6211d4d1fcf54ed75bf6c7cbc146;
0x2158db47b374d9dd31d47c20844fa870005051c013941b2d710ee62e56c0e4ce;
0x637d7b15c4259de4866d36005fb17b866227447e5dce4c27794413980eaa09f;
0xb745dc1580e5e3d6319028050cb792ad8fcb5b1a156dfac6595edff287d4bd0;
0xdc8bdccc8f3ddabca39be41a609714af65f518ef34738fda76e2755e7378699;
0x1fdb7856e27d608c397fa9f7f6d2fdc4b31b17f45c8a347124c8c82ace7e1033;
0xafff33732a140f6759bfd5b2949356a349c26c64b5bb018665e54acb329d3ec;
0x1b1d97c16995fec9aee31a16facade0e2cca653efebee3d5ea70c0f7b39c1383;
0x29ea18e6e4c75a1c3694bdbdb3fd274c37f51e2917f9e0b01d81870ef9235387;
0x15d5f5aaf91baaebd34d07b9634610b85966c008feec7843fab7e50b0616427f;
0xbd8e0c3a167d9eb943bf19f18d765230fd7d224df0645851e669591df01239f;
0x129293724e2d76cbaccac841326365a0b92bfc00437147de6390d964cc0e055a;
0x2d70576548941c2fb6bed6c525db5d0c33ca6c86f81db33838548d672b7b2641;
0x2becbbc12e49825055888292d91ac7439a3cf337d5f9873c735d92e52a054434;
0xcefd0b81bfabcb9920230f3a729ae3303943d8e396c5c0e5ca01f4611f3f617;
0x6e47e966b1b597c61413dc4f996f1456719742257039015c9c1d0aa33c0b0ac;
0xbf90647c85cbc82b06e3a94198e44335720b8afbdff06112e2aca505a43c47d;
0x239bc57d7b109caefd8c614767a590a68f658c69cbec21fef283a50324179227;
0xa36ae4cb35b4f865d7225191366fe691dd65ad5f2966b74f2adc28d26d2d322;
0x11244585fece886e4685fc703c807ec8e0d591b575fcd089a969d684be4ce2b8;
0xcaa7779dc16bdbf99a3f45903ace5079185e317efd5733fc7f766ce57e29694;
0x26996b9d086885f9bd6908adb4aaf6deae8306e463250814dc66e00674193839;
0x135e66a0ee13b287e51f5f1e8f79d4fe7ca55d9135e8921272920ec732bcdc16;
0x233e95062085e2dec808029c59a0e8230077331e358613563788518a3972e5b1;
0x23ab13b15889f8bb381efebe71172f91a0ad65d9f05af6b59e00d0c99f8ae082;
0x1ede4de25a83103e2dea729f0c68a908589fe0e604c86f8d57e058fe11000742;
0x2b5b5bee788dcb23bd488533ccae1431e3f3504e3b89e6eeda4ae8b5bbeb4c78;
0x2b6fd7bc3a3b595c206c43daac752b765a12255c37ab51ae183933737a8b8099;
0x257363f01fbb108ce6360b115eb038270946eb8c46b6ececd68596765ed894d3;
0xe06611bd4eee1605582fc2f0a195524e57a552ff9f2c76832189c382d763944;
0xab70fb6823f52c277b8dd4ff261d965a9427d34af4afbf19f3b24260c15f8e0;
0x179c941d644d804a3a4068884fd1c6d7a82d411d4698c91e1b242966d3bbdab5;
0x37f916e90d419042d297bdc952c7cd02746cbc188149a51a0987cfefe0dc13d;
0x43f3dc3d91b0abb531882dc015e1d9d05dd646d42dfd9f4c1493a085cc00a56;
0x143ad19c1249acbef488ea0a074f56afd3f5b89666235cbf8bb5e6fe44096642;
0x1b76610fc8cef2eb0f4fa76df7ce299237fe7b3a9d024b7d405ec095719c4279;
0x1a5148d68913df74c872a1ea5aa4b542b3ab1b9c0dda2ec220cf2bc36d69ad59;
0x13f11022ed02284972037000666e2d3edbeb9a5350c37fedc293be998eba32dc;
0x806f266e4c35c6f066925ff73d6abde5e46f5bc55b01015db95162159092a70;
0x2e14cdaace09d09b49d437ca48752123a6efe3c75660218f408878871d073f64;
0x1c4fa8d7c6c8eaf33116df7af0abe56945403e111f0ed36af029a17a88027839;
0x23436fd3d8d48c7de5ea32899d09e601877896e044051e59d481f26c6f44594;
0x437191fdcb2c0fccb9dd2b70155e1e3eb91a104b14235a84f9c7f715f666b10;
0x2f68a6ebb5daa3c1c0b1f8e1cc3ebbbb29dae51f21dcab1b8f24f30e52f6a1bb;
0x2d82def6705911bbfa278a38d385fe17c9810bcafd7126f48ffbbdd197e1fec5;
0x15fead0f7cceb9fa5a96b903121d234539c447f776bf13290f0d0fd9cd776a63;
0x12390ef95e294ede3c435f9f14ae4f121cdaaa6b5de4f3f79969a8f91fb37793;
0xa9f6f1757a4b1abc8e0a5b0fea83cd2b8e565105fc6d52e692dece89a6c11e6;
0x996db2a2060b0454ec8a132ee6d810df2df49031ce420e4e790c723f578bd49;
0x2670a74f37e6a32596938caea3cec3e05b337ced6c23d2bf2ec5987dfbcc6905;
0x28ae07ea7a529805d3aafe9f5a2ae662f908b17f864ab59b98452ef28e3fd44e;
0x24002c49771a2fcb63c046d1507b8b2259b4eff63a7be958329f6319fe8c787;
0x2703e03745ed8810cc93cca78ea613cf39f492180d6ac47300e4babd4f357dce;
0x22930293c333499085eae55a01cbf8c32b04d211a0709bd9b758f733e2ed7b7b;
0x2a0ac5d7f2daa3edadbdeaaa440967d97baec637cf48a67a36810430014a902b;
0x25fa48cb70003175db4b2241e6bbb08a9d30128c86f68bf6e79e9a3dd4f3f4ec;
0xbae040ff4b1f63b97474a971446b680c23ff4d55212a99d03d1e27278770016;
0x2fa5db728b6058cc42348c90267158f8e76ab99c646e66664dc2b93963218e16;
0x2b6fd7bc3a3b595c206c43daac752b765a12255c37ab51ae183933737a8b8099;
0x114401a4ccc83c86ae0fa520a3ebe4478fa6d7c4c634b4a6503da334da8404de;
0x1ca6273af6d2e51a8b7c2ba869a1bf10de7a5b9786ad947a02c2b1b6ee821274;
0x2c7b4af671ec5fa12531b63b511782f1f46ee5428b9184d960caf0deb0e08d03;
0x1230182c434b2175e9362b023e55456bf97d514e5332e4753ffeda60f5d97b0b;
0x22e041c288ef26f1d07c86d6c24f48eb041d83a8260b6772892181e2120c91e1;
0x28acbc69fbf7a25ed38927ba63cde5a18284f26ad6581317782219221cc6bd8e;
0x2487337fffaa7fea6440fb59e8e888c1724bbd1f1118d32ada6a3651e46ef543;
0x61f4630cd8a70b5c6a1950def1f7eeda1d2cfd750eac8bcd21d0928d54503db;
0x3cfcdd58420e81bfedb04dfd4e5b57b03eb8afefb5963b81339d92445458b6;
0x1211f09c601c31128561f10ffdef73487c927091f10086ffa889eec1378757e2;
0xad6247ae3bacb716899003f881ae2cb44e40ff4863dc07a400bde10cabc91b;
0x161bcf48d7d37906ef29d522a6631e22e344ff951be2f5418c1f58ef81106949;
0x1615caafce9cf99656045f01b9050872d167219533072672a6261bdafc405e27;
0x1f1fd1b64c8024c19dc4c906e121bc5023c76b1c9610fecc02e009e384fde164;
0x1a343f06c742b6ea01dcca051e7f812097250e81efa506561817c2accde13fb2;
0x1aa5ad37af4cf033774e8cedb40c36cc1bf2fd2e73c135a2145897e255644ab8;
0xa8e74375e1ca92003153a84d2a88b38796905e42f05a2aeaa22b6174545679b;
0xddcb524f3d1e36d26523b37e7a7a565ca7aafbe8b9d7d21805d79b391345944;
0xc64669d92336353367ff746030b946691eed63a8710d15b44907913558ea892;
0x18663caed52af3125ff734ea821f2b1c0ff63e253eb8df61c23998b3852eeb2b;
0x8aa2a6dc1acace95ae99cfae9f48a5edb8d91e6be62ef97a8e48f7bf9d22cc3;
0x1d810d45be42ede9157e37dd929a6b74d0ace0e72b96d6f1e048532027613e9d;
0x2cc11816c46e64c6e7135d72c00a7dce65a7614cbc164dfca2be624668a51767;
0x6bcac935d9e6233eee8555d901d6cb0b5a18e0baeb0774c42bb2c2216a8d3d7;
0x81f422bb15ef7e9b57b79cad63226fc53cb080e6d412e790b5051b5adb01208;
0x17233f2458d93db35c213a72c969a94aaef62fd6a76435c683129a9795177bfe;
0x223c464793888525ecf5d3c873cdb3a6bd67587499a00b440d924c2fdc45f640;
0x12ff515ef3e169b038bbacf953537c2b28dbd1b5ba3fc7a26900188aef36e2e7;
0x55e0568770fbc4c9b3d698e621b1980736ec4259f0b09d9f1e820f7da4174b3;
0x185b90addcc3b674ecbd0987f9480b74625fd07c91bdcbf048a647d561c756cc;
0x2b6fd7bc3a3b595c206c43daac752b765a12255c37ab51ae183933737a8b8099;
0xa4ab29f428a1b4040f5510e8b4f10494ebdbf12885955ce937a17360b4b295e;
0x2a64788ea96296d7253a3a9e357715234f9318c08376c15de69487fbf9b0996d;
0x2385278678bf43e06271b87c3f984f1b425b166ba786b2e1e723739a6752f6c9;
0xf8d204bcf2efaa0866818f1c3986627ff998995317a960b56d8aa3f5c10fbfd;
0x2d07b5bc553344a4887dc8f3db5858e5defda22caa9a6ccbe23e3332ba18aadd;
0x1e1a6765877cb93580433e025985f80aa19c9089c17138480426bcae49aa1c7d;
0x15f1a60617344d29b6da60f57ced335da1dadb402ae9a56ebad3c0aab3b69e73;
0x6be01da4de9af6b0d2937bcb65697fdc23e8bdbf5343938315ef4dbf045d914;
0x204479ba44f6c6079df123ba1a54e248db6d4d0480393913790ff1f10b9ead7e;
0x1967ca2365849a5ba9abe3419797885af9736c42439f1481862a00cb4c83b24b;
0x37b78ab4c6c1cbe83f197633c4c83e22fd38219786d9c5744ed4224eabba54b;
0x21202d9fece3b3517c2d5e79e8a5b47824fe47658704341ba7bfda3a3414fc5a;
0x18bd7e46303c3c2a31e68492472578708a68d1d6036b961650057b7d1ce55eb9;
0xc5f32f34e129de8d01bf9010b16047bb2c2128ee021fce0ae2c03a2f0b20c55;
0x1ea1c77b9ce7d24a4f32fff661e414f0793d9c4477fcc5a577b0e5145c80671f;
0x2abb7ec37e2a52a09fa5ba144d29b8fea69efa205b4690330013d2da27fab6fb;
0x196d47ff262f5a90329962beb3c403490547808ffe4fe96c699195d9ee5a2326;
0x2da5dc389b073e52f92970aaef0d061beba25bbe8520b781911858598682f57e;
0x2cce11343f974369dd5fdeb7a8a796d3a83feedcfa0a78db72dbb789bbe1d847;
0x131262e283cf0b05fef60886f32f084a47755fcb4cb7ccc4c689e4e7f0437b75;
0xae1188d015d3604fb38931c02d790fca244b8b284d547b62fb03f98ac887716;
0x7579345afb1c183eb92a630bb7d061969cdc515414bf9399797d7413f8b904d;
0x2429aebe4a674a80f0a8ae9b38a3f253e45b897ae71a7b5d0afe4fd77d5d8769;
0x1382b92a6c573bb195a953dc0c697bbbf30dcf6806f6ab2a5f7b500a80052de9;
0x1d182578837b58b32dd31a315254bb0a49b04b3d5ea49d582f6426637be87413;
0x2d9888fc8880aa1e4b265cf60218727c3556ac8d31b7a3dc6a1dd5d51b902207;
0x28fab72bbb99f1a6eaf2040a74ff55e87c5a48c2d392a7752c76fd2fb33e3390;
0x2678f1ceacfa8e3b48b5eae7f060021a4f58cef56b12d52b9f06a09e4eda55af;
0x1f61d359d1619ec4ff2f1eafe57827c9316e10754718b9f51b36c71979cc448f;
0x1a1d9f64b52be377e509d5a57f004bcb6db0edc85aed26f51581d912da30e95b;
0x2b6fd7bc3a3b595c206c43daac752b765a12255c37ab51ae183933737a8b8099;
0x23884cfd0f045915025a44e9bdb14491e626edf74afffee874c3e4d125a4a177;
0x285d07475f22446af1515c134b10ef890bdd927d0328230d6374ceae21e5f169;
0x353d664345c344fa26ce90da4f498fe33a62e8c46e7e05b47ce11b669bcccd4;
0xa5f24df76f39b004c073e1cfcab0880702b9e84837cbcb21bd002e2449ebff0;
0x12dc4fd8b792019288d665292050cf58bbb2c55be723d6678ddcbcf55cdf5c29;
0x193f04538e44b693b5f03c328610092e8b253895beca308625b8bba24229e6bb;
0xd40fe93ed90a0196dc17eb24b05dbfd08a2d9b85103dd44d887b78bbf08251e;
0x1a1e1f731268025c10698efff9a1898281733296a02ec2e4286c0aa9d766250d;
0x27e53cee0536c3e96bd4b78d76b1b99d611466b687c60dc5242304cf2c7f04aa;
0x1e131e762835f631765d6a0548f8b99786b3379a5423669f348e63c1a3cd4057;
0x18377b53a6b68420631a509767ab747af54ff52fc6a300f6759e89d0fa81f62d;
0x2b52851f9a2c117d24b7b3ef861d3d98145e18be0ab17461bef9170dd124f2a5;
0x203131dfe05f4f3859a2962ce2736f5f665679cd543440e5bbdf8c9e468f8f1a;
0x11ba7216dd386406bd1ee9de577c3015b3b568f612b79d2b901955439b5f47b4;
0x6cff68dad82139580b6ee40346acb41a1b88e34344b1ee124cd845ba4d8db12;
0x176b605012f38593df0d0e12fdaba43a024327554f045875a394ab6d66596693;
0x2bb40088a1add8496b2a0d0774c06d99000d9f7f5e78edefd8267bdc2602823c;
0x6ab5edcd1a597a55efb6f5f3028b5d46dd1838af7e0a7618fabd206ae02db19;
0x1ef4d4d25e3f6731401c06e2327e1dcdd251e5d868a49615d7c9e671b74e52ba;
0x1132917918891833659ae5aa5d4608e9ee52f8bb8c6a15af2bb6c5b2538ee108;
0x3ea727908383eb9c0c5fd4c8f4477c7d7cb3887c6b7408097c2a099ccdb436;
0x1c671af55a23385b16b41f93bc5c9df9244a2b2917fa26f989936d9e10f58965;
0x2877b09253cd0233d358dd5c03a15ebd382a94f65bb32f81a409c3209c83dd16;
0x120ac765f71527adaadbb9e91c78bfbd17f30b1c5824bbbb6eb82d2745bd3352;
0x1c2a7fe3bb93bafb54e3a35f4fccd2685dc5a59ff6b9e76538f37b7c79110633;
0x245676b487e217c63beeb368b204d8fe8e5e051aa91efdbcf6854d9d5ee8aec4;
0x1a0f4f24f3fa75b07185d59f382ff63f277dd1af0a902f7107b63fc9f450d87e;
0x174bb5947efa62f904759a2e85cc92c84b797688ee8c2f05699d0305f6a68abc;
0x93051276353b63507c05bf904de6f8d971f7d386c1748053840b7b775beba02;
0x20110b96b513965874eec9b57166abe7a71dbac4300ded7aea9eb190ef9b082a;
0x2b6fd7bc3a3b595c206c43daac752b765a12255c37ab51ae183933737a8b8099;
0x17a51da68d46000951b06fb3f9e3d5b83494d28feae75a0d77381129d1b5cc11;
0x19124aeaabecf4135010e1a965341e48ca4fdb7b0cd507710ce685bece85a51f;
0xd4eff1190530bdc2e0fad57504ad2d927a0d5d19c94424013818bbedac93ccd;
0xc4e91e3b7cef308d9d42940dbf9a496e5e23f954bbf9cd9f6a141bc043c89f1;
0x2a91fff770b866c8ca8c530d786a522131c1526c4694d8b7b7ad3ad8678c6140;
0x211b948fb5c8a9cc45f8dff7f19d5092c441a1749009ee7b0d26d02d15302df7;
0x1e30b1031a24069cc93961bcbe7ae460663d24ac25b376fa8d2a8cea3969e66a;
0x18b82e2032f53458de5b5b8f6c69d0f59033e0e843d3523a0e433aac75004ec6;
0x1dc22b5bfc2732c1f3481351752d7895f5594716a57b22de0953d8675f35784d;
0xbc687ef3b18a77ed8495a8838fa82e35a2be17ae2bba47a9f5abaa26021afd8;
0x2371c26d8f7425cee8f66acc9f647d889b78a20c02fef9bc8e65295536d55666;
0x1477473a9e49c36a60b0415dba5e832e23ba2575682cb706c5cef38c2ee8b9b3;
0x53e482959dcdb79f52e64a3bbe20793fad3af4f4d052c0cb9d36dfa396bf4f5;
0x1f1b58b95eaef51e442d66ed24a23e300b3df3032f45040577402279da01620;
0x141411af50e95784b5365ec3d4879e78d311c06d3b031a47b7b1989ff8e2a05c;
0x2252323b3ec06cc62710778370917d94635eadd0ab946d83c7211df2fd18b12b;
0x1f9f09cfcbdcebaea2b1053db41f39406c4bd7c08d69632e5fa88d11d8db2ff;
0x69d5da11e6652375d70f87ebbe9b7df0addda9634eae09990b68560ac4ed710;
0x1978e5d647456a8b3a66edba35753faa93e3f3af1c89f418aea0f68bb513a0c8;
0x25d9a4e603b812f39a20e6e5eb99c0ed2845d383b952b42e23d65fe68209f458;
0x234b43e3517f8573d5b4b6c905721747501928557ec4165d9513940880050221;
0x3e66cf2636881c8a51bbb3532f0ee3abf099d16c6e029eebc7ae903a9b74d74;
0x1e98f8fa7b0e98762453c23bac6735b00b4fadfe63c0448be0ce344456b7f189;
0x8aa709b54a8df091ca048763f4573cf9917aeac083ca1b7f7eb84c060d0e932;
0x52c7ca7fdca9ac2cd344a294d322f1d71d1384d5e0a6f44d0ac8b34e6aac4cd;
0x331b02bc917bfc6691d8d7f52eba08a5fc3f47d16f02e440644390c39ab7361;
0xd898949994a6f263a9f8225ca5d4a118b7955a4a79606262394ce69d7a7e127;
0x10b47b130c16007b5379d744a7bc19e45f6d92e271a299766420139f20a7766e;
0x1132f014fa7599d744c6d40d1be4ddd44e62b3fa4bdc439a48ca4c08caff36ee;
0x1c5e38ab4551aaa2ab2ab5b69f5d6478d668719523787df968bec6e67c349a0f;
0x2b6fd7bc3a3b595c206c43daac752b765a12255c37ab51ae183933737a8b8099;
0x11c9a8d1a7cf032ef4eeb3976cb45ab2639e2328e018f2450eed36a42b51724a;
0xd68b0ef4859a99d9a3d358f48ec049222b4adc40f5211420ff9792d3380451c;
0xf7e3fbe842d222839a6a28926d2b7dbb20cc776f5cc35ebe6de1972a8061070;
0x20ee52f4c572121f278ca8f09daad2f1c0ef8541099378b0bae1913528b01102;
0x24177470839e90548fe652abf877b6e788dfa4e0f4364a20487089349d2b14fa;
0x1fa98b63c69a198ee335de75179b230861470a0f60459ed53930f592106154b0;
0x18fed7ca1d352fdd257bd8999e955d46f48c3fb2f67e9c8b29ca0fd6ed5cc4dc;
0x1e4afb9b1400def427a1a5c956e761be43bc3d15ef07098cb08bfa994e5c69b4;
0x2b8b851fafcc041cedfa64521f6fb53a58788b5b166da469192a1d5aaba1ab06;
0x91cf8ac82b6d84be9f81ac1351faa0de2226260a1019d1dfb24437ca34325de;
0x6f7d61897e3a765d4e4526de3cc13b4c657cc5ec81e08388c41d94a808a9a5c;
0x2862142916a2c23432ee3563951c646c4de7552008c928fa13ce3e3501ed8af;
0x2cc6cc5a7e65d688d27ffcf1c4749764e7294c23d0108a57b29af443bb93f5a1;
0x140d2a34847cb9f0776176010d8070cec8392f612f3573d63e58d69a4c9565bf;
0x19800afc9d05a5b0386e87a855acdcc743a1c80b0f71063d56d0f4d6eafed03a;
0x2691df476c22b56f9d6d0cfeb1b706d66a1e41e69de5f6da9f02b9dfd8954d35;
0xe3d1a370a2c113f55e8be6a59667f72e0bc9018c6c2b7dc154de2ada843cf99;
0x422041cdbb99e9110963285e90c233f1843361d8d36878b2b2425ecc9ad1468;
0x18b3970150586c60e36243d9f787e9cd234ae54249bd47d53d8350431027541d;
0x2608a620c9370842cc1e7eb75ced965212717b22032cff3a90f1916d5d6e4b47;
0x102e638d33d73cd137a4bc97b16ed6ea8ff2114ef025e123a47fae1209212fa7;
0x81127c379d08c86b6283e3ba2f7a163f156ff1efbe2d058b68ff1d8198115ea;
0x1003330e6c9bb087c4e374163f1d93b51ea2747126942a891b93247dc3b9dfe0;
0x26286df4b90a6d6a80afeb845b9b574c8e114dab2b23abd4d92c90d05611792f;
0x2fcbce3693a0f365c77f5da41f04606747334c0e21ceaf4719a9c6c55a6db034;
0xee49f7bf8d9a6b4657cca9a553b12ee1e0375a2251402b6233f14b3ae43c458;
0x1a9ca035a5bba9e01a8339c07711d9c5e79cae3441f272af3e6fd0fa56889e06;
0x1202f2ca7d4f98e448e3cc47113806ec2f94885d536976db84ac4f06b7df6567;
0x89a14bbb8f0965a914cbbf83049d95598ed83fb7aebbc75a4f681efce3130fd;
0x13488f3b0456524d4982305fef6e6c81f959a37da7bbafab57f87e8a2e3f264e;
0x2b6fd7bc3a3b595c206c43daac752b765a12255c37ab51ae183933737a8b8099;
0x155c91db5f59fd8ea52fff20993ddc3285ecff97ce2ad697f4a078e8440361e2;
0x5c61ec06f5561c87256ec21c6aa92ab1d3dce01496072af5c5081aed70a073d;
0x9849dc13d2eca871c4dc1d117cb0d5eb5b1a98e63a1821f6e0895d0109138da;
0x133c60ae1597bcae3f030cf1a3ef515ef77f8dfc0fecfff084411ff40a6505ce;
0x120e93850c13de3d06be4ea933f3451cb3d4836d55f8b65b30e3814a1eac7cbd;
0xd29374214e1a4abeeb8d36880e6f43a2a899b3bcca7ffe0fc1482411439cf27;
0x1650118703315ae3ebf1b4f5e333373428251036a1245ace4134f4c9bd3f7a91;
0x1853287541cd687bc66770237fe3e86db9c98208e838ad1c9fbb3c2e9f0d2f5b;
0x845a0b9344d795ba81ca6dc433abb5b9d1e083d460254569573e8ee3e9da5ad;
0x1903d07b2722c0dc818dda893d74a9ee7fcb8b01d3b24ac9d7604c970f68e002;
0x2b153908b83d6a3fc4b9406f891c3d51ee429c8f6906c24326de4baa2c22d6d5;
0x1074ad520b1b0be2f4590ce97d9927f4ba582fdbda90f73810e0a75475fd0d47;
0x1d7a66fca345168c4cbb549ace2478d1e8f0a1906cdfc1c95d323f99d6602f2e;
0x7d8e73fcd6a35b2d8390e56d670b9ecda356fc1da46551b8b4e15380f8cac0f;
0x24398fe811ccf72bb1583121152844be014995a9c213ff371d0302d402a22ab;
0x303c8e1b06ec487e715699736dd043dd4a6308ea6264525634841f4fb530be1c;
0x15186cb1c51f7abd9485ea9ba77cf8fa72584dbc33f909e7e04b01ec550784e1;
0x1800e20927198f24e362f7719ecbedecbfd8bf90b0aa0f804cebd483ea950dee;
0x17b074100a4dda67b9e89789201ba089d0dc1553f4b75858f689d7f9f2608258;
0x12a869d6d8348519d11d32e678bacfd6fe20d7b02422a1e63b958256e786f4dc;
0xd400992babe16a1b5aab5e95bccb91660f22e401082eeec8a2a562cbb098832;
0x67fa6a735e49401ad6d0d4043563326f8e063be13b28875f6f4a9751bed2879;
0x8aa46ab3986198d493b9707ed84a61034da2a8bd1224c5ae8aaa3a839cdb114;
0x7d061661185186a26c40bc3d65c84064b6819dc305e3ea6df08716f415e6be6;
0x164b5a80cc2a390326f6062957d7d325ac244c8c497448f4b96fe6734dbe3058;
0xd267132ff50a0e61e859189065f6bcdafa349aac4881cfeb1b0b68ee179981;
0x29b34d0febeb62b856aaa548a5a9b7308936bd163a46f67f972d4cb32634b5f8;
0x1b1dfe465e4578869a7a113457037d7d3180b6f8be40346f061524e76f9c7812;
0x219d6d65c86a3850cf3648d981b51681ac8e1ac0a5d4d2646b780c9e46895f0d;
0x1709bed140c96224597918a6d6e056c2a6f80c4d27dbba0269f35966aaad986c;
0x2b6fd7bc3a3b595c206c43daac752b765a12255c37ab51ae183933737a8b8099;
0x1db013be405e1edce86acb997ef8ea68ad542ecb25ffbb8adecbb9e323e9dc4b;
0x4672cb42f866056fff733c2d9b23531608c1b541ada0026f292d08230520f43;
0x213116708c620427db2bbc1a422b8dbe43c50614ea1ef82ee32a92c71ba78715;
0x1810bf41c304da8f92060da2bd4632295b784150716ec8b59a3a663925fbb556;
0xe60fe1f6ac34ccee378a7743a96cdc77f27e36027f3ba4439f599547efff8e1;
0x150fe3d5f19845673753c10d21683c39d806ba8b4401785d8b993d5d1485370b;
0x106f91d87819b33c496345bfc0bdbaf0a4a6da037e2ee628a609716b120378cc;
0x27f058d01a289b1ab1bea5dd839fc0db887d68fdfc623085c8aaef5a6cc2a2da;
0xe0dc820be1b5a101b96f1536c465ce27a96436616a4fd1580c31e3f0be69d57;
0x1150f83988fd71cce9335017391d240512eaa73c15f11973c28c36eb4be580b6;
0x605b14fe858aca1b47a07bcafecb571d61c2a7d3f3559e78be31efa13632624;
0x18579a82949ea313f07863f545e5f5365a77926f972361cf7104f2fcac832318;
0x21b2b1c8062f7650217eb2d090922460361e6f0777c227cb685ea04e70393062;
0xf83178738a3442e7e4ce6bbdc1750b29b3fc752d8d529d8b28be179f2808b8f;
0x259a80dc2ea8a894232f5592feaa42db627973a90f50443e08bf743273eac236;
0xaabc1bbb9251a3069e43205b96a072e8f69fb446dd7410e4819d6298e47cc95;
0x18f44db51f091bf261627ab6e0be73c16b257fc358b36508627779722f45ecae;
0x2cc4a9fe2f5afe3a0ce906c8339748dd29e2386e5ce4b5aeac22aeee17c3d79f;
0x2c254dd92d7f002da3661a83147bcb7ede550313124d99c6288cfa538db4d904;
0x2541852cd7c4fbea1361b129e8901ca32d9c4b20b7d51fa12c87a074a7fefe31;
0x8c2f801a82520a9a121ffca321896ec7ad60ddd9a50b945cf3f430a05263413;
0x25dfc7f152ac74084d93c2c517b91857c51a33f8cde248d393fa1c326916e93e;
0x29760a2e5d63406ff254da4bbc97152ac8a6a38ad087702e594955add5c50d46;
0x269b6bb00705c31e909147f919817dfc81d8b491b9a76f223e56f81e64a9527d;
0x1a02cef4a79e0643edd8bfcdf61a009605843c26ebedb1e9060473418f75f0b3;
0x12c0261d1e3b247b69e4582b3a80fd958762b0b3d3ba914a52c9e0be24918f0f;
0x263f9acdeb8b3ce3ac83bccb1918a5d5fc712680a72fd8cfaf5e1c6712674375;
0x207434df901289e8916ecdff56dee469a913970920c64804a7ed8a26f927f177;
0x3a1c03c9f1fa1b8391f32fcbaa1efc6ff4b1dee7f377c8dfa5135d38a9c3ad9;
0x1249e6129ef7507c99a866d902312d3876998ad9f62ac34454055d8ff1d352da;
0x2b6fd7bc3a3b595c206c43daac752b765a12255c37ab51ae183933737a8b8099;
0x68d6807831b6e785e77a20b94dfbe5fc6c23484310d36a9fb74220671804ad4;
0x85b97abe28e068ee5ef7bb4ccd81fadecedd4818c5a6c9cf4f53dd4b44ecad;
0x2d2caa3b84f92053cc406a11ad2985c860c57a75ac356b95a86a83ca504bc4ee;
0x230561c2208c63a3d10b95a64358c5bc4d68d01ae4447b5c6993c8f6132031e8;
0x151f5672052113e6f14ddd32c28c71436daaadc71d57d830ca551e770c5035a7;
0x2733c9d71eb1f1ce45ffba8efb3de22aef7b84fea901bebe793ffcc3ee20cc1d;
0x122c0d0a07c233c687e8156be1567492ad00e6c48ff395d98541df9044d26051;
0x2844674637b223f5779e688bb8adf49dcbcd9256d5c314a512707b24b7ffcd53;
0x13a9188517254bca715d460f9c6f183ad8bdb5fca7770277117e9c477d0d3de6;
0x1ddd8eec094dfacfe2f915e62129fcba3601daf332dc8e248b4d423586ebcd69;
0x15f2e0c38ac84bf50c136e68f78f913f74562eae48a2c20820841a471208d051;
0x1dd71e73cc0baf4aca734d106ac1a48cf85f182373d81a854575e65ced0dc73e;
0xd3682c39a2dc0c0808498cee222076cfc00f11da2b929fa5e063ebfe307dac;
0x259708945a214cbceecfc4cffd2905b0628b3dd3fa652f3efe1c2af12e8732f2;
0x71baec7a429bd060593730c150ff1fdfa050aed0d708343259063796e831195;
0x26865eff75e2f6fdbc66213ee03b9455a109aae2e97cce07b9319bda64cfc6b6;
0x2864c12ac61c22d4f35fda4911370070e8b588a8ee4a82a89e15c0f1a0e2d7bf;
0x2758b8b601674ca5f526d246d221519ec40a0498db997b8aa855545b3659127a;
0x9002afa8899112493dca6ca6f5c6323db8f352008f7d18a048d265e8cfebef9;
0x173c758aea38f6a7812683a6fa4589e1b4a956e8974af260ddb057519e20f7bd;
0xefe6d624981ff5e0b45e575d0b648600bd184973ebf9d9f653d4a5a8ba17322;
0xd14a691145b25ca49c49605c64a9bad81678ea4a4e8b03fe39321c87f09e1a0;
0x247342aea19afa49a8dbb396dedaa253930af22b2d44fe96cefd464839482abf;
0x161febe2355426c2fe883e58dacff6e6cdc5ad5a65b28335275feba43df71f8c;
0x2dff5bf2cea76d0888dc40cdc73f00e3057e6ebf33793c8551e211aab41155b5;
0x1e6b6e09f8195c35767dd23c82ef5d8862ca77e999d65c69d8dc6860d494e81a;
0x3a8fc10bf4a3949e8469732b0148594cb3759123ce90ae3e692966e31040c61;
0xb185f3d4ca214b2e833301ff4e99b1f9ed7179b41191c9960797b39776df2bb;
0x1ac6b03901fdc40b1329bf3873ff9277c70fce9610151a0ef7921ed08567360c;
0x2beb77187ad776989902a94d06a98deefb1312d0558513c3dea6df48bf637ea7;
0x2b6fd7bc3a3b595c206c43daac752b765a12255c37ab51ae183933737a8b8099;
0x149e18f1233f506859275485cf5fc93cebb94ca26cde5d980e6fa2c34a2f7fd6;
0x8a54ca25cc50b034f63d2e4d10b4c735aa759c422ebcac71f6f73c841976105;
0x1c1210f2ce34c2958d640d0a0aaf146eedfaaaef0d37c0a0caf671a8332d34c7;
0x17bfdbafe9e56498cb3d7b15d5cd41ab86ecd47895701cd2d6f26526aafc992a;
0xcd27920c0441d98a8992d408c219f85989ad1056f9692e3db6e9e4196bd6d10;
0x2dd7fb93c20805f91565bd67877e3a4ce43ec79dc435f8c7a85e82c6e5d16375;
0x5b1e6892ff615742f728d3c0cf830aaeedb93ad22d870691a96d951dba7ff3c;
0x831d0a313ccfd57b1cdc9f30e113c29aa35e574b1f55321ae09961b87b6d31e;
0x600e0c844243eadb86618043d2a618ea1f5ed77f1aca63f5e0ef19f6ae09a80;
0x5f0c79e16349cab481128d04a0cbc80b90c2bde9884a94c41ad1b0c4f868018;
0x2aa7de5705ea010daaab30b3b20cef0e74874384af31c04de33a4e1ced8e925f;
0x585493b750ddfe70e3eb6c9be7e72b18e65de229e357d4782b17c76deb2f566;
0x2848f8e38361bd5512352609d7806af1fbc6b1fc285b1c761a78baaa68ff5ef6;
0x2848a529d4f7cd4bf115528eb5e88284150af414523e25d1c012f38842d7a117;
0x30aed4fbdf98cf0212d56baed9bf952466b5347667153e56bae4b0650d8c708;
0x2350edbb556ef46cb8c21bd9841af642ff8b3a399569aa698ac63cb317a280de;
0x2ae5b47ed7dbdef58bfa65f573639845e0677877926e63c9929e47338e4cb926;
0x26e087a50e753431ab4f1ad7dd65cef00d9da6058601b8525a6c517e5259ce48;
0x159d260467ef69e897f646782f03c24d7b3e1dfb3aeb48c469603f51cea2ac01;
0x1e6059ee0ece798edbadc0f3c244b4bdcacb5181e9e470d0591fd8cc3c8798dd;
0x21d0c6c19bc6bdfe12717c533169baf1a57e61fb65b7cb76be2c1265c2c90eab;
0x96ff7a0c18ef35be9bbb3e0af410e1e4b3b902f38cb838150f8db8f034f96e0;
0x27d16991da4e246fd333112d5d5092cd3c888d8ea89eb4ab90f3335f1e11fb80;
0x8a1e7d8bc46b6d0b60d417e4894bdc5ec1b0da7d468cdf0f5b672544145480d;
0x1bbb994d74d79b698beffb2c1360ad7a5da1bc9ed065a38072537bdf998d4ac0;
0x6eaa75b2b8fb3757194332442bbe246a82300fe3d9aeb52548095747567da26;
0x35066f49fddbb428a2316e56cb7542e5ee63e2b84a38caa27f5c07e37f0d514;
0x1a8df2d50679834c0d1d9df72b6a33e1ff4d1a2a02659b635f3908b60411c8f;
0x1a69f234855f2099ce018e287b94696abdd504ffdb8695755a89aac7628ec4d7;
0x282c66cf66f278b3c8f0ed2e1936887b3f4a41968af38ba8435b4dacfe4fa1a1;
0x2b6fd7bc3a3b595c206c43daac752b765a12255c37ab51ae183933737a8b8099;
0x85cd4807b25336e1ffefc9b4e5d618c7aba4c4c42e34b0ab5ec21f1e264e3da;
0x1df72bf6d33b417979d0abc3a5879c9c18059bc954a21b1753f44c98a86531c5;
0xed29b17ee6bc79f0d0da95407ff87f10b937c1b72f78ec36499601c536e027f;
0x2d8f67cb6abae1b1cfe21f91b55fdfe5e62fa2fe3c7c2d61254d840c2e22d0e8;
0xc4a844d33d7410ebfaa0be3c062b2876c22b8f4e6a4459a2942eca9902f72df;
0x1597f8a417fa1c847018051e70eedfbb5a6020525e003b207a241f2251c88188;
0x2dc8e5d6f14e2d43cf0b273522b35e2acc391774793f09014b27484e7b5fd137;
0x2d24d4794146908185f2354fd271608d3098e04ab4e5c6991653a1e31ef4cec9;
0x3343e0c40457a059a893250795a6c6ac5085fd7222dee07694f6c562d966312;
0xaf7db3d2850fc1037428a9b6913cb57ed2b17ce12775d10a2ea59921e9ba3c1;
0x2af76fe3326af61814f0596d1e9c7c981214efab22a78ac52e4c0d2ea5f3a559;
0x28c5facdf2832d22fc8c7caebe4d49c28a3eac34e1c06aab03da51f4c675498b;
0x67b910e6a3555653b7d646888b1620dab05b82afdb48c08b91422e1d089e617;
0x1a8198a68db555bb70cbf396e3acf926b66dd19e4ae5f42a62e1870e17943d9;
0xff3bc5a50528f42394cdb10000362e8b645cd1abca45814cae31c0c1736de96;
0x17832e2f6a6abcf1dcf5084dfe2cc5ae9a5a9d51f3d68e74743efab4826951eb;
0x707d9a111e2bf4971e1c28f0993d0700cc18742f7a217c4c1e2027c536d1d7d;
0xd4674bba848291e0bc0b2c36c3e3662f09831f32af732d2163f7873dbd61031;
0xb81f95f06e846785c898ae8f150761bdd156f063b744279ab030cee5e996788;
0x1a4724e7a15045d9cec46bc059a6e06c0abae7410697e867f97e073e7c059e8;
0x195b3b718107bb2d25b6546f49e1a497edc07a78a37c1de15b39b65ded042a6f;
0x117c5877ba019563589a57a738d554caa7c8c4e3342dba0f33ecbb81cf46f7f7;
0x29f739db99ca7b670979f4a8f3b852bab3b3a2fe0b98a4693c49484b2872ab71;
0x8127119728f625a3d35d9dddd7d5393a9086e4192d1b203efbfe9623bd38162;
0x143607b15463dc48fd12ddebae93c174396b76933c25dbf0b2433c789b211a30;
0x271c4725f01cd9767c7908c9217f0377f0da33e9bc492d187df0a215cfe3e886;
0x1053f9e74f700dd3161862102fcbe460e41f0a30adc546b62ffe3ecff5c142f0;
0x19f6aa64f3f2298722cd31bb3789c6b74f6d12f0dbd38e6ce1ff23d667a9122c;
0x1475d80686b48bab18eb1c32e800912b26b82ac0c4b9db036c513e0b30fa7e26;
0x29f8598b62b2e76dfc939ae61c5e7d0a159549f309ebfe2f3f097aee1c41ac2d;
0x2b6fd7bc3a3b595c206c43daac752b765a12255c37ab51ae183933737a8b8099;
0x3010b8ed80e49e580f884d5e98414cb0619b5381eb0b72bea15185c32e7f2ea7;
0x18e9d0cd62c490a574aaba9b03b0a11dc0c11b4e632094c91ef72c14266a26d2;
0x2495c41de1debd0cb51280193a02d320e978099f54ec96a970341abe80d96a85;
0x92517d7731c97a877e552eebec76ee7400fd53d9be12d55ff9c6b170d68ec78;
0x643ce7cae313fccba434207e99649376ee888d3e309bc8e5ee454466274d62c;
0x2fa4485f1f97ad4c54fa908b0b25424bdc78255af9c77da99b95095619489583;
0x1b327749a75f8db71a4c33e8b99e2c01808b9090d049e1ab3c7abfdf5aa908c0;
0xa062169c4723669623251a50a4318e3b1381fb5c68556df9fe137474b624234;
0x16c33ff536f271145daec8f03d97b56d0f8cfeedb7cc329290fdc1bbfdc2c74d;
0x1280d067c4c7eced7dd8afac4e4cb3117be7901d7121ab53f3d43c4630f7b07b;
0x479c7cdfb220e4d8d7aca9b5fe7380b2cd447ebf3d8a204320bf81fca29eb19;
0x14e024fd7bab2d5031241686c4aae16ee300422df8b41919ccb73fb15ef06073;
0x1a80d20677cd1bda8c97762d6b9a006cad73d95e78afb3eaf3b7f3f112e39bc0;
0x1434e496824b8ea1ef9ea7f9e324c937492e33eb1af18459d89b29ba30549f84;
0x30485e0cc5588a2f49932117b4dde4c933621ab227abe326f429c8688134893;
0x100acb69114b53c1027ff56df9de3cfd561d7ccc81e881555696e0eddfb91f86;
0x17a974539888ada5b3ee0bc7eaab414895d2111c3a9d5c51784889ec6d41546;
0x194dde27e3f6373c944cf9079a28d68c7c73b7b60f5a1f5aeb7cbda3be4b9e85;
0x2b563b2786180439fbd6f3bc4ab5f3ad52f9f20d7aa31c40b0f7906f2b0418a0;
0x1abd1c97e97d7b5e6e9183f21305dfbc5855ed33636aa7a5cfc39e6329891c61;
0x2aebca431ac4c7b1d96c54432751d6d20134cc8429a51bbdbf10d6a5da4dbcf7;
0x1e93b372a671214f000aa220af2453bb8431f78694d76311abcdefde664b5bb0;
0x195338e68902e870547679d0f4a548d1bc91eb3e144b403b6d9c05ebf879e274;
0x2bb7a0b8bcf9f7540697e3bda7793d42e1ff60838f4b59f86a1ada0373bdb1ab;
0x11be3da5945ef7d140bf9e06b468ec44aac37eb293dddbf871f9292f6969567f;
0x481ae2c70bb522764ba40c7fe992913e56fc640bacb97794fee400861cd20c6;
0x919cadc23acaa8b5e19a54a996c64b59a9032c3ee6b6aacde02696ca462116b;
0x262de0b03fe8c9a6b04ace3660570271804c66ed640998d93362919e13dbe851;
0x2b3c90ac3a4edfbe09b333ff56cec2918a5ef924359ad5e225e08bcf17249df9;
0x1bbbe9819a05a6fdbb2827d1bac2c0c9736aa78280f8a81fc5969b576522014c;
0x2b6fd7bc3a3b595c206c43daac752b765a12255c37ab51ae183933737a8b8099;
0x142ac1e836fc30278704b47fa49a84cdaec95cec40a60abfe73a30a10f2d72f3;
0x102f24ed9b7cc4a98957278905f772fe4149fb11befc34b05c7556a0ce1a9444;
0x59a56c684c34007e174577c81d669d1e0b9741d4d2b9d6077d8f8e8c1803df2;
0x1f22f8c87034418d3a79a9f5fbb2ee493c6851499ee2a84800b0e711ba76a918;
0x2614d18359d21d25731090abb6877365f49d58ea4e78a44a9e7adb4409a3aee3;
0xc414a0ecac4fa0637e9a4c9679085a7bb3b1358b396b2bce7eb9af4f0c337c3;
0x11930fb18ae2944cfc25c856cddcff702bbcc81a2c2a8a81ab68e2abd0d63d96;
0x2ae750321489ad6aab14cf7f3089bee01f50f6f1b3a1c046060804d204d6d4;
0x1532fb2f4f6a0dc23fab57fb2988ae3a61bd61eff35634f11687991465849525;
0x29b85c7d9d52c98eaccfab07af6c2aaac1dd55a087ca82cf636f2868dddf398b;
0xd50d222652f613b3cf0a36450c848108600b2c98b5d16e4b75b92a1fca288bd;
0x16bd29ece6542611c44d90e72ca96e7e81bf04cad858b88f65b3cf059348be75;
0x114e95888f1e263e9304531e672fa0533c59aad32e19a6c8e79a0be3daba9dc2;
0x7ed4c3caca93550d939fee72f322f5c45c45c3262481dc6d3fc21a39ba4a9c0;
0x2cf1d8e95a3b2cf8d4c1a0dd53adee6e975640bc902e05c357d43ce4070f6803;
0x3730a82d1114f03ea0f98add20cd73889491c2d362fcf76eaae54df206bb984;
0x2201627d02735d6def85f3d4409b5f675e4f5b670fc8fe334c2da72e9ebb74e9;
0x1de69df65e50bff05222e7d15bb7c25935a419532031efbea0a88d412658025c;
0x199e9757b4a447a466924aeee5f4e3c6c0f7c0f1545808377a8c0c436b374da9;
0x1cc1175e9e818a6ea2646c194f36bec3c37c63294b25baa9c9f48ea3c312d08d;
0x29d4552088b3053c16c885522c794ca388ba38c6b9eb2c55e011532a5f099fbc;
0x23d3b2dc1c7ff3d298997d064606aff743e7df6d7834c775aedbff099d458f78;
0x2388ad46e7bff8d8b43e0ef0fef084fa60cfe32993ea7183504ee738f6445cc0;
0x304e1e25593dbba07c1aa88ebb4a80684d9147c0b2f9247b49b5416f13fc3898;
0xd63f23dde7572c15586188a12a7a1c0b2bd109f6343294fc8f8bc1a778414d9;
0x19cf6ed79057a5fc4398ae7569c1b85519c97218ab842723d6212cfa9a0a2dbe;
0x986267435a69bf6ebcded378d2aa4a02ee3b7a8becaed9ca1e663600fc90c3f;
0x2c1575ee85e8cd3cfb63424d84ea5000786e5927433aa8c0b0211e5d87929c84;
0x300003af788c5a7576b764f88be5b3b1ac8cb0b9466090fb331569d4c6672c3b;
0x9edd428de05fa06b6410c57a5796fcd1ced4e3d20d42bbdc40b00ea28aab387;
0x2b6fd7bc3a3b595c206c43daac752b765a12255c37ab51ae183933737a8b8099;
0x1fcc025724948f53d0456e85fb56f3f81e0c8d4c2bced5efe3fa3af8ff77acc5;
0xc37f3e2d38cd3138ea93327d59b885873d41ef32b76409638af6455b5bfd932;
0x1cff93735f5e8bbdab731d6b1a60d946f268b082d912fed0b3ccb525d8cb6485;
0x115632e11c1704f965ea72407243707ec477c716cc429f1a7eb457f4337a5b01;
0x10d1bc0b019f8bc6d1d6f5b74ec4e472b855fb594585e4458e4c269750912717;
0x1bfa4745da3b7737814426f2b9dd6ae7ea034a00263dd091cdd7e118a44d38c7;
0x42f42c6cf5ed0f29ea6535ba858409145772498174886db7dd44bf9ac54d492;
0x27da68d3c98d92e4e93777c0bac6c7cf508e16e748fccd3c0b7b9fb54e605aa7;
0x1c0dd243e40090b31d093d35c80719303b7c49b088bdae82b248fc1dc37fa340;
0x1c3e2814b6eb0de8347ff2db9de7d3bce67b5a97585fc9933bf45f406edb6ff5;
0x4487bf6eb305b13eea5a82659858a64226428712237312fec1f6bd536d7c29;
0x1d4dcc7fc6d31a37c95bdb711a21fa490f4786064834c25d2e15aa82dcb762ca;
0x1ad252b23919c93380ebfd7fe5bcc221a3dbc4fa59e555b8d00bfad872c0c14;
0x1b9bb478853c46abecf434115d5730c6dc59d0c70ae580013d216f9ff259656a;
0xaa2849da666039877d1c63803500ddcb59258d9854bbd817c690b32643a696;
0x1a80c40302e2c50b3a9a9303f10ffce49d7bb5f7e5e19ddc85838f01df61cb28;
0xfa31af23f2b7a127dcc29d7a7896ac68e3ce309a70a86f7e680fae88ae11af1;
0x10b6199654c3e28a05df36e3ece1922c3ef4b7641b2fa8fc80a84e3e47d15fd3;
0x23002a3e74809dbd3de94260eccf0c50b15ad8f1d0b34296d06ae58e4a28b6f6;
0x149568dfaf3fac96b2638c3506a8d25609ca18e846ade9d19afe0c1e05c02c68;
0x27e032df87f6c1641dcbed6816aefdfda13783c301c6e0a90c31a98f4c0b9208;
0x18d75157ff16e95990d83ca5bc9366251a45c6f7935adcd1eed6c944dc87f5e;
0x3019b560b7eb66353bccfe2531464754259870d8246d7f35bbf10c6862bc73b7;
0xf4649bbb3013488fe2f61ad0d590433f5c7876a97cf9c83e821f078834c45b9;
0x2adab3e8388934d5ba7cf03b98c23defda5c4c153364936b136828d06db12d99;
0x149faae0107b1cac1e064cc54d1950602711aa7308dbdad89ec173da0595ff69;
0x18601dd152b8ac338eedb1278d537c16f70e1fccd0dd9f1b1ec673b4b86deb0d;
0x1d65cc6e7ccb7077ab51de992f4282456b818da240f46de874bdd4f6af329aba;
0xfdc0f5a32b65a84e134027c7353503c7e9ed38f49907e28a5969419e8438aa6;
0x65d3e753bec13cdbd2d4cb085fc25c8733f52b5372a4aede46eba19258c2a6d;
0x2b6fd7bc3a3b595c206c43daac752b765a12255c37ab51ae183933737a8b8099;
0x180a916e94037f9ef13f05a1ea22bd41ca2d4b0f5eedad386a420ba6188d4882;
0xe6fc284e88c1403f06ab873ec9d803191655d35c290740cc682caca22fc13a0;
0x2753bb09a0c4a77b3af2a69333e51bb27703615d09d56f86423f85cfc8827faf;
0x272db4b6d71f80f52e4aa1061f6a24e98dc041a0bad07dc46aad59e67d96b010;
0x2378ce2c52074b027940891562743047b7b57ffc1f6654c2dcc23bedf1cb7608;
0x26e90f7cfd4093a277600d2c564b6cd8f4ba3899b646d7427ce907a96d25b4e3;
0x1cadb3908ee02353a3c45fbb57dbf6b392d5b1e59a13d58b57b7e0dc71c8d3be;
0x4d30d597f9dd6720e85eabb0a7808098f72d7beae23e0f5845283cb04334e2b;
0x193da68a7a699b7cf33c3ac942a960c154f447a016d957e241786253101b1c88;
0x26484e7897f16c30babb9a4eb821b94e204411ea78e3759bcb55f5f9e1f0ec02;
0x26a496b2c2b5ca5ba3dd8af6dc73aaa2d8bfd2f6715876fc5703ad68aae6a1ed;
0x385b7c09dd2a1a0c2595a940914780d61b49f081e20149c37d920a06dc8ae7c;
0x215ad8b91b54598e0ad7129f26f6eb4e52a27da738fa5ec2aaf3b471c2ef63b8;
0x25c029bc5468787fc40f8b968f9542a8cf39632ebdb520496cf9ade72f289656;
0x2a8bf45fd684c408e8832341397ec0589167c0d26cd7bb73227cc83273632bb6;
0x1621a4527a457936aa11821e0e183c83008e201ac922ef2491a720767d5ac282;
0x2146604597997341b5b512c2d30536fa961d09b5195f4ffe20efd22f4e4e1088;
0xf469417d25748e654a60d7a42da219c2c1ab164e0ecf4950a3c15aaec9d7b4b;
0x854569ac15311adb77dd8f2cee810aca29c09a47b6130b51c16b95178d76f2b;
0xe1696a6980d7dafa5bf5a2e10ae664e0c29153272874153cdbf2b303c6c8762;
0x3eec28f72099f4081b58deb0a95abcef4ca06afe5250a29f565b18fc8c0f3f2;
0xf0359dc677a2208a6b0c627912d16b736e91ab3fa83eb825a7b1ead71d000f1;
0x1eb49e2d0f17845b3e559dc12cc37d706bf9e048e6cb55a766ddad1100a07b7e;
0x2837d91b1501a5d4b95913f0d2c24966fef7f5c347aaa897c210ba15913def29;
0x2bf39f6cf1cef6ccfbbf97a4254acd478c897c8cd9614d3f8f9bbef4de646c94;
0x67912e7144d6029b3bc72d448dcfdbbfe0f7e9591293ab205b389d61eff77d;
0x191b47b69e8adfc904ff67ab36d19fbb1021c70898b9d657fb6a020bd6bfe684;
0x2fbeb5d54229ee582a6275b9977b77ccaa8ddc90265b7c5d59f8d19af69e46cd;
0x223504acf848236a0f7cd946c84289c4b4aba0e123b1db8e588fde7de06ef2f3;
0x11d8e8ef78b313743937e16395c1193c3e46d4b84c78189076d7941fbff04622;
0x2b6fd7bc3a3b595c206c43daac752b765a12255c37ab51ae183933737a8b8099;
0x20d2e36125e681535785dc294c751d7557e31dc99c01cc45fb67d0e0f7031e5f;
0x2108085ae6246ae7dd76f7b3f3e0e731b7e4067602f6026c9cc61321806d4b6c;
0x19046a9fb27aa59fd7cbb075905c65e165d16248d948c1fab9ab472c57d8ad1a;
0x93a926faf68ed92e943507a893163b433857a1dc564f3f26c2f497164852c86;
0x2971a879c70793d54854f7ccdeba099226a7034fa5d9911dc81aee80cf49f279;
0xf5f5ba9b74aed76259a159321e26cbe1cd7e5849ae8562ff497c1af96285d1f;
0x20e7786221700e467df64d8d73e4c38753a44996aa732da38e621bd270a16e0e;
0x1f4fc008a41a25739bd41118baabcf2465fcb0e05605bb2193aaca167737e6b5;
0xc4a3ea3f708efc883a4bce4a0651d8517c70a1324de4935aa508c3c0ae24dca;
0x2e7610fe10352af47b616891090714c6802f3fc1fb9efb21248694ef6246ac07;
0x2eb8ad40c535f3b7b05c2fd963b8569e956259227ef21a24b7afe546effe4184;
0x154989e705cf9e62b9416e28834a4a7bce6b573a1235264ce89d4b046b6ebbe1;
0x184749a0e1bec0f94c8f3c5be0c76d87976952449c2bfe6304413dea612e2e1d;
0x24ad4bf83c2f3341dca0c72a3575fb12805568e92cae4472fe19fdff27f11d50;
0xe788a096b2d4192046ee742981fa38918777b65030ef53957571c3b5fb54a6d;
0x1e22b9d4c274fad52d4e5640b4acbff2c4810127a087c42f9be9ab58809d0d5c;
0xc8a3f2ee3246714404abf0521e74a63b83576496aaff85c2be74a7106846f12;
0x21adde943461bfcbd7eb10345a94033b25d4701157c694519fb2b4093b756709;
0x1ea99affaa689d6f19f8a6b82d4b81dfd1f17682831e0c00d7f2f8fd4938a37e;
0x16949199fe4a38750de73fa737a283a6a9ad40a27b0deab631f9295ade2423cc;
0x1e83bd581acd61c3b54afcb7a0a9a0138d9ac4c8739cdae89759da5150138fa;
0x42a61a84c944dcf754f5a97b1dc8c2ee7bdfbde233f789210f506eda56973b3;
0x2b93c28b157ce32bfa3b8d0f585061e75a03b79c366a75856cdb5ca2273e30bd;
0x1f54218a5daea6045fa60b06ab2520c52560282b1cc3ade14b664bfa49752bf5;
0xfbfdd369bdaf703669fa5e36a00aaf0b251a50912048adadc83aaf092e7f2de;
0x3633bd5a72a51fdeca62aefe9434104b52e152655cc42f06e70455cc15f8e2f;
0x2c0eb54b5f8cee8ba898a242dca64def09dda346d06323892957fa30b3c13af7;
0x165035983f563b1e3bcbe6c873fbf911d194fbe54243e039b3cf7b6f2afbd822;
0x2fd9820b3cbb131e3575de4ecece3471352587e10c96e72ad867bbc57f4c778b;
0x1204b919d86a12cea70e977706ab2be78259c6c608dca628eeeccec50b829342;
0x2b6fd7bc3a3b595c206c43daac752b765a12255c37ab51ae183933737a8b8099;
0x2f3cd03d82e80e8521a2366bf79e8d4ff5cfc3b4f46db99a4947e1ce4993b2b;
0x1cac3fdc9674c64c1614a5f48d65239daa601e26766fcfcf29cc385d6b3735dd;
0x65415e4dfe08e357c669d145be5fa6cc74b0126f099faf1d7e85fe9befd30d7;
0x28ef19ab4bb2626906730f539497dde648a1a967da5ea31969feb620d115c8b6;
0x3e88e9732a1a572e70d7cb6528857143fb51a949fe9e0fa0fa281b85b64b7d;
0x2486ab5c5311e4bdc65ab49fc60b172f851908d6753f6a9cc40f9b1535af072e;
0xc50469c6c6bd532c6f805d26a30a7e5d703e0537657518cda0e1c6044301ecb;
0x28f8be525277b0346bcd664cfb0a24a028f90b89ca402254b4f95833cb7ee870;
0xa68990da12f327a6d79b356c1d27642392b1b2cd9cc0b5d675d98436066e563;
0x2216dafb41776a1941b1f17a5dd8cca1cbe0f60f81ceaac465861b3dc2ebbe61;
0x20e6c97c374891d9328052361d932372efcb6c0c84628b6f3bfcd41c47d1521c;
0xa2565ccebd103dd144534c109f53c5de275ac56e9170ad9e3ed0b600aa51ea0;
0x1e79a45802b9e7592e60d7e4964e8920a458862cf40212db96483540a62acf3c;
0x29f54f1a96514b9b42ec9d74b5d715e61c265b129a7061bac126bfd50f696fce;
0x26bb61d61ff279242f1e5c7bccae627e1942ef8e103a915b64527fd0eb31a93c;
0x1ed4d606d825d86ddee16689f24ee5d9832a140f44b437258969f41d4c442c7a;
0x25131fe12798f1c8712f4eebbc7213e8f80b23e7d1bdebfd255c18793734f251;
0xd921ed8053ca270d60349d85ba38dfcd05bc96c05a68677185956707385d626;
0x25c7ab17f3ca72fef63042fcfbe1a3d5f1ef5d6e52da6d6dbb5aad46b1e17421;
0x1ee03839ca2483009bebf461b58d11cab852212642d38d1d33e48d9956fc48e1;
0x15a5a2eecd107f307d9565496448cfdbbd14ef42323275c0ab6597aaf1895475;
0x3fe00f465767add4808ec12aab687e16cfd702c1453267b7a2575c6cb557ba7;
0x1577821b07e4ba2ba893bf15ce062c0290a2c757ca7140f76c2f03b53d84edaf;
0xc00f28af5cdd011907df891669d0a43892fbfd24ae7d2abbb951b67334158e0;
0x11f2f4cde668fcb28b27153f0c0d85c86fdb4d0506d38fd5b76d33734868f4cc;
0xf15bcf82d1d583869605309b58d382a4750fa8221ebe8126ee522ae696abfa3;
0x2a87c83c58f55146158830df52d74403e32569179b409d8e97ca8a27c7446bcd;
0x1b655b2c43eaab5b8d104f472d8d84a836246faf3733debaf470b8b68b3c6078;
0x2b4c7891572319263680116a7a29e9ee3c39520dd8bbf33016e31b88444369da;
0xd57a4ba309a380ed8f907c68adee0e2ec336a33d67abfa6d33c0b34191d5c3f;
0x2b6fd7bc3a3b595c206c43daac752b765a12255c37ab51ae183933737a8b8099;
0x24d7026b9df6dee3dfc366bf883301d2f5b0d769ffe6f625614731c81638a5f;
0x2ffa9260d3bc1a98adb5d9a4566a673a4ac815d921f66a78c7b6781f5a45bfed;
0x1c49dd9439a135892456c194c0b8b727f5f8dfb8b46332cff79b0e88af0897e;
0x20dc0d730c188f571f944cda64df0385f31ee47784649b38bc8b309fa731002f;
0x2a57e4f3c1d3410302207d53fc653b091b9215b9914f7e21143c5ec3d6080206;
0x18924496a011f1d0f7334c75efc82a756b5fa7b739ac213742e747f0bab85110;
0xb488da92db9fb460de597bdff5917bc07393e560b75df7412a23f86782008ac;
0x181707ed73abc47ed303001ae6fc388dfd30bcaa57b75d4667fbdedea39addf2;
0x2f3fc44c1a30bcc3419b88de657072843f3eb73178989484e010a66c74a4bf41;
0x19fc475149f3945f3fa3c88aa7bb166e056cb353a2bb28e98cb2c647aa72601b;
0x24e52c7ecdfe59ac393a7e3659fc038f582a29f0907d9130e1615a60e0d8ab0;
0x7be6f1cf7191d8cf88349cecd3f83df5493edce1708f65a305c3e749f06da66;
0x1f21a4d143a3496cd6736f6462d52ce24b40630d8dc8ccaee1f4fe83d2d8f8e5;
0x2d26efa6adf5af54f46c6835f4d6d13874b5f0f329b21a280b19399f855401ba;
0x189d55e9c0ea390f2e219fe4abde4c0ec6fafa1b68f5a029e4d2d5f2698c0572;
0xb825420f377252cd094db40d6f37806ac50896f01a6b563627b6fbf45bab59b;
0x1fba0c700b9f301109b83fad61964385ccde2cde69510b66334feb80d8dc5e13;
0xd4c0381cbbb23ff4199900fe9e98b0588229e95cdabde87734b7da4a96728b1;
0x76f5d00e73e4dfcf13f558ced96fd848d34ba5ec48bcc141228c22d18689433;
0x1dae42a7e24553210ec1d37a83e7e379f118af2833a638cfb2f637c2731b167a;
0xa7cc5bf24de2b7a6553cdb103f7b93a2ca50e7b8b2947563fb8eaf4c96ac22a;
0x2b027765c2982281f3f552c9fc239b96b0485bcd6b246567189760387d54a530;
0x1001976662b6ff1ec3f6510318e518e6dba3e69ad0635a41153e18435653e16e;
0x1f0a377816189522f724ea65404ef22847bac0fe95e2a6c666aab27cc4dce446;
0x1e7a94ac5ea43fd868784c2943205aa45994575b494a0c0c469f6be322077c78;
0x2791206766f62a06b3a0a0d71759944425e50d392218b999a86bbdd590184075;
0x11ad87aca6c25e04cb85eb1557e42ecf5851a9d24d20f9ed554ab9de9a561814;
0x7d76ff83e9aa3f5924ed313b0d183a5703f49eb17db9b5192bbc1e5935f41fb;
0x18eec21072c91937e53d9fd0e38007a1d8ecfef89ee0a848e5c42a73324c0897;
0xd7ea1d8a141670f5549461c8e6649e7c0dd2692756c6c25cc4525d437728ac9;
0x2b6fd7bc3a3b595c206c43daac752b765a12255c37ab51ae183933737a8b8099;
0x1d9e4a0d2a85dbe20e640964806fa1e5122e2821f6f46ebd2f614f52586612c5;
0x1b0529d2ba99f99c7e4958a1dd940160e451ad60a731f482e0eec4f26806ddb6;
0x2d78de90b2cb9901ccf75821db641e2619beca024e3356fcd20b0744773bec1f;
0xacb58a5c68bfa43b46977a9da02f76727974e24f13f1e6e7646fcc17235bd4;
0x133449d082b88b55b324ec110cdb4dab792843e2915a039b52f1399096abb13d;
0x1e40b0c57597c9efd9e21aa03b9e60edcfcc6313f2b325a1bb552a227f466cf3;
0x1dc4ed7c60899b410745ed729ea5a0066568b97dc007b6e7e804769dcd4d7d36;
0x1146cf1be34558e643e2850cbf90d1e25e3ee122f8292a12b8be4cbbc3b02f15;
0x24cc8fc4c875a88eca4864b038945f81381b829ae63156e314ab257829531a0f;
0x29f9668dddd6103594c092b4955bea42a78b762b014f853d12cc8a435deaf507;
0x423f8acfb6425857f07e45bab4474b2746c987eeb3cccec94f838fe25d524eb;
0x226d21a206f17d649306ea18a42e50d395d65136d082d91b09f226e63fb6540b;
0x50d8e0202485f6ed926f1036d1cfcdc3252b49bee257218aa058f8b7a22323;
0x2c6998a3a1d4988893eaba746cf07ec665089ee1498736a1580f2a7b3f840a5f;
0x8f07def8f9291f940b044443a720f15109a6602e54670e4ddec4f9bed773f4a;
0x15ad9c95848c4eee4228b1da242da640ecdbac2ca6f216306045c794e0cd41eb;
0xb6c94ad59e7195e47046f5e2dbdb395bc45ec654b60c49d8f39d9f8b895d1cc;
0x16915ac62623b19ce2101c05fe7276c373b329f20e1fe2b86f85e3bb18f2eedb;
0x241c174139afa0867f108586e337df3173bca36eb41a669da121cc21cc52e157;
0x2fbc48a493da3632871d2de5a8c22f22112afa88b1e71395eced016a149941d4;
0x1faedef5274cad9d8a55c7f763fa86841960a0746745c35950bedda80b6f4224;
0xe5ca90496f6ab2db273e54bdd99ae0d8bc1c6f0904de14932958f6c837c26f3;
0x1783f5edffc02d572faa7798200083b86b2b1ce2320dc7c8a0b1ebffdbc9d567;
0x1108f89b2285ad02285b4cea8eed22d0fab841f21df3d4ebfb398606a6ba3869;
0xaf33de737c3e1f423c51d89384242ea23bc564bf402282002cd30e3b163468b;
0xc5152ce065fcb30be4405cd338d85ca50d6a06e9344fcc7634d82e0e9759a74;
0x29b859531add0b7229247872552339e4ac2ae3d4b6ca8c705763cc8193103aa0;
0x87622acf27810277fe3cae6e270483d0d53158900fca1849650b0b5ecf0150c;
0x228844894f0ecc516411b0b864dba98a8c26ef510627f2de70e1d13bc30a6e1e;
0x196d69516c701eb00c670cb577336806429642be8b0e301fe0bb12293dbc2548;
0x2b6fd7bc3a3b595c206c43daac752b765a12255c37ab51ae183933737a8b8099;
0x1f70d88a852cd16c82f70637d9d973d59f7e77b8268aacd484e4e53500f72b24;
0x141cdcd52cc304528f7f93f23944dd16b3cca1a85b2a84670c504b9792beba19;
0xdb56745ee0dd133af6f37bff1f6dac061ec7e40069f9a811e7d034d7a30abff;
0x2569e01e00c725b48d55d26fd8c49785fc36248299eda8abd3b92b20b15020ba;
0x353c1598121daacd532f8b0ffd175318b309bde28b7ffada32bb73b784d95f2;
0x23dd1ba2b7ada18fb1337535b938fdd5318a1ad228cf00747d07efd159cc23cd;
0xa449d239c51400de8f275b00787790aa508e1e160bb66e87d0f4e32ac5a5bb5;
0x2bcc35ac47eaefc5ceae93b97187f199f4ea9776095a98efa5353da21540b9c9;
0x22e49a4378b6b69566529f55b874d2304e24cbaa5d790f76900ee2f8478e3c07;
0x66ad5b80133fd0a6391c05b7e20b13416e40c29a06469326768f24276fe1841;
0x3f2253229c2810aae5c8411d5130ab418bbe077b0f1122623065532a259b857;
0x2662e6c8a1134a005867e103901a5f6c67ac3737a6620accf8034cb83bdbd4a7;
0x20a86066eeceb6979baadde6a2359befde49875bab142e57e171b0870b292086;
0x13afbc5573e84312a43160ff4045190adc2a9db03980e7126381f4089e7c91f3;
0x7d6db6cddf350cc1d59a474d84fbaad04fa0f2bff915f077708df41d5b2a746;
0x268e93e46fd7f13e1a359ddf6ebb619a21c1068de6d899590aa1048b8829ddb2;
0xf889928b305b304fce28f103f2e4194f2b29cdff231b05efe561e1cff4e70b9;
0xc547ddbbf87c32bfe454d8e8b0ad4402c9b979caaceaebd9d59484d43cd37a9;
0x20da83182faac059a9d00b35dc345ef0115117fd24a15f6b91b501728497ae52;
0x1f6b643b60e535d0f2731a326273576ea723671e6c51e7b74281028ffb0462ef;
0x2d14d43ab2196fc70e26a6b9ef3f2e9d18f60026af5833359f2a4f694ff6f9cf;
0xe9b85853becdc05429b0a28a7e23baa59377d9037615ba740893eb971aadfa2;
0xa664658bab11525d7086e1206ae3c6abb9ec31e3461d6b0b2547a5d6c2ed54f;
0x2e0498e8539d8576df187245d0b1222f43cf4d3f8f0209afdcb2f68767633406;
0x16c87c7662e6724263b44dec088080333793ba2002fb9669eb63dc3b1189b6eb;
0x9c5eba75aefc04d0436380c834da36d20a67fd4e11653498b4ec21b30900f54;
0x1066b5230eec70bbde6c98ed4e48e392feb18967be71a12ac18e732a04ba9841;
0x2dd2a9adc1fd3ed04eb259dda630b58c0791d7ee79b85fc20ff8b37ca0dc0464;
0x2e94a96ea1f18a9d99bfffc3fe43f0f751bcd549d1e5992e366943a85ccf4af4;
0x8d72e9dff20d4f5c4543b725e43e01f1cbd2bd0d9ea8ce6b0c1a9b0b2e8499e;
0x2b6fd7bc3a3b595c206c43daac752b765a12255c37ab51ae183933737a8b8099;
0x230050eb9901e2db2f16df59a7f5b8a1c441e5fe9cf3869a4ed073ba25f5d13c;
0x1c2f7f401da1ad989e6cbb5c81e3559a7930ceb1916691b9b2d702eccfa3f844;
0x9b391cab0c34b91b155483a41334a9ae97203942d7683850100acfa35c51600;
0x134816b73312aacf2f573418283f27bca58d4d23624890f7a3b9ca81c12e9718;
0x124b47f9ea87c94130ddcf77f87f4bc53ee087699d0e5f62663a63891c1675d1;
0xfe5a21251a65261e6cfc3709404711f727a610f94057c304e1ba67b2f006526;
0x28ab3b64f6f6f0ce2707fbe854295616d676dfb0d66177af6679b3ffa512e8d;
0x1870499da8f58f00acf6b1133119d757220bb54ecbd793f9ed42d65c31760fb9;
0x20db70356dd8d855ab92b28a96429acd5ca77cd9e5211aac448b991c1650893d;
0x1a1ff1c58192f748174691a98d8c5e733ed80ea5c2fed11b098fcb815b438516;
0x1ab2399c7e7ce1f5d3ef6c3cf33f39ba83f054bd73d8c5d7425666ef390e4f69;
0x1e4b5f8ea2fa22e568978cfd90777937efc072338e173f49cdf7761a9caa2b7a;
0x2305b22483287e9568160f0dfba637f50c63472dd89e56da0611b76cfe869104;
0x1efc74710147e4e7df6580d0ca588b6f338befeb4c6f8e8a0967cf5c9dc07399;
0x43c5e4ba3ceaec4190acd05a266e8d339681eaf1247af047fd0dce72fb37c0f;
0x2ad5f9fe59cb81bb3eb3ae9985a905adbf2fee8426fe0ce3c1b108209aea844f;
0x1f36ba0d22839b3176e55a9ed07dcbf0255e386bcea0a5be9823dbb3300ffc31;
0xa565b3ce5c2aa38618127678d8aec23595e365f5e51d97474b85b16a13362f7;
0x271dfc29144730cfa780f9accc99caaa7d14e05c42df401293d24759c12d8ed3;
0x1119a78dd0cbf88014b97e6e5758b64c8c133a5989b758af60df2ee0540348a;
0x157970a49dadaf8b39d46ada19fd06b34784a6f33b4d85547c2493f27f389e0b;
0x8697357bac4131984b26ea8e352a3c5e5c33ff22f09019646f43b5137d4df31;
0x29fecb3d70e1bd21087322a9d0f0db92c65f141f02b45936d9a5b8535f0b955e;
0x14297a9dad6ee3dd0ad87ee9c2dc63685caae7391012e267da21ade2aaa434b1;
0xc8f3a7ca1b4242199d6a0999b30cf3e61dfda56b98dca4c9bb199a070f9c782;
0x2105bc020b9bfa1a23b0b2edbdfd4ce7bdedcad57906d2f58053b8ab35f11b43;
0x2deb04f6f90c24a07d2f36e40d5bdef34639b092d395bb4a4fb483f84aecbcbf;
0x2964c5940985822a64ac1443efdc41cf37e87dbf858535bc7c87181768091c60;
0x20b68c1b5ede99ccfc7cd1231b13e90d5c9235c36f2f955dc6ff5352133ea9de;
0x30096e11896ed1672687beb4f6725b749550667e8da418713bea7db5f838efca;
0x2b6fd7bc3a3b595c206c43daac752b765a12255c37ab51ae183933737a8b8099;
0x6e21228ed894978b90a5e0b691d8916aa63720a5c795b9a07381452e22382b9;
0xc9bcf80dc5fd89ebeb604437262768ae95fa7263924501540552e7a4f2414aa;
0x9a6be7304c6da043de4c03ad5c76101a8bc21f1aac8dc10a695c7c5fc2f9072;
0x1d78923d01c8ac2f59ddf5f046cb5bfc8bfd083ec61b1af080c79c2ddb27a832;
0x272ae649640a5da291be7915b01cba87251bc6272140ff420b36f27774594209;
0x4b1441ef166c520f9309f2f984011a00dfc71d6139603ee90496e59d715f775;
0xe8d1281ac76ae45f6f8116bf74982ba76109c42a2ea163357febe0422658c42;
0x1c5d4250da762fafbf313804257126fea15085a8ee9c103a9992950ab4af92e4;
0x13d55c7c0b5e9acfac2196201e8e4a1ca091505b12b70064dcef6f9d3b1e18b7;
0x3e8a03e1e25fed9131b3de7150da5ad0b53da4fdbea9729dbce40ce2535f0f8;
0x12623c6993f1c30108c7c79868c88e3943a64595eb7bfb5814791aaad5a09ee5;
0x1d38303334b2b1328d7453019c571fc28f1bc5e4e3c9450b491eb870d2c8fe89;
0x192231ebe3469dd102a003b41ea79237429cfc4ae4d7d7b5f49154aa70b918e0;
0x26587d8d2a074923798fa95b78d558a7357f48989f553ba03bbe800e4d4ee582;
0xdbec60681a76725fcf9b009006e1235f2ba2d3f09ec62b50011d19ed58019c6;
0xd79206c8a30d26abcfb375fb8c5a117f3cab1c9fda8ddee17c0991b11c63e13;
0xbc57e048679764b958ec54b82fa3bc4690e99591f42216447ec6ab89e5752ee;
0x19b73a25670160ec2631863fe8b93691a30a5e6cecff4e91e4b56dea4e9d75a8;
0xb02dfd4eb79d59d665794ed829d301ce08e2e5285bcf6f75a83f23815f8c5c4;
0x2e8eda48e5dfeb71e3302274f516a74131fd336a617126a1435cbed8ef6c9d90;
0x282c1f1d562f2927e694715b631a176baaf7621c44a55b90ad2f1af512f2b499;
0xe24552e72a2717b254956fce21df810fe3f1fb66ee0224be74aacac4f9bafee;
0x619d6bb9fad7fe7a063998dec9888beec2a1c2206bc97f6853c10e62ede2ecd;
0x10855580bfa613c21a4efdbb0f302d4d30a87a79a77cad82b37ac76abe5071ac;
0x12e7d2df332cc5d618a22900e665529f2c22bd2b2aa387d9cb30da9483f71155;
0x108fa054801185a6aff619e7ddd9dc8095884ddcf3c85b8c922aaade7fde8f66;
0x2f8cddd8f2c5d14ab14b93182197b8073b4e9c41c138b6764ae3569771e617e9;
0x1f4622a6c051e3696414b2024a39391743479968b4af8dcf07186d5c2ff07972;
0xc379c514adbbdcce4502cce0b85fd03fae98db9d8f36d3f3c56cb9942ab7877;
0x2b139708399f0c23fb51a4d24e7189fb1e619f5c7e03bcb8c8c32945d8e1930e;
0x2b6fd7bc3a3b595c206c43daac752b765a12255c37ab51ae183933737a8b8099;
0x1a67fa389778c9489c495deb248e754c3aaaaa63c5ba3c6e5cfd96be4f516c01;
0xa82b7efeec16e6c5aea5e99597b098504973c824edbd47a27cb33d65d7d09dd;
0x58b5d72d0fb9836dab90890a9a9db183959618b7de3d6b7b1fc07621644bc7a;
0x24411fc9331c4465de389c157199ca24f304424c0481d117e7b0ea23657af1bd;
0x210351a45fa4ef26b2837ad06b46629051a464602e52b36ef24fae76d1d6d34e;
0x1e05e49db66c3340e7db14921c0262a7346c687a8c26137437b510e30840eb59;
0x2e6833d4c2d492a05a1c2be458d06a65f6be428714d1d44c2dcea661571da703;
0x2747e0fb93ceedf91d0b703ccd88f179e8f10331090321660985bc63897241cd;
0x21373fe7342c29074309be92546ca3308e28215172d43899d8b34e336e0c2feb;
0x7aca07d0069a023d78e0a91f67dc748ab58990af12f54b14efbf83f6ea3f959;
0xd31908df90c1e9debc10476b0f17dabb3ae150d731c20a321f5ad6d28213be4;
0x28b90adb926df7693277ffd23ca737852a441517a8eca29eccd732b90dc0db56;
0x104147d1f610150c79c7bcf61ef1eb1d1d620af87c49516a193790dc5cb1cd77;
0x22704b0eea545e93d8567947f5736159b8c7559da9346851ef034943a9f64ea8;
0x12cf13867e1f4c665d952955497197af8211929750dd706a6a65dc654b99e8c;
0x2640c797ab409cc3b3ee21869418ced6c6aa32c8d96b9a3da85c99d8a2bc9501;
0x123e01798d0948749ff8ed24a732705e44162826c2c7d28025da133ec358b822;
0x22f5988c47c36f454fc5c2f982b854b4f4f64ac69db58a7820b10ed05a1c1b7b;
0xd71a0b148c465727aec89bdc6601b3bf341159e0eb92672fd2cd29670509550;
0x9c4450c0fab5b77b7feddc8f4c50031a113df973d3dbff0101564f4dda5eb64;
0x216909b9a7ec927ff4be81f45f34004b80de648dccb64e956e689755c1d08c9c;
0x1a676535420e170fdcc7784668b421502d69e5955992d13133f9f53829fbfc74;
0x2f45e803db63d86ba61b8ed3af38c48a00d0ce69c1507e85647022d6f39ee208;
0x3cf89993c4654efb4b1e804dc5abb423ff507f7abc65cc8d1a660671264a2a4;
0x2eb840961ae22d47e776bf9f78d8f09786652eb99782097010e10fcdfdeb9ee3;
0x13b3fcc3c156042dd30d9c935a465c52827dba78cde25cc87a436845a38cc1da;
0x2ac2949357bcdc53d8a234e1954aa94813a0825a9308ee3659d5d386b2f10e59;
0xe15460bf314de3c67d868973288483bc62926bcbd2e7042ea807888f7d9c19b;
0x11c767a3163182d5eeb2ae857a5b3010395f9640b440f75a9b859c30ab1800cc;
0xde4b8312d23ffa47cccedc65de54ccdf9596a2c26a8177b78890f9a0000f1ab;
0x2b6fd7bc3a3b595c206c43daac752b765a12255c37ab51ae183933737a8b8099;
0x22a306748bbb7276a025b998d053c75dae5fa78e31d6457189abc977665065d7;
0x11e89b2f5a9f708391bf115992b295c5df50eb4793379139749cd3718dee76c3;
0x170d1801e156ba73911ab491c46bfed177c6cbec44bda6573298cfd6e925324e;
0x99425a344bd24801fd74847ee7524054b2c0be72a58c42928008d7163340593;
0xcb13076d62a1cceafc495baefa2cb03ddbf7bac1a8b24afbf0a84236a1fc1ed;
0x105cd167cbc2994138f2492a42e39c90c71fa1112160c2c3cb86f4a3dc6f36f5;
0x2fe235ad0ae252a09231abadf1884793e1479f8953587d08f0fd843c73cee60d;
0x27b02875c28bfc1217490eaea552ce39441e6348a660a8dff460564b37002abf;
0x1a48ee09ed16a03c4fe2c433bf85bdf4ae6ceaec8706c97bff764912bda1dcde;
0x175b14cc4245b469dbffa6970992a1bfd6c61deab13c5dab26b1481b9e616fbb;
0xd46b0974195aad4698bfd176ee33fcd84a725be4c13009c15d2d00fdc176a16;
0x1aadcefcb3f21adf4b25dc908e1faabcbad408c2b2cc24ca5a35e5649c787361;
0xee80d214b808612daf959f09c2314312cfd09a7050243e69cd993c351f865db;
0x2b92ed72f750583d1091332acc37a8c11ff616ac98ced2e2ab47e2650b783ec3;
0x7bb6c047a0ab37343ed2a2d1809345f72ee0921b06685f6356dca855053699d;
0xb27c5c1f4f08810c4c71b00309204a5ea1602065f18c7c9568a073630551272;
0x10eb21636ad3cc5b882f8eef50b164f5c0f05e3a45245b1f4517b3ba19693feb;
0x139afa8d7c7016d8b50351f05260a2f1661a7be1166add0f281fee3a5fa57c22;
0x10a8316597468b2f19a7ede834ff7ba4745e614ddcf43a373a5afebc45849d74;
0xe7bc88dca5e934a90b30c06fc33c46eb88311db5ffd138d2cdb2376bcaf4ce1;
0x1ed3520f1f7eb308510f20f8ad87099d28c26165a9deb3338c76fbc7b140b4e7;
0xa5b057fe093ed51de90edec1f4fc54c24614c3540f8d36af16022affde42d34;
0xfe1a3def2a011ba748f9b9f263e88aa32335ffb2e9857bb3a2e0a1d14edbc3f;
0x1f6abc03a0caba9732b313a2bc3ee30d379088b772c6ed9e3d9d3cca471c249c;
0x32cc35f494c7b826ddc1bb185d14421decdc35c89c4353e13838ec0de0e777a;
0x3526b4fb75965e49be0d73d43e706e756d84f80db93afde6863cc49b017f199;
0x19033bc3c4271ab5bafbeef999077c33386c044f05405600b0cf174fad12b8e2;
0x17775184817378f639fcc8dbd97df0e13baccbd90c83f0b4807ae9a486bc0d4d;
0xa9e1c95520650bb3f61a8fb1733069fb5eb759593c989c7c8c91cfa6108c3dc;
0x5261006343d0f17ec876854ec7d41315565a07796e7c1735825e9dd2bf16e39;
0x2b6fd7bc3a3b595c206c43daac752b765a12255c37ab51ae183933737a8b8099;
0x2fd7377f9006f870d0c079c8b10b62647b7c76cb481b2a330113cc7507effd1;
0x1aa6d67de3f86bd58f04498f5e71270a58c7ecc20d81891ec7bcc29d92c84447;
0x267b52a174ac8e9d118dd2d021043961fe9686c7156c324bfef84286a70a20c8;
0x7131b4b73af0697a2a744e3483a653379f9a6f66e05821b9d12aa2b8fc7f52f;
0x678652eac3805c1636bb62390323860ddaf6f1ebe10b167a39b975cdd89bb54;
0x15209b10675cab6f50d0496771117e050ce5120126d241672e991c2dcc0cd1a2;
0x1a1977bf61184ad35c53ebfdb3af41776eab03b2db826652e35ad3a12f745bd6;
0x229644c842f9907a93becb162b12af3144a7c7f25d064d457db70e9c9cd9c099;
0x17ed9abfbc0e4103e9e4ce7d1fcc95f2a8a0f8adde891b55e424f76a93f7a915;
0x2104040d07bc2a79abc7fe60e6d2bd8ce79b937d7772ecae4e21cd38cef7f792;
0x29b17696048b7c8b2805e7f2adb86cc14a6c54577d4d4b741c844203812cc98c;
0x155b7c97543d530c1784eb12a8c8e9594d423dc45a5a93a6e2ab2aa25210f1b1;
0x2d95cba17ff1a2f3ccb165e7009314c54d1f5d2ea514c54382ec918f0d18822;
0xa9d8db94925ee88c53578d0312159ba4568c4c35b2160748f7dafcc99c966fd;
0xb6f19b020cbf0eb74ccdceb22d7ae4730f72db5fff4462bd39941cb0bb2298b;
0x2f709aa70fb82604e6614b07127fead0d6c889f96277da8085f886a592d8233f;
0xc05d5e71c8ff96a669190965b0d7aed88d1c5df73b70de1783986bf8851507c;
0x8facf13f8dc731b2f216581d4b35f10f3d54b6c41457fd83347417cc9a4dbd0;
0x1bb219a4559f69a5e3ca3241a56ba26e36c86955feac34676c2d13a671f470ee;
0x32054ccbfd7840e0fefec1ccafe4b21091c2b9262c0337b269d7bdeffbd615;
0xad0e2165ff04113883d2e76bc8d519702644c1e938b80c614ef85b966c7ea95;
0x5d0cd6f76ce14c2cc307b211409329b29fe0e80742c329b6468d4cb6c4f8938;
0x2ac21c0635d3d249610b57d8312443a9c30fe4f353e75d7503d4cc646c7cc2f9;
0x2c98f53ad12c6d2f2c1f4ae0922f10c9319cee3b55e1720799c16fa36c65af2c;
0x1fafe9cdd001c028a8c9895b9075a18f93f8ad25632312000154e1b07d6cbafc;
0x1c66e585cd1c5651a3b651ceba4e33bd7954af808b69f4e8171a58339b6754ae;
0x2b8004d7066672e9c51b5efb0810da89bdc481658149d974641e43a8e6150512;
0xf19a8fe86ec9c9146083520d9bd83bad613879a0e422c27e09cbae6558315cc;
0x12199adee14b8fef20070207a6ebfa77f4f9202df37972a31e11cab9c622a3c6;
0xf34bbf250e5eea168f1772d93ab7f53e1dc570c706dc9818639f0181174d8f5;
0x2b6fd7bc3a3b595c206c43daac752b765a12255c37ab51ae183933737a8b8099;
0xb2878f79547242381f83f53d71b4a5bb50ae79bac3b09690c2ec04c27952831;
0x1636796259d819596441f2418e0c425ccfbfe67fb7b497c4361122748225fff;
0x230101fb2086c3e4dbb4e19b17dcc891db81d3eef3b5c031b2b1429e46fb956d;
0x2033e660632e0b2e8411b43b8b0fc9d23ba811a64aa846b0882516d954738316;
0x244564f0c62510a5e6f69a1a8fe77d6bc22ec9989b0f97dc4113a2fddcf2fd3e;
0xea22aab739936a78b3b85cf512de08c6ea303f53fb69e073d2da9b94d60ebca;
0x701868cfc18808ef3f8196bdb7bf2a8aee96cd85d269db60a4cd5a1ff9b2e88;
0x904cf11c0b58e3fe3aa7d70d8e365f6f20424f7cda13492c3a1089c3e209378;
0x1d5930f08045de1418cfeab3a30c08015f77a7a19aba209b992fdae1837e01fe;
0x13d07ccbe92ac9848da4c5651b692c3b298bdd002c76c1673e39b0c56c92cc4c;
0x29fabafec859d0eaea7b49a815141e2d5e826c1bcf4fe2e2c4d80d0d9026a9e;
0x1af5ab322e026a1b28a1dc06cba8585550db1bbfd3ee2355d8dd1c7d413126;
0xc60f6e36113ce5d3b8824f68a33bce77f8a963eb0ac4208a35c0fec601a813f;
0x17ac4c1dc0678e3afeeef3a11fabd3d699456839342277c4b6a57256a94cd1bf;
0x18d140a27d4a76d1daace46e5201c2057b4e1353e6e6a90d250798e59b055209;
0xf1336ac56c60c4bc9e27765f43bbc4a25830e514126dedcf518f1f501cab662;
0x240e3c3a7dece37a8e4674ca411513bc5b2ef205d6afef56978ecdaa310a5fc6;
0xc1f16c8ee024584c6e5243038d7324bd631263e4036e9df5422f78c8b01c9ca;
0x236b70f7b76e6f16b6f4d08f6c6755776bbbf2beef38ed9f187294607fba3e4d;
0x2fae92d9a4260c0eb67b8b5c535ef6f43913e506e546b3a1f217ecac1eb0ee5e;
0x1e69a926148d04785f08760176dba2be1ee5b4ea19bd09135d5b68e7572cd1c;
0x2a96f11408f216c5ade40371fac2bd452a578ec23bd220897aa3372513bc4530;
0x1522e73fa41cc4c23e9ac6a6df46dc33e6921b802be72ccaeb06de4736cfe988;
0x6d2c787e7b336c0556293aa8a6bcf7d31be6d8b6d4a644ce77b313bee3cdd01;
0x1f80057bec504946a3e8d5e8d31412d2fb6461b5f174974017f2798fff57c306;
0x139e43308691da278944e95e910ff3c4903e2faac75a6533e7f1fcf0dc8985ab;
0x2958715623868ba98fd982a092a9eb18fd0f2cc9d3ad44d03970b8c2361ed38d;
0x3d037c068aefcaf62bf84b4fe75a8a46a5d85d63b659278b049508fd31d673c;
0x25f8654c412e7d630f046c138dfc4c18332573d9f2cdde26683fb472fc8b2edf;
0x1874b9d07a26cf2fb8c65b8d47c6647008b42804af1e7ceb2c7ee466a2b5807;
0x2b6fd7bc3a3b595c206c43daac752b765a12255c37ab51ae183933737a8b8099;
0x22b74f8ab6acc3f3ef0d9352aad479f2db3f5171684734ec6d18c69cfe0b14cd;
0x28ddd3e0a84efcc63090346d5c5c0b9f7a6b8a20abd001e8ad01328ac5ff90b2;
0x21ba1ee2990e2ba981f6e7e97f1aa879eda6e3e4a7f192be055d07d2332aac26;
0x8923f775145f7243003eb5089160d2e0b4be6b68e77211d796e567b026e92db;
0x2168e1158db076bd2c7503d8d78759b741f3d09e8c2863f1bbf77eb8a52f2bd5;
0x2d91a6046ee638587087f34f8f3a45543e5a12e80db1462121d37f3d2f574ca4;
0x19a362b36092714b50b86238ca35b3e9106efe2f1cf4a8f091a687cb71344a16;
0x93ab3a1ec4ad5be6235fb805314d7e9f07ad5aafb214ceae7ebdcf81db72fd0;
0x1e6f239f1cd9a373e4b8a283c86c7dd710a5aeb00a35338dabcd80e14079828e;
0xf8b272d893f2288be54151a7c6e3e3e274b96a395616976d267ba31d59c0bac;
0x22073c45cb975312538a8a8bed28c0a2858793e1e2a234d5fd8a6ebbf8098fad;
0x5a2cdf46b89919b93bff18da44a4cf470a0de6b9bda0ed97d9ef3085678c9a2;
0xb91b6af7828f5e23b06d2ec84a5acc0f6f670e64146bf82dba2cd09d8b9b160;
0x26919b3ee33e46e95680cc8c216d561996b65915418a84d7b3d7bc0d29e3e56d;
0x1615d651e47167b1ee9c70737c1376972ce475a1c66fd778ff5591b2e4e92017;
0x1db6ba6e18012adf2f43482f224541dc5b5ffd5522f9336449fcfed6fdede339;
0x157aee78ba392137b06bd8104872ec13558753788e044d38644249dde49b63f4;
0x1bec3f9426534d61ef5ce8b40e3d9199d929a295c4b2e5768033fa7ba51f628f;
0x1cc2614a3be0eef53905687b6d666d957c6f47b4f340d59106fc5add588b1272;
0x17cc5ecfa4bcb4d4138bad0db4d25b8bdd921969465ce40c3783190855c0f9b6;
0x2b71f219cdc5fca5c1ba861f3bcb51aa08fdfec6c8600ea26ea3f433090d9ec7;
0x209098b02905832cc62767fa60e37a962c4cb7e51b23b6510389b56c510d3a61;
0x22202b42235a0de23ef43301055066d26d87d0ac4ebfb8d4391b05fdcab190bc;
0x27067a1a9cfa43df1faa7904359cebd06abc41ef694c89954ad076e296bc77f3;
0x1dda2ec6fd0f92a515b4b9f0b80aa68260fd6570fe28c35acd8da5233c655c9e;
0x20fcbe551e628d29e3625c948d92057dfb16a486be9fd88ffe308b886a7f3f5a;
0x102b63b63b6594dba0d9502841aaa0bdf0d2aad08d25135f1090f0ed94cadf5c;
0x2665d2b3b1f4711b362b28c1581c139aacf681f189d29cccde608c7f44dac4f7;
0x2534e0a770bb00179e6f7621d96dab342ff960d361c91adb0f8faea486693df0;
0x132de3965797959cbfaf61a239c5f09e1672d3b6387a1e34a53214e9d15c8201;
0x2b6fd7bc3a3b595c206c43daac752b765a12255c37ab51ae183933737a8b8099;
0x1b6466ab641f7f30eb2dca03dedb89080833b2bce7b84b6a7b1eefd30677d2d8;
0x690dec480f914c6f77ace87a47b0857ac7fdde73463e4b2445d4656c53653ee;
0x65e0d65c2a3e1786c2bbfbf47102e427e9e31d2218112a86d821496a316d68b;
0x2b5b1af812cfb77b30b821bdb2614c5f09aa73eefa9f6a48bf3eb146148b010c;
0x260f7a81271cbfdc27a85f146221b30fa12e9ffba21d654a371bca4455a37bb4;
0x2a2b6602a481c04475dacea41b360af3926cfcd4627112a8ed4192f213a823cd;
0x11439386af5e26221df0905abda34142ce69f66151192d0143dbfddf3aeaaed8;
0x230508e632c716e903e22a44c6002c2d39b1a0ee072bff9cd0901b3c4801e69e;
0x23ce4e18ef472ed4e4aeb0dca528f14fb7301c6691d43e9632a65f1ec4e7bc7f;
0x237dd8e70aa173bed421d4d488c4326af456322620483fe1a393066187a7cc08;
0x24b0ab054d180e17971795754e027a756bc1f68ecf9cdc8b92b30b4af2c078d3;
0xbaa7bef4cb2a2cbd1b33f9501ad22e365526a100273b8ef1a39152d779bdecf;
0x1fb9b3569c3be925e480fd102a3432ceecdb59d346486b99d22284165df08262;
0xed3418179e711b0a2d9bb44fdd0ff0c82741b531058111031cd123f508fc7a0;
0x2e92aa6007576a4f815c645abb2e9ee10fe75baa5e13ab2a0b0aa700e084f071;
0x2557fee713e3ed365d7fc7c6c07f113506d48dccb98510d84457b6d61c9a448f;
0xeaee37321492b0595cc477585c9fe9573da00ad1619c7409ee76c625c11d447;
0x1b9c9d4230433a193f315fab4f8cb8a7f4b0946f6241dbb2e858f3cec6c33f85;
0x35b1d3045381d5053d0c329ef11458315d69335cd2371fecfefc8a2149a8583;
0x2a0bf648759293e205b62ef858612f4e54cfa78dcf1fda84715cdde20acf4978;
0x2d1f77f7bb34c7adcaac3e88bf34cc32e7aebb82e1dfec3491ed439c6b71c4a;
0x63218d076827fb18e8fd4c14755443dcc3cbfa5bedb57a8aa1ed4b1a69b5261;
0x2808b917c9417f47e1893c4a5b0053c64a054319988e721b42713d4abc351024;
0x4c1b265648f11a5ed40c135675170ff486f6db120056d2b43e476bcda4e0876;
0x1c9625a781c3530ecf4d532c0f1876e8281a454abdc914f34dec624dad8276c6;
0xd9c2ef763966292a4585c0d7b4a1256c7b4687b8c19aefe0f2c5afdb8cb1093;
0x11bacbb8c80b3caddc7be415c49d19c8207467eca352d2d65b3c950df899cf78;
0x2f38ca64de487d59b0332f142c0cc9ee408f947e17bdf1ba7fe217cd50e3b088;
0xa5b42f7d3ef308c007e91ad0b859f46582ca96b8a3fc12c6964b4e3ae230bc1;
0xca6578515e51c2c7da9e898fa1541a6e93bea88ed529e5c1f411141884743cd;
0x2b6fd7bc3a3b595c206c43daac752b765a12255c37ab51ae183933737a8b8099;
0x986957cb19cc10c36db88648feeeffc017bc7f344eca7e278313887c521b66e;
0x2df451c36b1789c3b2a6719818a62d1d40597c6c2881225d9bcc95fd6d090f50;
0x2bae223a93b08d3115a949252d906887fbbb2988c127c1e2668c55a00ef22483;
0x5bebef52bb08431bbb9e92d219b4a0b2fe15e2f4346d0e837664369aefc1803;
0x18842bff3ff8988d29a3737afc113f6bfb80c08d5a2cd06473baced406d3e2ad;
0x2f78a8fabd2e97700ab4a2f2b5773ee348cbb2ee491bf33a5671c10e6326be6;
0x8b3f1bcdba14103876b7f57f60d08ee3aaf9ea25f5495680a0c11876117feb5;
0xe536221242a02f1c78e6c59133ed1768bb7c5805ad1a3e59066ad23dc8ad422;
0x2d906eeeb9d7ed09f7fc504db42dfa79bdf74d094eab5d29fd91e70be78b472e;
0x25ffc50d32b7badc1066a06268cdfe0a329957c10b2c448cfca1ff6ab6e0451;
0xe77d99818d5d95b153667917050e800f778a07b2520e0cb2a8d9f3946a59bf3;
0x2434b0943c80797cc13905ed7ee35a700a61bf601c7c3dfe20bd7fa3a62d0dd1;
0x15f77d11fb4fc7c16e4a6670614d85b6eb833f0c96c9ef96dcc861bfbe2e1c8d;
0x2e1db5f958cefae9e831f4d55d6c883847a2eb9f1b8ea404c6131e9cffcae8a4;
0x205947544c2d5c9d1157bc26697d8e3c1949786e6210ab9deca2092dc55d4498;
0xb9ba62195d29f54053e5fadce4e75e7323915fb2d047f61593c0cfe351c406;
0x233eee9f5e744bce4d408b2c0fcd051285199f5e876fa3c6f6c99a289db64542;
0x1818a3f0d1552f34caa7dc40defbb1ed62072bad77ff5a8221fe1bbc655e7dda;
0xa8c36ed2f64ff121cceccda4d723afc80e17c1ed150d4d4afd9618a9be52fbd;
0x2bbaffb37541a9f521ee370836ae3b6f0555f49b0569032f848e15e5d054054f;
0x2dce53865aec616cfd8143aaff05c7bfbb728a48f2b81bc68eed629ffd6537f6;
0x26a4a63df26dbff991a0fea4b9d00094354de33aea2f04f04312250deaf202dd;
0x47dae867b6ada4550e18f2443c44281584a9b07e9104ab3790d65d0bfc2e15b;
0x18672943f827e2833a8d9db988296aa281cac88816b11ea2ce6fc5ebff8566ee;
0x1979353fb46d8cdf3b518ffe145af6a533b9ebfb990582fb36f31085546556a4;
0x1b394c0b4ff11b67a1591f7d190c74f15bd83812ab056d7ba186998adfb5fbd2;
0x2213fbfedeb46fb9bab30d5bbf854cd2945a30d1115a3e2cad6b771bf53a9c45;
0x3045a6b98fe71341427e894e351402342da59067fc44b8a1e321de8b75b5384b;
0x1e560b922f410efbc72ab3137afc2b4bb9d6d11e3d78ebc0c1ef970b8510b0db;
0x793ace2e045d6dce7eb0c50bc654785c69eea92a5ff129ffe2b8224a4e66987;
0x2b6fd7bc3a3b595c206c43daac752b765a12255c37ab51ae183933737a8b8099;
0x515c94018effb2fc24a7bb89b1a1055a274cce74cd1bb4fa3751331c55a830;
0x228884947d2d1caacad64b4538521498e6a377f1f531c032a41e8c5999ce7fd5;
0x2d7bb807c37a5dba31490c8996097552a930e55198a0c8f787cab498e4adf8c;
0x15f5cb124b0a18bde04db081df667eb90d722fe38420c7a6a2340dd57823d4ef;
0x2fdb6f2f83a138c09aaf67a5b7f4f2d21f9fb72def9246f8350b3d50fdcff090;
0xdcf875be3c34cf38d62be56fe936e1f76d10f01c9acb657e4dfec02f98c84c;
0x2f2bf29d6b7637980d02644b98030297e4ee87d51476bfe02e430700993b4e3;
0x121dd63b185a3fbbf1e26721e1dc9207ba6ce83246856c780f1ff3f457925f1b;
0x20e79bcfbc14855f607ffe7efdc0408b2366241ee80d388f58fc83f1140b4fc3;
0x153dc31be4cd79fbc0f1757612c6316f994560d88ba2a0936aadabe71d3ab4fd;
0x13804b12bdb77d63ef5f9807e60e1896a5212e1ce314a52f1e65cd6051545ae4;
0xb6cecf0b015284998ff23c23a7c003629f8ee8f8e52d85ef6af13147fb8bb22;
0x267f992fb1c5fd7a2adea64c4789617a205686c01f9743e29c3a36910902f83d;
0x7c739e819b23013c6b2bba0db1f914573d0be98da778fcde3c44a82e8db6a76;
0x15da652416fc44056205298e4837860a96e1accf42af4ddb4b6eec42fbd303a;
0x1c33739471d1bd4fc613afe1e38b71ff3562acde29dc58bf6cabf73a192b372a;
0xedf8c7db59823fb1f76cc67e0e3ebf8de8dd7cbe69ec468515a5f5511c8c1f5;
0x8334b72ea2d0d35ab3dfac4f2696b0d980b65d6e0ec61fe2724c896bd3f517a;
0xf4329ad37ea22a16517b9b1e6d38afdc75a8398df9b9a32aa2f8f2c3346e289;
0x1f8d3e31cde1c2b3564ec9b8acb6d3dc56b946fd1ea3cc6067f04515fe80c352;
0x94a21c0489acb58fc118cde1013f08105058d9e97d6a780ed30705c0e54a838;
0x133b634d187f62fd2ef6d63daee9d3427ac1c9e215749786a2e17cbabda7dab4;
0x18e1b03bf875c00f97c2d24bf7daca95935d8b176bc767f5659379937658f599;
0x18242ad22da674a26206f354d85be06760137fa512cc7f30a5e38737854159a0;
0x294268b5fe2beaa0c99688e9a9e4f7ceab6a87dd42bb950a25022247c790bb6b;
0x1f13839b65eda77875e30eae082527d8b68a45094e0c63295a7130b78ee8ddf0;
0x2baa1faf25902d89902124eda3986279278cc6007b1f7b0f193732e5527fc69e;
0x265cf033142c6d433d701a040d8f9f35c15475a6c7ea5875d74927d37e3a6968;
0x1c4eddd1412f02358286bf07dff4ab2e90e5adf051ff5adc369e93c3fb78cfe6;
0x2fb924230c90e26ac6d37357a6df214f13c24c73725995873df37da56f7a3e77;
0x2b6fd7bc3a3b595c206c43daac752b765a12255c37ab51ae183933737a8b8099;
0x19e494853af32baea08fcd358d25c37baa7b42e14a74e62773713083679489b1;
0x24663e25937795d723aba2f413377e470b84418061ccbf2e7ab06545d4f69b15;
0x28194cd3daa20ca6ae03a8dc12cc30cab003f2a1b784c9b64436a984862ad41a;
0x3004d9469414f0a772c99f896e7f27c8d08abf0dc7e30feb91b51820e4591fc;
0x4a90138ae63af6d831112c04dce879f943302f37a462f0c84b4f4b543737a2;
0x16328fe8bc9d3c883accdd09cf2861ff33f072bc58cfe580113864913a5820b4;
0x255342bb3760148dc048617882768a4d198230da53b4ddf87e5178ff4832f301;
0xa494240f29dc89a98ec7fd0f8a70c3e82fc12d2894d92b36c5e472b51cec0c1;
0x26d9764b65cb6775899164e5bb179aeafcaa7c262861bf582c5d6419f86946da;
0xdc64acc51842f225a439b650e5eb3266d2ab80e7ac705ccad646770a338ea77;
0x42d122c394166798b946f03da9b3e06fd5ba1fdbba49d3cfc9ece8244426044;
0x20715b9135e15fd039a728fe347d6825e7cbadca0c792e2755921003b7cf9cee;
0xb8465af4ffc725e0d9d50079c16f1a5a7d8df1fc7067728535b10e19cc70e32;
0x1b3fe32fdaf4a4c9b5186604fb4746695561720c1a7886751635b2a416b4e37f;
0x1ae2fdac7b7d0b3c4739dd9eb27377b3bad124823940e12d0bcb1177c96e0788;
0x1e6b8f955ed56d144d1650f250bb0f8a8da2b631d38d75e6bca34a687eb96a5e;
0x262dc534f682c8f874d877df14acf8ed7dc65a6e42198570d15f49520745c708;
0xf9a4f0271d5c6aa02c42053a8d2b1fd8179a35cadd4f16299cc0037b0b16d6c;
0x6f078c71788acce7f48fcd7271d85077c50ffa7a82ff67d81a10ddaf70d9301;
0x2416d74e36b42dd5519bd3a03935b57120b33c05265a40cc15fa0b36e695185d;
0x19efbe964add94b60109cf8e6795b8afb31ece021bd1e99e06a39b868ba5da18;
0x217825dcb0fb4a2debd0856679d5f138bc28083b0583bcdd2fedd8226d71ea20;
0x29ed9e1b8a1e7d0c5dc4e51ea5f277614970693b65758673625a6b81e0ea6305;
0x8e7139bcf5e35d8c2826234a00c56696400cff2b012a94a6eddd3d1ea94e4bf;
0x23b45cb4566041748ed409f32aaf3b7d59ec85f8ad75bdf008a733d500a24f7;
0x59e1a9cc4208e8f4adc17e95a8dd0a0e0824aa4671a24075116ef1cd29ab280;
0x1084b6a7bdcc2947835bb7f017c5fa4a018dae7a14db23c1f44e821a65434e3;
0xae92ed115475902606d7f3e699d95659acb152108c586a30a912750ed18b0d2;
0x11540ba858d368852b75bd5e3d31e289a182f3068ed6c2654ed4c92e9d4a9a12;
0x219ad9e087618d15eae3780c3b2fbbbcb68667bbedb9d51490a04e4a2986b734;
0x2b6fd7bc3a3b595c206c43daac752b765a12255c37ab51ae183933737a8b8099;
0x1af405bd496121de8bf68db182c52f8dcd863e5e9d0d07c332702c652f103155;
0xfb5adb4f2ddee2c786bbd630e10b6af21566e13887264d2627e965b8a7657c0;
0x5735d0a20981c3443c26321ce6aaeb22867087fb482f3fc52564231fe1fbfa1;
0xd5f25ea7cd06c95915cabc11f61a2a640b5109771238b53526673bf353d8efa;
0x276d9d19b50cc160870806a1622acf7cf1df7a5c0afeec2dd77a0962acf14cb1;
0x2d52da76429ebef4234a94a2cf6a41afd471193888b6fdf668885a0c578d3c03;
0x24f84ab4d1acc7cc1b4f842e502865a26591447b8bf24439782e17e032b6f535;
0x21069f3feb18a6d2025501270c070b1bae6035caaa50bc68b6b402a909dca262;
0x1430dd6ac598deab9432e5227ff5fa9da4994f08ea28a781f9fdae630aef746;
0x6fc0f56ea9867dcc10385217771bae7c1901deb59d89d694a14fdad07ef7456;
0x2ae95e39f51c7935a52f31d1e92c2fa1e2a2a43ecfff3849368a226bdf1067cc;
0x2b53d9abe894c47db9a2e81ddc1ea0cfeea5ca257e8c0ae61d4c9db5d8a918f2;
0x18dd0925e43f821fb7c3c9a72e5d409c13e5c42f35b1268e9b36685ab6c60a84;
0xff74b6d96a8d00bb97508280e98c10a1eff834b46b15f474b9f4fe50174233a;
0x18bfa382970f3598061f30c5c18b3e71105a5145ca3e6dd21f779395872e3616;
0x1dee9f00f2b7548ffa9cc5a39edace63c461c528a7bba8a17f59b7df6e247b99;
0x12c5810e9946497e1b6f928182d8511851683ecf234de99c649bcb3dbb8f1e76;
0xe5953881e72ff398e4c34b50c3d66fd073fe79073f7ebd593fefdcc7bc4fe32;
0xd25061d2528dd5351e4e8367c96fe57446429956594b2f752783f06251e1ddb;
0xcd02124b62741431f4baa64fd8a759db1fe86465b36f26e7e91ada1a370e031;
0x2d524e2c0a167d163be6863fb345539da3a8fceb3db496b765ea2fd7c4fedfaf;
0x9f6ef3fd9b8eb4dd5cf6393f681db544e7339f6a129f9bf8e380041e0a43cd2;
0x28bf2b88d392ba9823e2db09d12cda5a103b6e2f581a9a3abb8ce25c5d93476c;
0x209e08cbdf5562b051300a64f3cba7d75c25e5032a2cd5331e6cc386db38c373;
0xe18e80edd86792ddd92cee432ee33b15fc5102cde0ace9f8f7c9fa0663d51c5;
0x27bd8795292bc68b6a8e0ff451cef39f92f7af2d407c1cfcf60297100a9c4841;
0x87d2427a36da27e525bb1956015bb2e0811c037a0cc272f230cc4f18a756a13;
0x5e017f8cba3d41aff70fd421eddd63f464254d65c086e7f5f07981790ffffd9;
0x2eacb959ae5429d219c66b722feea009060a093d33df0cdf225553a0dfc8e7c8;
0x27a8c07ea74055992c66e0003c03b07c090d30d45b940d303e51212a974f05b1;
0x2b6fd7bc3a3b595c206c43daac752b765a12255c37ab51ae183933737a8b8099;
0x25b72e38946d8c146ee356367981e74d001803430d4ae023d08a9c68ce8fd58f;
0x29d3d7fe8af458f8f444fc49c4cbb3fde970d6edf8ebd7bd3d067d45994075ed;
0xdc25ac6f52dfc613dae0197322a98c7700cf04dd9d1627c90076bf2384b32d1;
0xaf71c0bd1542973007bff10dfac94ee18f5da9221d3d6fbe04078971e3b80c0;
0x1406d8cf97827b7d25ce71e62d17eff80c493bb0e1f2a6b951723431dde17c18;
0xa177d75332f2aad209c9eef8004879afd6acd5ce56db116f834053ab51296cd;
0x1e42feea60f7d4987938dd58bc9b53d4b5ae4f8ee14b2ad58d723c7c86c130d2;
0x2c5921fa4ccd767fd2533f308d1c18c63cfdc3f7d8e10b217fccbeee2aca0ec7;
0xac4e3d803a6c602ba6fc373c31988c294649478134d462772dbb91e40c56595;
0x68fb1f094571ace723b59d1a0595cdbd2631d93806a5f5c758ce986289ecd0;
0xf5a472661affd8730cefc698d6688fbca3ba07b12637beb8f0722f2f5e8c8d;
0x2ed5af998e49f3d9c92a5badae4eb43a516b1ad840cc01d11c8a441786316c60;
0x9929a608a5256575d7c287db82aacdf5381830b9e18b23ebdfa2adcfb46dbd9;
0x26639e520710e998ed40fb1369c7cb039bdbe0e2e5778055072c8a5466ff9baf;
0x2b3225c35a88f757d4c773363b825191df51b0e1cd4082541d382aff5f7b3f3b;
0x1c1a368cc023f9aee70e3e53341a06e8095022c5413ff1de4286363b4e1b99b;
0x1b39049a6f7088294202da65d65bb190d44745fb93f4073a00d473d38fc37392;
0x2b966bc8a897d76c04f943c5a7aef551f3c6040d0586eebe1f4989a0248ad79f;
0x67a2085143ae9a245bc66bd3374eea946135f565cc0efdb6358a3ccde5b6c6a;
0x27c3ead3d76039b10f3bfe13f32df2823fb8ca146d9aa6b14d8cea182aa76bbc;
0x13ae8e66bda5f40ad3ce0e83305176d5e73b03f2950d5dd78b1087651446f60;
0x267e55ad34a8788497998b79193846c2822a266e8f60799978e66ffbe27018b2;
0x1a964c5c4550c29516171a8a8766faa7159a1376a836d29809d5e901a584a686;
0x216cce9e5b6062cd063ae93e53efdae64cf5479ae01d7549f8cc7e67a600d184;
0x175109dd08b4de441ba589607706769fc506fdeddcf56ad57d0ec008fc3816c4;
0x202ed46ac0e68827ffbab076167ceecbc7a9614234fd6621c6eeeb7283e439d0;
0x2d265e49f35dc88b63abad32d14302d3555c221ae8eff1d3399a66959ee87e6;
0x593f84a55c9e3af185e6e8e689981a9fbe1ab6282f393bf4ac2b77be21d91d6;
0x2fc4427295d575a8fa93101a1b916e123f2652e7e9e94c364c4abae0a424334f;
0xfd26a5a97c3cbdbec343e616c0d93f25d7c5eb827748114e4da61c017e25478;
0x2b6fd7bc3a3b595c206c43daac752b765a12255c37ab51ae183933737a8b8099;
0x163e039587ae8bed242103f972c58d7b3570846f3a9ed3b6f65ca9935e0599e6;
0x17b8c9347540a0cf46955fe40c29fe36680969a074eb4e1b7c40ce0c543df4ff;
0x28939f23d63d09adbd1dd196dfd73eb65ffe2fba07a79e2049a8453c7caded55;
0x22f4246a101673a3d58ce953a3740bf807f25fed08cebf1c124565310b10caa1;
0x1335c6f50549b22023d2a973807c510d8c1b7e228e8629c35b7ea3a701ed0277;
0x5cc88a2ab03f9f720d841583cc8387313503e804be95d3311a64d0cc3cce9c6;
0x2000d4715746fa36d8abf22861719b23aaecfcdadcbe71d567b1bece77601904;
0x3c2c00765201729fef4cb1ae8cef326a7de4f3fd5803521e715257f8b392e80;
0xc5affc61d51001d7b0d8aaa6f99d44cc683af806ea1ea1d241ce56f386b5462;
0x153a431981ad712ae13b7530797e5b2ab77c125bcf530880ac8566ad3a5ac417;
0xd2047081d9a8fff7773d8011bbc0b61a6057fa6f9a1627a3cf321fdd666e8da;
0x2eadef1fd011162138dfb0e0200683a3bc27e1ad12dbfb2b94b32203186e591a;
0x21a05d0434000fb05886112242958d74bae54ed2b6f37ece00b0293322e53253;
0x19732c8f836170ba403a0d379561bc5aa6eaecf21c4fb9fc26cd44bdeba475ea;
0xff30532e9f7305c94c298848cf0d54dba01341a79da4db0f2a975c2e4380372;
0x2afe8d3ea06405c8fcdab50d6d6e55b6faa676cd36e6acb87b3836581b06b46;
0x2fd228d6e4c1a1acaeafc4597d69fa30e56282d8f11d4cbd09c360dccf546f80;
0xc203a0ea25b7f9b4066daccb2928dcfb4d1cc0cd2d14671fab5a7928603c8;
0x17ecb26056f6708cfa3aeb6274c3352d6bae402e4d2414526e4c2a2bc9b8e0b0;
0x2b5745b27a5ba71c7afe5d1bf955c578d1ce3c915f4d30974f225f6f7bad7c8d;
0x1a6eb6c48b529c6a0a166e53fa399fb68e8b414869b13ea713c1a0cab8480c23;
0xac89d6b741aee6c180408d6006f130ed945185ee9a213dfe3c8baa49330ee36;
0x86eca38e64cdf2e252134d79160d437d92537324cab25cd8698c5e92e94632f;
0x2bbe2bc0467c7a4d9d1bf2157cd5cc3ee50f10166a0d442c706d9691ee60b8b0;
0x22c4c3d27515f300d879e8bb85b0447341cb7a816d6fda516cdcf31386998d75;
0x23e31259e8fdc69a23a603b4e5b47a90390966aafbb1f4eaf02f783219acd1b;
0x20c0c0f899d24401bf7084d6d0be314dbb3ec267f87a2e8d3769a1f64b469a81;
0x2daba47175558a5930490cadff1f3deaf100589f676649a3a2fb1dbd9bcfd3c0;
0x1e759b766aa310dc7aba2245608ecaaf4fb90f509cdab694155b47e768af3417;
0x135aafeb5b230e030273e42ba704da43085d0ef96408ea8323e7be8b546643c;
0x2b6fd7bc3a3b595c206c43daac752b765a12255c37ab51ae183933737a8b8099;
0x2ca2e70a3d8145f60160984452b26220f303eaf6bf539c8055fe2ab037a64883;
0xb25881ede6015137cdf99b53a8591aa6e0c042a5a8c6a9e6fbcd11a37023cf3;
0x258b19d1bac9e53c3c5cc4c59c87543b0e9b33a5e631fdda56298997a5781a7a;
0xd6e7177ca87aa3326c9420369803583d1a1d8d96adc6acc33a3e58cdd3587d9;
0x23cbecf6d9fd7bdc4c426035908bdeef9c9c7a801667ff2b62e8ead282bbcab1;
0x2841e2ca97eb7de3733f8a6d3299c6038e8b17f9d133ed12efb4dc6d923d804f;
0x2bf228ab9b7490f4b0ce01cbf31bed2ee4a6ddc6d5a00a608ef1c7ebcb5a203a;
0x22eb1fde7a1c175f0c152d5f7f85045961d2b01397db24d9de95ff0507627f0e;
0x100932572c12a0bd1f2ee8c6b0af317dc5191c3bc2a177eee791d6e539e5b237;
0x27e881557b4ec0f1128ef0069c22a6e5ce4fe48f7bc9d9789c48d6948bc24c85;
0x25862853fd1b44c6aa26a414ab4f295aaae0fe4457e0fa0c4bc5dc9fc2972246;
0x3947c7ab7d714f1f8d4503829e2edcd06baa8ba87d5b86354bd7254b841ed64;
0x2676b506a75643609e6b0dd8986b8865a93000fc38eeb1f6cf3b026d6191ed47;
0x1f45ca8395b4868c3b68b11911f52425202fcd2108aaba02230dddca7b36546e;
0x1b5fe89e54f508b5188c8487302834d08095b14c1e0938aa82f9365ca3b2b44e;
0x25826f9ae3904e80f7ded17b954c8989a04a060326ca40371dfa204e02b05eb4;
0x2b5324e42bec45328632622c82644bde941e015946d2d9219dd0b805dbab5c26;
0x25e011cab809208c9447ce75dbf6c90f76c6d50640829b861c2392271a51ee91;
0x58ffecff608099006fd59ff7d75f03a528613b3633d1dde3fcb5d6f239a648c;
0x26f052daeaab76f2ca8e18584b8586ae9a8f591a8b97a673d82d50be943aa00f;
0x15d305bc6e3138c409925caf3968367850c6eed0384e46009d38bae5df81fcc9;
0x16f0c3de9b8a76ff18370cc489da46a9bd962742fcbb0a0ab0aee9d12c3c5fb2;
0x137a4fc5e63da4a366b6edd41e255fc4baa73ba9662ab7d2b69e0b7d4986b562;
0x25a59d3b46f5c8b7a763518797faf55cc4773967c1772b01c7c23f186a75178;
0x13df1d61814fda2e0d26ca861adbfe9b6a92c05bc3afc953cfe008d176be2c30;
0x15b63fe5843c661cb40dd42feb664dbadbb27866e119a28f9ed8d35b537870b0;
0x23352a3a3bae8c2e34359d75bcc9a5d870b69555ddf57948caaf074538044a80;
0x2d223c52d6fbcb0e82e9fef6b9bd7384a2b789c4d9c273ebb35b4efe8e51e75f;
0x1f208f14c51b48c7776faea01878bce6507182ea071505581658173217492863;
0x194984a1a5106ddcb1bce1299b1b043edaf26b85c4afd80cb6785cc5c83b346f;
0x2b6fd7bc3a3b595c206c43daac752b765a12255c37ab51ae183933737a8b8099;
0x28bdf0652d4964a6e9ea2faa6ce2d823253364d311762578721f87736aaad803;
0x1183224ea82a68db5fdf6a21052477c8c8ff500e97b8cedc09427cbc02d57e6f;
0xc61d22c912bef8507c6b08cbd36f7cb7979f3b56b36549613794515eb4e02d9;
0x2ee8c7f8684dedbb1c177fa9f2574a20cc4ff3c10562877bcfb0d53c90649b77;
0xf56193999816a0f4b15e38974273b5c5863422b93da9e94f47c5f10351d4705;
0x90b70ecafba579d37d6d211358523ed992e26d5a7752598bbb68b637a59295;
0x2de97266af0468dc5a587231f1b1e3aa2cdd4d1d7208205be90826491f263752;
0x198553fff8aa46adc9af3b38d6c01cc00f1a6594ed0e1a8b8f370965f8a89669;
0x192b3300ef2574b4a7053c24d7dbdea81c04da6f3c803269ee85c22c110782b0;
0x1f4c7a76da30fd0e604d14833d0ceae25eaadfcf937d4ba5a6bd7507b70fcef3;
0x11194b46ea91741f761662d56b64c9d127f2bf36142f681bca579af2e8856cc6;
0x13233cba082bb1579428bd4a19847aef4c5031956805f6e2522e00dc9a92a087;
0x6fc54c9a27cabca0bd75d53cefe2992bf4b744ee1f1e0cf7c254492e584886e;
0x14870645f35e85921f579a47d013cf8812201a133bd14b6f5604f77c10ba8ba;
0x246344f1ccee4dab0e0409bc96fbb618937e6bc629d9b1bb83a669055ee9e210;
0x1e1c72c73d9444d6bc46a7834c66426ce4bb91446e804909153e6bf86511e628;
0x662c514923e41038cfd078fee4bdbe72c8f6e90e5a3cfa51082a1a4f7523754;
0x25c7e06ac250334f38bd664db0bba786d54e9d40e7c104b95989232ba0776db0;
0x1c63774bb6aa72c366712c86792d85668f833b7af35eb91f36176de375fb2522;
0xeef372e915f3263f31e2c3c4d214b4c9aea86fda813ddbe1cb15441881ade05;
0x29db12448c6eb73422accef5a2a3794c7f372c283f37b2b194cbcf09b23b480e;
0x161b72d834fdd269571186b3847084d251f4765a5b9ffaf77fe720319e0dc7c1;
0x2434332138c93a69feb06521af0ef32c08b680bb50eb61398e377447ded461c2;
0x140867fa61caa3dcea10be9b46b76871d983e8a7952e3d1f71aab2f531a85714;
0x1e3877e58d7f25a988f737f229650cdd345c308a37c66366683771f9e249acd0;
0x2e00f80aa5ba054560070a3f21c0bd37e311ce8060a7cc1c64650560c9715088;
0x9673ea23dba537a4a0f6dd66a13df85d8887dc3431666a86730becd72f04fc4;
0x2a05b10d1faf68ab7e607388f7c9b3de54bc151f0b2da02702e471eb5b786a50;
0x2e8fb8bd00af6741fe18ee679ee378e8602ce8bbc429ca9986d016e17b2fb22e;
0x23cf3f042a56c7d2da94772521a21ae6bcb3fd0433f8778cbf68fe1c365c8c08;
0x2b6fd7bc3a3b595c206c43daac752b765a12255c37ab51ae183933737a8b8099;
0xd4d295bd6bcb6716dd82907d89b8809a8af69859728773689e073bda41c709b;
0x14f8df38aa9592d59519054d8f0ac2c79b6a1303905a9770731a3a7081b2bcda;
0x27ca9533e2a56a644d35c53fa9cb66187a7c0ef7322168932c330724edbfbd0f;
0x1acea5282de35d35337503c8c8a221fe22bc24d39164850efa9a7acdf1377f07;
0xdde135f69d5ee7253d1cfffdf878b3ea75ca2c56b15907329147969fb120d46;
0x8565cb565140d42d33d5b907a0e23f7af7daf91ea5aff759fd8ca916579ce25;
0x19343a528505b6b303ed193e33810a005abe738057cb00f34c9a3329ca808b;
0x9cd47fc8ac46b3e49d737eb4714d522ce235c1b0feffada0852d8173d4b080a;
0x2b87d075e7fab29849291a7700eae8317cb01676a36c0d2c138257b852732a2f;
0x106694e160db35b2d35998e4ebbd1769c69c448afd1ce6aaa8e1bc1ce53dbf4c;
0x163d91a57022a4734ea17ab01fb85d94622acff6582dcf7e4b46dd0a5d72d823;
0x2b8cbbe66ed1e1d9c5a1361ef0a80599de75573c62d6e3aa718ba233e2594408;
0x305e4c4a93d931f927f0a213cebe1a5a3b258ec726fc912ca59590febd9b6020;
0x26d0c3492063959cd8c3dc0e5c791356b19b9bc6e39b4da13a4d2a612e56356e;
0x2076ca2026d04b98f821b9bd52d64fab129526fc2e626fafcc92d0d2e23a33bd;
0xd89c4483e40c415d266d3c7f2ff6d1d66412132770be71bcf1178849502d231;
0x13671ddf2f49e97410f41ead0e1a80564d862771c7543664bd20762324fafdbc;
0x19694e401d2bd6b6ca4d8929129a85c9e8834e40fd1f6089da9bd69f66f840a1;
0x1a801c574279164c937f3798748bf115f09f56044461771cdfd67c9606f1a170;
0x7359e7661550f4af1bfd7620cedab2b030fb9645b06945a8c166a617423e588;
0xdc31ce178e60f8dd171002e2e5849759d9caefc7dc7a1fc551b677b410c4274;
0x3b7d51b2b8b3390923b28d0f1e181c8378bfd0910f03835a1edce3ded58ffa3;
0x20feaca74003f750c7d517aca7f2c181745a7d26a47051da7209fd1b3ba67aed;
0x7c71a9d84dc8d9b2d223b3302e1804f6d6cde6702ebe991c5c976a4aab0971a;
0x1ff2e7a7045e92d955d0b3a679eb1168aaf735a7cffec5e90fd0e47fc946ee3b;
0x1ccad4ad13abfe58d0a69ea967e9477f20630d928dc93970033796ca8049edd2;
0x1d2277a4c8ac3e7ae945f05461d7a72caeedb456f30c1e12911c8e3dcc3a66b2;
0x2ec2d28dcd7e75e100c13ef572e9e270d251a774f44b7c59df767ca50fe10434;
0x2ea447c02e059970eb92d1fd14b1ecb189dd900b281e67d68b3e742523c6a801;
0x2b4adec5ee014b305fdb460cdb1ae30796202ec0fe11d13c23dfd65703f0434f;
0x2b6fd7bc3a3b595c206c43daac752b765a12255c37ab51ae183933737a8b8099;
0x1784bd17cb0965878549fc4b0e1b40bea37668f94d8da890caa7bd27d22cb2fd;
0x149f1d9787366b84b3fc40ed430e96b646eb16901093590e7b68ba3601c364ef;
0xe1161f13b91ea8432e12df3ab58706410da5e6a10ad20b1f62d1c34c09cdfa9;
0x7e6d996431e217b60bc4d3e74aa3c337263f1183c92cc73807d19e59c4e6804;
0x2086834b2a03db22c71e71dcbc89688aa02cc362496e4992be9845f57e8bee9f;
0x1a593864d072783fe6e1ef8ac83665aaadd593b63b3dd3d4919237bf5b2c7106;
0x1570ec833fe8f21ec48539c6ae273c34cae3bfee0acc5578c96cde92b493680;
0x13b62a93db33b6f0e9114d3f2f19c083b397a193f6ef0f5b087f2079c2581a9b;
0x2ab8bd24dd963ee466e2e0c3380cc88a4f82397cf9f7dada2d80ad5ea21db875;
0xcedea082a17bcba725bc9633d2e5e67fcd43650e22b22df9aac3037daeef8e4;
0x5df20d895beb2374b5ed6d81ed5494a6ae0e9c3bc184d7861bffbe7243b616a;
0x1ab529db00143d7038a6e01e23d0e9d56ce89bd34002727061c8e56944e4003f;
0x2548c562cab2de540520c050393f949e10bb8d9ed4c3fc387e21e454f1ac83cc;
0x29042d35cc97955a80eb09f15a15b66f0c4193a58193a080662b6a5e79e68051;
0x685b96bc1e8d70b1a7b70216b5c74a4e5db315dc36faa59eaa39f2e0494ac08;
0x2ddbbc66fe69dd188a2e9c306cf6f7de9faa106756186b82f3fb440dd0b912a6;
0x18c70260e52a67ab417aeea60b5d3f88eaeea2508829ae7ea3c063443cc0945b;
0xfd423845f9f9970561e33fb0f913821e1e3180dbd45815a9238ad515543a634;
0x6715e87f1daa773cab6957c11605b0c6ff2ee937057373dafdc2f284d95b1a9;
0x20af32b63bd2e6aa4adb6d0f474ccd105b78a2dbb269dfbfcd615d4ccda0666a;
0xa4333899e37c411cb633251ea98d8858dd944f73c4378b66fdfa5904ef8d9c2;
0x92b057185e62fb11b22b5f3583d1943d561f827c54936cf20d7106b9416f3dd;
0x1eda5120d5fdf5f2cfc9e303a45a4ac8710bdc7a9c28b5e801eb248f60ae08f6;
0x1282a8b79cc5039edc8852ec1bbd5835f3b8004ccbc9a669f88a331e966db3d1;
0x2335e0bc60883b59b1390d2b3652ed0bef230324e7fdab725a5d4743d5fff8c2;
0x2e23e4d93a4b72ad0551b740879ffb0da4ee65bdc1ab71f8207d2d9da0f26d01;
0x1b06fee7ffca419618d3bb646a203316838a684e7c878024bc058645fad01e55;
0x66ddb3bad4a4b1374fed6b3a88b1bdc812ddf9a6bea1b028735dcf90a77bdbc;
0x280b71aedbbd3761124fe6fad719c6930ce0ef6695938cce777ab77ea3536637;
0x21d130fa258f6e1fe201071b3d0f643832f4aad07a3a983ea00c26890b546e5b;
0x2b6fd7bc3a3b595c206c43daac752b765a12255c37ab51ae183933737a8b8099;
0x305f7337dfc2c6591e5b3d53a4783555e1ea91efc44648529448fa3e463333eb;
0x1d69e17e5678ac53a1c046ed0326666c84b909b85e5aa9e34e516d26ab655573;
0x1f5d0bf5a9c458a3c9c9bbe3fe48211a1127a176d4f54547aaf34589bf9128c2;
0x2385bad332ae963b60ae73862cf86c5f723dfd37e56b05918373912d8f9754ad;
0xd68dbe874d206f45efd8724adfd9b10999a7da1226c394c4e7959269a17a79c;
0x27f8bff9822ba76b43b54939686caef37cac685d60efd3bb87b468808b480c1e;
0xf2cbf2fed229b81bf91c08a642730c9633136dcf1e68907c192e34464560b24;
0x27e6783451cd61e229f062e38e360d9d022cc244222ff2128d4901de0c5b3c1b;
0xb0bf852c95f2476ab5280b94660b1d9d2cf5439c34d7b6a928d596b13555f32;
0x2b543c7e1d2f84fac470489446df876c7f64956d82c8897e268cc4e2af130a2c;
0x4367a2851e9b84ece7172ed126f7cfb63d5fb445ea19ef5a31a67517afd2fce;
0x1dc8a2abfce437021fed52e83b1e6708a20e07d84206e4c6038bb9ff36b325a0;
0xb217141d35c2aadebbad8d9a426b52df23d7db7c3c72f0914963046e120d5b;
0x10682c3505cec77ba65f4af68963f3310562527b2bf1c812c04a2eff94d33376;
0x2f3fa61cf4696622abc02bd664be628da8ff5f9b49d93db65af12a0ec0d25593;
0x3798c88da7c1c70322f72888f6fd783585ad279f4cc06029f3bb23f3c32fd3a;
0x154b3f2f885e3d61fa5c27875fc9b03509b9f36a18981b13e1aff4d29b7d23af;
0x45e3caacff06ee391f46ae43cf78a2ba1e2134de0405120228cbad0694d2fdd;
0x21a443268cf1db0a1edc3f7c366de6cbc690e1939658278de9679814a5ad4a30;
0xfa574382520b0170ac21d000d9ab5d2523b5f86758226d49bab96fc1ad9c59b;
0x1b8f07226473c28fc3cf78ffe2f5fb3967b6beeed42866814c648f5d4adf5fb6;
0xdc48483de7d0df83232e5a41cc287618b7957ad2fa3db03556429286ed6a2d8;
0x2327d3dacc8f80fa05d075b7f9b8544356c04f4e600f53d8d4d2d0f147590eef;
0x16a6266bd6ed429272c69aac579c9032d9be7e86973b578f27d5cb8d2f6045da;
0x9eb4e66285aa7cbb62217465768138d73953baf7eb68bcad15b749419255e25;
0x15f3a6b27c8a2ce27e931cb599a0bbaf6042cc6f8d411d2daf1969c02c67f5e1;
0x2727c9236d43b41a34c74c52420674daadfafc76eb313b17fcae0e77ccae7bfa;
0x149bd00eb1da39e22ab0d8dc78d7abff54bd9c13ba38a6a531f696cc993a3f96;
0x13ebcf06a5c9485e1767a124c3e035223eac6be5816041fa077d5cc6fcd10228;
0x22aec7f8873c75702e0c55c1b1529b1290831cb4df73c3ae6441da67c21e8169;
0x2b6fd7bc3a3b595c206c43daac752b765a12255c37ab51ae183933737a8b8099;
0x1d45f9fa11307f6de88e220e633519a3ff18d9dd8071a39b38ee29d5910fac47;
0x215ff3e875d70ad4b7aa08800aebf47f83fdd05a246186a8ec09f674ef5aa160;
0x1552de26acf195af643fa2625cbd3e1723284c2cfd05bfbc23495a0cf88aa369;
0x1f9836a1eabee49b2d2e6cb1f1f666753813f5201323d302faae128f08e45168;
0x1f8cf510bcd58b2fe258f3f812dabf08a301a71ed710d4647cd60fdf5beb779b;
0x2c446f645eb661152de44865a3ac149bc20a76447616094884c9b6515ed45674;
0x50a3718e48640cb644bb787fc184aa61f4e44044dc0f3f3006ceba81b8dcaae;
0xb370b71f98dc10706712c7f348474fefe5dd772f6786fe96cce94999cb09fb7;
0x287473939b5c47568612b150cdb25b30808c058b4b5a3633c03af83f7a7e26f2;
0x1f5ec7598f6da577826ac5afcd6ec3721b963562999125d9d356eac51d0d513c;
0xa9850058f74f3196f58585e6fc80ce0405dc510ea89e33eb1a9c87ff91e58b;
0x22227d59d1ffc328aee2ff956f45c3b6adbeb782538809edbb6a1e70f262a23;
0xac7b869caf4e71585f9f567e94b1ee6e0d802ed6af49d30b24d41b1c784e448;
0x6d671ea1fc8bcd0d824e101c3732425de5a4435fae1bcfd1c85f501ca205d43;
0x6cff4c2918d4ce74f4ebde86e5951ad143b09a951d136618cacc9cb40dd5799;
0x2d9f0ee4ed51e979a0f1a582077e8e5f6669f89d79225a7da2687446184347aa;
0x12dc6ad0e0daf28768e85b026179300312feb26584b2a4b50f830499e14f5e06;
0x2f94df6b211d8a8a514facf931d71a3f23e3d9a8a51a11d29c0221fc9873d756;
0x29ee741287f545a19cd02af760d56286c27ab5d4122c001fc297d43db2bd030;
0x7d43ba525c44a894d64b500aca3b68f2e3c2577927390f60181ed36c0df68f;
0x252866633477b3aaa0f9fda731b4dfa0d78905ab39c177ae1f4f76da5d9e5547;
0x2308ec0db73437f83200db8f914733431ebe5149e61cf3afe3e67304c8fa8d44;
0x517e4ee288992d99e59515e91c5be6957e839b8ba8c9c7430fd31eac44c56a2;
0x2ab15d8887615c04e22f1e988b9d8450cddc2cfaf2b582bdb006204a50e596cf;
0x116e33a713748ad93004391adb07d5ca64962c8af2a8835e50eb7e1b6662a557;
0x68150e1248e7ae44ef5619127e8cc28616d7277091afb4c209ddd504923f50f;
0x1e9e3d2964594dd5bc87a93e4bb67e6ad71b037049f90493165954fcd86a1e4e;
0x1751f2e99cf8cf643a5ec6b3cbc81def5aa8679977cbd2779f34f476f9496911;
0x248ef2921bdf968c74dbadcae0db56cb022ca98b983628d7110c724cdae048d6;
0x2fb6d1bd57da1cc3610b201535bd42a2cd405ecb52b28c215237581257354352;
0x2b6fd7bc3a3b595c206c43daac752b765a12255c37ab51ae183933737a8b8099;
0xce40ef4d37ae58008a4d1b02e78aa4fec563e8840cc28fd1af61144986866fd;
0x1f94afec8fa62f53e4bb20f756a08236e40e98a346afea85c78280f0ea33e337;
0xf2164352021aaa641a7176ca76674a465b3b728d8af12c7b2a5f9339d6f5e47;
0x1b86c9a7cb8287520b3943987397e8c7a742f3059fe12bea664989ae08d00e5b;
0x11e4db5228177f30bb2a2f96098eaa7ea941229180bed1869a0d0be04cc60b0e;
0x6378bcef2ce91bf24365b51a0970028dda29ebd7da3054a8440207c15eda844;
0x192ef0949ebb3224247a83c74eba36e47252f4dd8c3f20eedaa39484ea78ca65;
0x21c1cae79f5fa8283d7a8c2acb29a4f46a76b8b3f7d51fd93941bdf32d38fed8;
0xfc260daea1f470febcdeb84cc58f03b1100ffe23ab52e88a7832c18b1b13213;
0x1f6f7bc07589916ebe3fee5025672ad9af9a3ab798fd01c6c2228ecca20c395e;
0x197e205923ec11dafeeb697b87ad973ba4a85d9d9d3817c364c3609ff78c18dc;
0x2935c393a884a244b08aa314b2d261c999959d415d00857cd883277d439fc00a;
0x2c639ac544a75088ec7aee01a854471f7b6538d83fc1c7541d9018c0a87b1916;
0x25b2c9c2f413762e843c10e546ced0572e1a30d1a9b2c5c781d24de864ef4973;
0x1d28735cd6da088ff72fe8cd4eadb8bc28268e15a9d754a5eede53d3513e0317;
0x205c309b41e6c8bf2fea4671a502abcebbf0aa33c807369adb9869c0d0b1661b;
0x2e8e8dbf8f9ab3be24fb4e8b95c2188103a384cdbcc2b65fc5b931a730416e0e;
0x20e1291175551be80f70fa6ce6e111ad5403d1765c4bf47f611103fda64b098e;
0xba9120de0cb289db8a951b5d348853a839af34529c972296703db5c217054dd;
0x2898c38f27c64311d90346dfaaf3554ff6b104e56124b35af7cb322402264620;
0x286e3762e815adfe1ce18e59928e04beb43dbdc6d4d1eb52b5741326da3c688e;
0x2d316495c1c92a8ab5fc456dd8e7b1ea97f5cb70e90624d1af3e4bbc18cb75ef;
0xdeb856e2bb0ca11bf197de3dbe8e8cc5dbaac998dcc275cab91acf7af3ff347;
0x247b87e0ea690afabb1beeccffc7c12fb20f31484d684b97302ee67f588d1eed;
0x2003afe0fe29cee7641b7f41a31c8a2fc27bdd619f85a8fe53a4536884d684f9;
0x25d9c2e2d66052c7d5cf3d56c8865d939cba18e0bfac725dc04f468837112253;
0x1a711ba1a3eece6595c4ee4dee4ab3e865dd77e6b58797c3677e1f494d13144;
0x7c74f66ff199856f077f29b06acc03305bb03d7a1beae045e199b9596ac9a31;
0x1a4d513506c6ae66d0e1a077b9e9604ad4359a6cba7738d9721db0ba826fe704;
0x172f82b5caa7f65eb8044ae3faefe81d837e53b8e615c2d46ed02e4036142ecf;
0x2b6fd7bc3a3b595c206c43daac752b765a12255c37ab51ae183933737a8b8099;
0x1c81a64c5d581191f40a709788a4fd607c71e461de2ad166b9bcca742e0a9db8;
0x65284960bf09eab2773324ead048c3bec54af7ceba50805e3532a5a11b96b94;
0x234f635b921f9d7a056c0fe63af46afb8b9b5430d81905bfb16ef051369fee7b;
0x1488199577c500214d8d9c4bf6d64db0811d5e69b44f3b86a585d9410f875be5;
0x2237a1388bd8962921cc637d8a4c5d0faa6b5fb138d589db98a508bdf9c225f6;
0x1b89bdbe9e9ab40f2ac20793f4182a7f33ad93e907304fb0440d1e7d40063ed4;
0x20bfe61092f2e5cb0508a73ca1dd8983127a395f6800ccbec4ed56aa95ad8c7f;
0x5acd0c7611cfa9170896d7606a8f5c672883ceb42c2b829c29c8dae08df2ec4;
0x2e3a22fd34491f153094c93bcf17a8e45940e4a1191fcd2d1741ef841681e0a8;
0x26504b2d5b079c4aee6f588f825b8b28c337137e9ac1f945f715b85b5cdae979;
0x201fbd4f4c9cac24b23d8bbf86efe15d86abe8f18838bb542975fa10e9f2a895;
0xb13dc6afd9a8566a90cb50c82f1876fad84ffd092241c028b9ee470cd64cbbd;
0x9c0853fae2070c4ea816a54daecef43a5940c647229be0fd869ef36f23159e;
0x1a926cac03b4e6f41bf021460cb129cb4b20253b3c172a6f2b531d57d7a7d645;
0x2334c0b56015f6c5a9083193b17d225ea2d977932521f5d7e328c3f0baaf7a5a;
0x2cbf73905b5489ed3b0c5763eee04fed6594411a1381d0bd617a208a9e38d208;
0x1e06c4d1e2edd5530f226649871f8fc83b9e7b5708d75bdf6b9a31b963be7bfb;
0x260c2e5e5364bd914ccbfb785d01ab898a2a961daf708f5f3e34bff953b24b00;
0x26689f7259e1061156947b136c0dbd5e8c2c1972b4823f4dcf04df33e95532cd;
0x291df0e62b563da670d44db58d0060e20935852eb699daee6e342b3c59b6d73c;
0x14e05591b9b889b8899134c8079886d87829cfc39538b78b7a6378b30be1c683;
0x2be6bdf824d2cccd56cec6d1953e0f6b3117f6cba035592433b7daca12ed43db;
0x1dbbd7c3c3ca0eaa01cd309dcc57d0c6331814ae9640071cc6bb9483ab6f9a8a;
0x2227b2d0979591731b87cef94237e7068a5c5e03d609e61df240b7f7944e9264;
0x1d351ed4b59e46571e5727529ed92e6ce55aaedb36e3d54cbc6c2a73fc4a2786;
0x2312bb7364e690f64210acaf695e5d8d03a9059b261b9f5bc2fd2dd78ebfe499;
0x1532d3c7fefda9a7e81fc949f72956bd5f6d55bc4be421d27d64847d81cdcbd4;
0x8916c1ca3dc2d21a671ff4989f5f7ae581c2102c172054472cb63e25fd58101;
0x199a3556e4c7a370f0832fd385952688d469177c78a0e77107ee586aeed025ca;
0x4297e87f69747dad1391582ac26a54249d004fbd16bfc50ec12d7e6b95faa92;
0x2b6fd7bc3a3b595c206c43daac752b765a12255c37ab51ae183933737a8b8099;
0x63db3a46c3e1e822357db637c8910722b22e531454a1da26f2768f59a8457bf;
0x82793e5ecd44bfe57289068ca1bd6dcb1a9dac086bfec2ce99aba4d04c46b2f;
0xb5214e4d1f2227947a3aa13e7b57a4d85dd94df40e39dbace02df0e7c0eec0f;
0x15fde89fae0bd5593e8f2bea040a6f837a7bfd5c5e13b04514c39eb1ae15624d;
0x27e7e6eea879199109f7a165585ffcb5da626a4d0c39b2681fc7b55402510f1d;
0x82b46075b3da1e178cd6367971caf87a3676229dbc745e031b45136618255db;
0x176668330b14e97d4f77547f3b9f430b7fdcfb1bfccd46fa70839bae63df4872;
0x10104450f5b03a0638bddb9c1d9db41998094de2cd8a8cf7d3f04143122e5a9e;
0x18c84287abb1d81afb7c16b5380aad2edf054867661c07e44b252ed26cc7b68e;
0x4d7f1edeed756ae0598fe4b0ff7edc488b75f0376b1923fdc417fe7df3bae7b;
0x16b3bcf2e5fe28543072f71ef9d83e31887dc632c0c86b4389ee730449207658;
0x2f29c8f376d462946533c1f349391834f2ec826c08eab0eee6a263f759a43797;
0x20d394abb3b23967e223f5b9f0a556ce582128c8ac5193f66f8c959a1efc3344;
0xb207d38d762517ba978fd184ccf152ba1c46333dbd979194b9ff06b27a792a6;
0xfadffe100a5861695b7059f6ad8e0d5426ffe92c2bff0d81825b72f6da517b0;
0x279aebdde647b4118234d886bd169f051ed193b0edcf46f54a8aca2f4d3cdb4c;
0x119f36daffe8b2be75f4e64c32fc2ecd118f319409499fa007819ce95ca2df6e;
0x1242a6c181fe90f95fd6bdb02918b14c7bcef634ee3d02e30bad0caa161b1bb0;
0x13b4546c3da77fdc8779f6ab0d770bcd3cd72d927c72c69fc1dd01de9ead8dc3;
0x888fd59a93f104c423ecc2271c5926305abadf9f458f70ebbbe28a6fc401f71;
0x25a8ff35f85072e4f8ac148e53991882409a73be3156a865cd00ce4f9fd05e39;
0x11ebf2fa3b30212183347f0fe5632e3ac31f93a68a3b8ffb47960b505601a7dd;
0x24e547cf052f879aed9d43e772fbe7809c500603eaf4ee69e41df75d2cdd213a;
0xfc85a22c05e5ea21235ff75ce1128c7bdadfd9fcdf18f1bcb66e5eeb76125e6;
0x2a9f2576a85c827399655ee856b94ee757335582e476846106dbccc7028bf19f;
0x13a5b0372ba5ed8b2718e46b25d797b56a6cb0a2f03c621e8969b371a5d1f2dd;
0x2cf328cd5a7f16316989013b1db59f8e8c148cea1a09bbcbefc464ec3577f253;
0x2c6f8ae3d08a528068b4ff4da059a1a0dc88e311f87a1a9c5ba99738369762f2;
0x2108fe376f8ae97694e36f575eaa0aa0dae306505c70d5a0575f5697daddf530;
0x23a2991e713b01022cbb8d2d3b81cc5b71117d663e3be0f7153757231ad22cb9;
0x2b6fd7bc3a3b595c206c43daac752b765a12255c37ab51ae183933737a8b8099;
0x1e9d125fb7c35dfc0064d4351a05731b95b37e5ebee77e1ca055ea754902c75c;
0x119d649d362c0f09efab4076c479c9833ccbc80a2f0da6c362d653ecab381599;
0xb682593d09250dc35e376127d33a34d30ea21f79f3f112066618f947872c35a;
0x16670c641709033c5f1bb409f530b7799d280e7c9025defdbba706d9e1371733;
0x16013d4393fb316871311a22728aa5de989bcd030f2a54ff08fbc7317375e8da;
0x2a7d4518b4393070d22a8d824b75d8a474fef8ee3eae40cacc38d40cb525937a;
0xa2af4ab955f7dc6d09a9c72bbff55d30ca01013651b387523782487fd6bfdb4;
0x4fcc21d258b270458eb662ec8b16deae2c8039d68ccab74e19b4573ae413940;
0xb5547d0028fa903aa9a2cf2eb9ba2d303bfff9ceb1d4070f87cb2821cf684c0;
0x4eb04b4aa22c6ab9e0cd8c331a04aeb1546b58540f460621f2696f453c0e0e3;
0x27757b5fad20eb99a306317b872275532a31ae4ac34dcbf20e80843f2511af23;
0x23c5cd44bdc3e761827ccfffcf09d470a55aba69e7ad0fc83fd2eb7bfff41e67;
0x21bb1a37cc6a1ca1d65febe7d1868754bf85d082215397b8985df2fa8c47c25c;
0x2050602a2f6da4117d3257061d22608527508e58e8a578d00f2c3685f601846c;
0x2a896c598d40d992207040a5f1629dc61549fbb0dba65e33a8cae98ad46afc16;
0xb2f10b968c76b4a1c338057e1c67985cc3f571380db66b1c38ff9f6d630e34a;
0x7a1e6e9dd512b10eb0817b56839e3bb85b736442b50f32e18f07a5ebdf3c191;
0xc0a72a48434504036597a74ce362796f9021d0dc8d318ef086225a55ca1a9f1;
0x28e3e34de5c1de1c85186e7d604e5e4a24ad603b676abbe3674a0ed2d802be72;
0xa6d55bc7826b1e2b03850d677928f501bf4c6398104c009eccbc2b2fc5cbf17;
0x2c042a68d06b5f7110513182d5c54efd6ab0dbbdce57f1eeb5ab12cac26322a4;
0x18cbfbb6607f28f928f1fa2ef21ce8be9d4719a8d7c33a7fd1279b6722f151a3;
0x2d7e6e039f81c66f329b2dc40ad3b116bb9bf4db88bd3e44be39acb676ab36ec;
0x2ba3cf36a0580465928db18f630e47aaef388d04aea7f10ac3c600df5d2108cd;
0x2403116000d75fb1a8bf3d0a18ab068fccc0c149c46a935d91678c45fc948b2b;
0x62b5c358a18921954449fd14b3a2dcf3f2974710e9616b9805f715d7a9f9e50;
0x14307431f749d428d15fa3fc56a517c677c22e0a80bfd0fa2bfa3f35f323e156;
0x2c04854c96aaceae379bc0f7474cd235436186a5f9f01f4d059e0fc83037a57;
0x1ba6107ff34a8cb1ec3b4536325f2845a05b0c4b8da6dc5c0e0327419880b484;
0x1e7b9fcdcabb49b7aadb17219fb4a0bf4da78d4dcdbb6d1437e7fa56e13ff4fe;
0x2b6fd7bc3a3b595c206c43daac752b765a12255c37ab51ae183933737a8b8099;
0x26968495cbd99f547d94c82d24b714e3cfea387ae1112be450ef48a93752ac5f;
0x1ddd4f2ebf1e1ee5b8b6715e69df13d58c524c6b0bd5120777b78e26a054b978;
0x1771396e072f342e14fa40e37a4f9e45a385b5badab8a10b8bae6bc325392c75;
0x1334b3e12b51d4e658735203dfe259c022ddc5deac72bfc942bd8970c7d3f31e;
0x2e7aef8fc027f0f4ed42c4ac674ff86a2314b9a88094a214325ae5f7611d3f5d;
0x2f66d8f2e4c63ceff37adcb96812010dec93be84a18b260a659909f18ad00789;
0x1cc80a4e8114c2086b90d7c7f0f33007d33b613444a63823b465939af409705e;
0x4eee4396019744ef67fd43fa3739511a2370f23f80e2b5ebc5c5a1c9655135c;
0x28ba26ef284bc535f288779980dfc0da8530588823a2f83a3d5edb7a5a25afb9;
0x2fd84d8520146a01398ac84f33cfb557ac2850195fee0c5b28d2ee1d629b4d9b;
0xd831e57b1adcb20c227a1adf2a6ab52a0a1cf4104e493c327cbea8897cbffdf;
0x186b1b6b8ac98a038ece2b61971b0c83f28f32e097e28cdcdfb07aa8e685030c;
0x7630c5932b486e74bfccc6d06d6ca99e499c8913a3a1a2ace3f6546696d9975;
0x2ea3fc0c165f38d9aa02eec6a46e19a5854a0bb2584c2d35354e1c814babb896;
0x1c62f3196e53f51fcda6620317b4d088d2132531a7367c8e5793bfdd5dc07395;
0x1f352e27dd80d315a273a3ee1a159f18875744c5169bfdfa5ed6a29113caab02;
0x193d8985e3f9126daaa4ecb2b4fec04425eafd71dafc86ff521d81fcf62cdcce;
0x2271c906b9605c4dd48e925fa831f1267939342ec2a6f2d68dddb62a5241bb94;
0x32817d35a0d57fe0fd10584116d3b5c48ddfd6ebe990e91ff469b1e679b7df6;
0x164540210c18239fd0e4301e0e729018a7f419f438fcf829294179bb2c076221;
0x2de749d2d5c5c9db3652813190e49ecd8ad1d3b3ae308c3c9efb6e98822e8dea;
0x2a562decd5b704192adf41195234f4e1bd8d9d58b4cc48cf57a2ec9dee7ee410;
0xdd5762ff7a8f652831aa96e9c74370e71b2e0fa1ddd1db85427bd2e79f84724;
0x260f24c836dc07efdae65db907fd8390b38f5341faed0fc553cc7c0ad7fa549a;
0x1a9d4050de78961851fd12689cc0f93fdf5278e1430d7295cf620713b01f2901;
0x27d255a40de38041587f907cc4d84a8ab1a5ca07f6abf6d5342248c0df6dc441;
0x2187634627013d30fff1a44ecd3d5a018c06352be5d480bd3146898cc004385a;
0x2e0eed49a09486c41002557ade478e57b8ec175f9ca36fd481536189766291d;
0x1abacf3780a60d304e373bd2f40ff6112b068c0c5d5966a3327c386e480c9181;
0x2839a53cd148fc18db287c3ac9cbefa3a479e414095fe667b74151d2b78c6342;
0x2b6fd7bc3a3b595c206c43daac752b765a12255c37ab51ae183933737a8b8099;
0x121ab2b6ab8e2c5ecf89dfc2bda8337d7f52d76cf7a2e444859fa1b714be8f01;
0x23a405c7644f6a9b7106d4ebc99b0f2c6c5543352d391d31a2965478230f2c13;
0x3de1ccb8e26e8dbfaf06a08bf5189bb38e8e5cf181d154fbb0c4afed03d551;
0xd594c3a1903abb67bede24f66447fa6cc8f8696ddbdd54830a32ef205495e43;
0x2d13cfd974b0624734fe4a5127b23dae16f69033c9b1b0d7a8ffcbb55158737;
0x4ad4148506cf6e6d9795ef784c6c1875e322ab0cc3b6380311b19f9441d8f82;
0x5bba1c4d35ea9bdb593e19848c3510f2450abcd24bc392456d97a6e4f18e49e;
0x9236c366e97d741479d565c45311478a3c918e62d52d12c5f54b7366c5bf57d;
0x2a5630fe33c0d5616c41d0953c305e67503306f2ab6942e472ee89cf34e4403f;
0x2458e51f0164821f0ed092a42b94fedaf0d801a9e7baef3ada586ce5e8cd3c64;
0xa3218660ff4767aca5b77aaa3060a4e1fc8f5fcc0fcd6813c9892deefd7e96e;
0x10c628fb41830cad0df1d4045657412e0833451d9f6fb341987afcbb98cac300;
0x365b8f2fc30b7f0e91046966b67e804b88f2e1eb7ec6c132456467e05d179a3;
0xbde78ed9fb95b8dabde79d55c92e119f0ca502be0ed08a0dc381f89ad85cde1;
0x1e98a3f1c8e8f9a35eeac2782615c96e12950e627ba89a9ac0b873797d30107f;
0xc0308caff3a47cc92f51163e05a00bea0517f621a4d69cb9e680c79577542a7;
0xbb209639cdeae029ede39f912e33007334877c0004842f75035a7ee26a5e4d5;
0x13ffc065d98f8ba997a11cab00fea19d1efe62e20f1bd7103de4858e210b011d;
0x24ce589a99dd7149b8a0a25f95e766a44b081e5d475d17b7cec54daa028418e0;
0x2ab971f8aa28d7fb11b7cedc6d85bfb947bd64690e6d6cc0fd9cede6ccfc1e10;
0x1b2e15dd9e25ad8b2506ff8f0286f34d26254d2b4732cab5dbb713d2203ac283;
0x1f1c3559f788fed19f86c71628547cd1d5092b0d30b4be4ea634b744923cea21;
0x1c83b3ff9fa324bc9a5316f0a85a8657123a493a9b0220006ba1100a393919a0;
0x28958a5831727ed80010116885dc7c66a1c245f6fcab56362c986ac87caee035;
0x282c38627758b1648078b241bbe3557375aed2e83f18278ca6c962963297a142;
0xddeead8fcccedced8e4d4376a2bc530466bef45054731d5243454ff4acd04c1;
0xbdb032ee13a67d9c75df4c44570244e4f78e19a039b30f9f12c532e9b0ad601;
0x651ba2f04803d5f77235caf50305de5e55431a6abfac178f524a5a01fb4f1b3;
0x6541fd461b311dfcdc647b2c33e272d9a3733b5ff38c7e0a2cf51a65e22c19;
0x32293b2b6e94545d3606b723f7a3149ff5d997ff1e8097359e0e0eb2444fab4;
0x2b6fd7bc3a3b595c206c43daac752b765a12255c37ab51ae183933737a8b8099;
0x1e47d96559f3d9eb6bd2fafe210c31f4a8140b853eab986dc12ee2527613016d;
0x1aaa3fbb3f33fb63d4504fb8ea859f4156ee20b59e198b531546e6891a2497d4;
0x65c97f1a22d2c6561ed6b3e8bb68fbc299fa56e40bbb54d49e02ec33ad6d913;
0x2ccf556ae01de7dbe15ba504437271b8a33651d5249fc5282b8cd38fd23ef378;
0xab4b8237c68daded18da81c5a6bfb657b4d879d4164db2b2e6ee4b854f34933;
0x2c3329b267d11041b788317f56c3fb8a685b69c0f782ab2213d393befc80f0b;
0x22f60f1fbc046baeefcae40d2b7843cd95c8dff7d49e0e18851f7fdacf3a4eb4;
0x1d22dc88706281f80405f66fb60fbe665639969df32efc6e47d33635da644922;
0x1aaf58dbdd1a14018d33f48de1b98e6f7a937d81ae46aa5313e9a6ad886e7f60;
0x6f13d3dd83b99f56b8d840e73d3c695efa8ca7a38a891c9df57fb945b8507de;
0x2d7c3ec573e9cc8350964a20d0a2ec03d2e948a3f8eaab6d520406808d80576b;
0x293a2e55abaf167cedd278dc3d355975bc1f29dc3354310f21f9ce01574b0d23;
0x2682132e373c18a17f78601edeea4f8772240bfb889b3db93b2e8ea10b2270e1;
0x301508db6c1f9710285b1e6e44d46a133310c29c28426d90417d7c21e4f0b20d;
0x1834c2d44e5774a7e63ba311a3896fa595c04c96df216e3f04ed409c2de9b112;
0x76c49e633f12eb93ba03d627acf0c95d1d623b6cb42f773f3a20e02f23120af;
0xfea2b1df3510f6e74dc89be1a061ec7f8255cff0eecea778e1cca99becab586;
0x19c3a8e23b946d64526696670270f49298ee4eee4402888bf2ad3ced11f7ad53;
0x86cbbeae69e83af8d6af50cd4f161f345017a925318acc46be5cca969697042;
0x1a8a851cf400ea4e9b7a51f0bcd5b636e7894d05f3e0faedeba662bf80e901cf;
0x1fb9f1ed4cfe567b8183fb0f9f5edd26e8af56bbae47cfb6fb6a2c5323303797;
0xfd5bdd425e00b499e57e34f19cfae9bf0396e405fcd9b4df234a73d15f96f03;
0x2dd4591301dce89c25a6b690ce98e4cb6c5603505055f6c84e9fb8980cdd3025;
0x11cbe00cf364a4bfa71c70b6a4b180724765a2a4cc0f31035e44cea45c1719b;
0x1919aba9eae5d5cbd57d3851ee4011af47be08e151339d0fe9b32602d1fbb827;
0x6dc27862b0c4f31489bd8c0c6e2a9d8e1c8d52284f4f381b88f6ca94495f798;
0x1911c33355ced9c551e5aadd528bde012e913b283a67667f4f269675ada590a0;
0x2facca82fdc63330a3628ec9435d193a47caea8fd2de6617d601bbad8adb0faa;
0x168bb7d0c7b38df856af9831f4b1da200df248edab92ab41e638e6800c57252e;
0x33864c3cc0a4cc3fc23c51ba07bd1f797a55394f4e0c39ca4dec1dfd6473aec;
0x2b6fd7bc3a3b595c206c43daac752b765a12255c37ab51ae183933737a8b8099;
0xc732637dd53a9e2035cb048fb5ac32b68613e0cd12f68a8b8d07fabc738cbc2;
0x2b44e82a5cbaec37e208762b75b37d4ad4bbc4d83192241a4acb22383f26dd06;
0xcf7e6a8815f6122fceeb778851d85155384796be9a1df53639f5d81631a2555;
0x976401c8c12d415f389d4bb64621b71f225619dd93897525be9e8134ab912a4;
0x1a23f2aa5a0ca939496eeceea3d7a9e386f641a248fb689682a8616ea98202d3;
0x1295f50377875eea2b8757bd93e3543b59a727da7874e646cc3ef523ffcb79fd;
0x1f4a65f81b3fe858fee5fe292da8d2594efc08a385f89dc60be97c9c7cbd0032;
0x12e6d92557037dc2fc85c17c4148e9018fca489e90ea096ea7f400c74297a2f7;
0x2f1e3906e4a5b87c714556abde45934dad466c1044609b2c865e5a835667b38;
0x102c4d0a2eb569486e7c6c7893f6491c03626259388fc7d55b519a55e377a921;
0x2c427c75876fd20b334a45663dc28359937368097c46f7b685eb6e3fbda1a6bb;
0x12f1968b1e77f14f0f2e90f5fa44799cf2d5cbb3b77558d1493667db2ae55267;
0xb8730598feb9ee21584d55d5447d8bb6540b84e40c7d4f14b6062ec02ae00c6;
0x2e13857a53b9dd57a62a790b221ecd3d8ac27dd7ddf4f10ec48e680f1a17041b;
0x86f9752b777f6b6260f53770c94056c12f444af68c40c75bf7396dc1ca7ebd5;
0x144d5e3d11651e180a16152b3106f937942d48ee746f217a89db2e410f06e08f;
0x27956794096d302fe3cec23f3cd713e1e4c7ebf7a9599ac1b3734cc032811a03;
0x2464182f248bc3f32e7d5650870a79c371dd8fc8d67034dcfca621a1f1bc596b;
0xa75f1c2e431c46447da58c4b53b5a707030003dd525a6746963b144c9a51803;
0x441eb396ba8329b88880db7d7b29b57e7165262b02108544170278e444e11e4;
0x1c271f16943c48bb48f4e2d178b77e4c31f22355466d641974957a5804e78765;
0x209c46dbafa81cd4c62071ab840fa1f138a8289e87150177ce20c6f9942dff38;
0x3002dc8c48624cf7f6e207ed3dc4656f6c6fd56f260c96c9362714d4cd667726;
0xfcb2bd431b6f99702c0f6b220885e57f93fadf7a8d3a365aeafa0ceb1fb7447;
0x2a74154c3f7dc063f12decedcee953b7e7d3d71dc48f867f72c8a75b5dc7ef62;
0x129ef0b882070816acf093a88c660245a4e58261b307457eb99fd6c697f0ed7f;
0x24f76ebf17e1a43056e1e4767cf4aff954b2f9fde49f05fda6c18ee7d2909471;
0x1d099f0d638efa534bd9c758f9856a7943eff18350feb2d90dd7bffc48e80c16;
0x2c9f441f31d9aea42026c0e7cd8765aed321ad391f4c869d87118b7a1107e94b;
0x7af13e241cfaaec4578b52b9315b5017dad324fd69bf1a6a6aa79ce75b044ad;
0x2b6fd7bc3a3b595c206c43daac752b765a12255c37ab51ae183933737a8b8099;
0x255345cb88354e31d381742d0d5b42072662445df9b98a247d617c92f27cd9f1;
0x17e5c7c425cad2fb89e6acb07a2cea4bd5b1cb02fc04fe38dbdb341be1cf7d89;
0x146fa4eb974c8faa9f821f63aca3727479d548d9f663f6934c1f458af3999ad;
0x727942876c6eda2c90f98458ef4f4d6ed010e0562236f1febfaa72bd11a5fff;
0x1bc84a56570ec875efdf985272b5df66c86cfe58a5be052d91787a8e3f8d49a;
0x1053ebe1413b33bc188e06fe047235dd3028615fed58dbd6c1d014980ed7777f;
0x20b12ab6f4bfecc04ee5c75f4108f2d842f004e84437e9093b15542dc26803cd;
0x1ec0cef9e5ffc3472ebeaec671ad6ccd1fc85e2fa7c5e02e619053976eae5d56;
0x2a42e9eca9fcaefc84ca320b72a0415eece1512b0afed7bcf4938985727b633f;
0x1a172b2e81e2559ff3ab9b31a103e77c71b2e617bf7064f7a910803ef7cc9f9a;
0x2f2cb2dcec93e9d768a5e77302b98fe0c291467a8bf3922e270123e45f06bc56;
0x73e947e3b071d91accefd64d9242ecf3516181b583e27222d05ac64e57e61ca;
0x201e11dd656c3292b05c202ea3916c78752b9a796fb97bfdb2fe67a935b761ec;
0x12ba1b074f8b55da42206d4637431163a1aa6c0891681fd604ee17a7b4a4d054;
0x1caf77967696809dd4e470183d00c935860fe2758b85ee6c6b8212eab0bad880;
0x2e2c8e680ddec801ea189dd679d2e16c364bf28a69d7b79cb81842ee2469b8a1;
0x29fa1929e7f6864a6c4856e9cb2dbf44d4c77cca135cee9eae611cb42d1e950;
0xfa23e57bcdb977f185df4258bc1ac55957909e6613086a44a6581cd275a7160;
0x2bd1a5ba49a19dd33ecc36aad236b0e0b4a03942f42a62fe825750889d4a1524;
0x160ac4ad5eec95bc5910faceeb460088ab7d25fa15cb698e9ed17e1612fe2bfc;
0x4c78cf3e48577cedb8cb5245a9607cdc9254ca8a8704f78d18db58f2552b2e3;
0x1e9ef315dfdc99112d0e410fd65fccc9c7ac728617537da3e977d7afde414c61;
0x2b4421616df11dfe94cd2b5500891f07eaf2900bdd8ee8eb42b0175be52be74f;
0x8a13f8dbc82ec943c8ecaae0690bd0a4bd51a9762d670c8d059038d4259744d;
0x14167eea5c641fb122863698bbf6897cbcd778d289c28685417d02e86db36ca0;
0x1b2d84e924984926c742b426b7ccc5841c4bd193d3e05bbd5c5ed5868991741b;
0xa14c4040634221a68633cf4f4622251ca34e42c9ae254eb7d02a7eaf1abc3d;
0x1aae6b2f56d3acc7ed2fa5f310a29d4e54bdb4e5f531f68c59ca5b430e1f3f81;
0x1c6bef1a7a903d4fd215a1754ad8f30011e676e498a3812d4f15d0a8422b35d4;
0x260d34eb550364a018d509e831a281cb5b187033ecb4814ef42f240a5c1ea119;
0x2b6fd7bc3a3b595c206c43daac752b765a12255c37ab51ae183933737a8b8099;
0x29455194183fea94109c945206f2c16429d01c0a34919ffcf42ac314a969ba28;
0x11f4f3b6a1a747fc1aa22c66926e6511a4cbf6269f30c62f36f54b580f891a86;
0x2df1cbfe1e9ff79c44eac7909de01dbee45e899e3500bcce8269bfca310c5d39;
0x1e3ed2a6dd4ec05059b8dd11063a93d0b6c48226115d09b7e58d6d0f620be4b;
0x235eade019a1ac892102280841960624b179b82bb21f7a571cfbb8f4cae5434b;
0x1063dc692e42acecc27654967d85f8c3b48760c3b269565f3581c30cecaeb6fc;
0x144c087d0bba6b2651508013332ba01ca36cfa926efb37633cc9423e9b257275;
0x8dc44909d34e4fbeded6e5b8802fcb8ac3c31e0c2a966956ecf0cf4c027eabc;
0xdbb16e5b88711eb895a12babfb81dbedf8de29ce530aff091a3a16f9d363468;
0x2bcf5c9c863de574f3fc6dd7e35b84d333faabe43e1d6cd827ad58061476fbce;
0x13cc6568623778319060d01c7e7780d9ddf3e6fdc11dbd6e0d1daf61c0ca5904;
0x17a2edcf8bf40ac243662fdb41e4156e987fc66e00d5077523caf74b970cecc1;
0x193dcdfd2950a934cc3b92c1b9e826a11e6829cdd6bbf699d702c902c9c8bdf0;
0x1f049cb7d14ebd687ac611414b6186ea76938c1d239f8bbf5f83972b778dde5b;
0x4d9595ab4d18bed55ef3c3fd0cd99e829d8e55b8c101df09c2acda3acca9af5;
0x11a10e1656c16d3c53f889073d9f910945506af2e029aacfd7223cd45b457f23;
0x1c84c1b888ff8d6396ee63866219b3e1d7473ade3c14ceed3c1fdfa44b51edff;
0xf5531ef3a85171c99a9927bd9d1cbe04e84dc94c7ac68c06004d99a391ed06a;
0x6ee08fc691f0b4229dc871b3676f380042f6b7ac1e5344149cd7d64cc9ab46;
0x237628e422a57b51577905847eec949cc0938adcda2e97fc960492898d0c8d4f;
0x4b4e368d0d486b2d4772a9fb808db251fdfaadaabb59a5bcc20c97bfa38ce7b;
0x2a0484d90b9de4de15deca9a4f8795a61a8cea3d5eed0e938bd5c2203fbe45c2;
0x2cfa30139fcfe50e07673bfc8029dfd08f511118dd4a4bf0a77a7bb3e1e894ae;
0x278fd68bb5971f9d8b52b9e924814f3e07af8931796fc2b5d09605eeeba95c3;
0x24ea4315f2dfe3e361e0ec7213e50dd9b25ff8bd654d83f6d26ca562e2a7ddc9;
0x8612599ae2e4a878ecd88d9194ec5ceedd16b40c51e6edae2cc43f5e94a2534;
0x2003edf69a810b8a3eb8208b455fb3a6e04bfdfa7f6198f2a0475312da1da37c;
0x1ed96d9e0748ab37d6984b7be85b6c4342d341113d255cbaca749da545d34981;
0x24947686594e925c8ce4f919309d5ddd789f62d268e7c6340022fe0d45a8b816;
0xa42b268cf646e69a84152d6323e1eb318392a14827ae3241981f6ef34173e;
0x2b6fd7bc3a3b595c206c43daac752b765a12255c37ab51ae183933737a8b8099;
0x2c16f80293a1d647de56a4a26abf5cb6840e67570999e804d434ba92326b0758;
0x10003b7c47202671bda6e5bd46c2564c634d600e0fb23f898d73a217eb1f7cbd;
0x8f99c641f5a436daeb9e269146b505771e8d18f847cadd3028c959e39e47f77;
0x174ecd880d0e89617db1a52d076801bbddcc8f63c753467e7e4b7284f9c065c6;
0x124823019c96feb400979fbc9e8b3ea028ba45199a99118e5be4885ea25c594e;
0x1476f2bb8bb265ecee769b8092d9687ce6b822ea2d4fc8d9aa75927be24bd03c;
0x19dac45643cf0ec46184ef121ab7e9a1c03707c7aec4620bccc80ae83d4ceab8;
0x14674e4b8eab3fc1f80cf57e344d0fca2081743241898bcad999dd7939cb9b7d;
0x1ed72b8e2da7a2fd16d8accd8eafb4cbb51c59a9d05d221cc608f74b7230358b;
0x1da5ab440f2cdb9bc079ecdeceb673ecd86b906ffc33509225c6364ebdf4f9d6;
0xc751d0ea79515c1ac0584876431dc1ce6226dd8420077d52dcc644638eb389;
0x6a9dda83669129d53d499be9d18471ccc3decdaa7ddb14c4c19981f7937033d;
0x280a6226e729cc5a5fef6b66266003fb72a99a97e1985f9c1b2f3d6e1c5f4696;
0x277ccb7f226a1920bf5ab883e320f05c6edb580037be022f9a699079c9ea1501;
0x207e4c2a1f9d4bfda41396d244cbc313a5a5755ce9cb8780f6a6cf8ff67b090f;
0xab72e9f2261bc7dacdf730b02c9772d67b34b71c154f06480e2576995ab7fbe;
0x26dc9a65057fde68cbf2b518e47e52c3089085c30015d873da81924ee8117970;
0xee4ec60b28b8ae1bde8ab75521531748078f397b9914ed1d600f94f65edb2cb;
0x26f7aaca92a139c5e2a653e9ebb132aaa385aa192ed9e1702b04f2c89d9bb766;
0x2d2f1c2e5326bf8b3439310ed43a8721d8705e6d1c031af9facfb15f4ff8de85;
0x1fd6ab80e45a94d9ee539f3247f22d8fab16026c5d0126cc5570514599c94b22;
0xf94a3d03ba6eb3cbb84ecbf443474976b4b610b2c7e0be7bd18ec026f26833d;
0x9fda6221cf5e2593d796d7185867ab6576bf2f79813f55b6a1ae9a1fcb3437c;
0x26846396de6a8b113b784a7dfb9c63b0b950a69a20e63634954936f520470063;
0x19e400a2ed9606a0a39041bba22cbbeaa8547c89ca0eb006c614b5d6d1b9e0aa;
0xe2a3a5f42587d60aec0abbbf38902fd54d392c4cf26f8359deeca160061a02e;
0x165836d2e5f94bd9868ae471de1b194fb407c3c27a3b322c956f13789d95fa23;
0x2bba296744ead7cb7fa4e64b0d9854814e303a8a685433053ada126285b12dd2;
0x1c42b83e0bf8cd6e2072b5602d85f5161ba6cc9aa752366791cec9eee1228510;
0x2a8345e521ad75f61773023d905bc873ae8754b28c0273063d4970030cf6afd1;
0x2b6fd7bc3a3b595c206c43daac752b765a12255c37ab51ae183933737a8b8099;
0xdc769889e4e60328ced67e231f45e241283d9435602a724dd8d1f8a709ba50b;
0x1002f962d594a9b3a1cf2dfdc940b80a6b67d3fc3148be7c0d11be50e277f1fa;
0x11604b56f285ee9acad757b62e0a8679ec868a468c6715500cb84e72be72c7a6;
0x2cbee753288f68a90a3c4a83783d30862b6e89e21ec3ae112af1b016ee9445ce;
0x2df869ed85aad1cf7a17b58d217df7738c29e7ee5b0d254c1d4976ab71916b6a;
0x52b2ba2fc76a7c40e4eebc062b1c353e2c7af8430a11222e64b8f1c09e57b69;
0x23446fb653ba07d93115d3413ff7c9676f57d1e17a08329c153eb0e89d3e303d;
0x11f1fad8b82ef8c047feb379042297cebe6f2a6d5660e7a993f67fc10e58adff;
0x17af0f2c5f514d29665cde2023d8662f453954101bb66e15ff582604b86147a;
0x11d7ceb7a58360c894abafcafbbb0b08e302ea940d29f5c403971e7a7a014fab;
0x74ad08dcce384bd2df324e56ae0ec65f035aa90479bf25d940ae94f25bcde95;
0xa9e0e2b8db72860fd3308d7982d4c51766d89ccc8939e0087c3fc1e15d53558;
0x10053dd72d3e24c8040482217ea6d61c3e419cbdefe8709bc58951fd2a0711a6;
0xb8feb7949a8116ad1ec2cfe47910318bd5dc9e54ee0caffb08a23e4fa0ea22b;
0x1b3f78f18b178ee8df4bad8cf2fade21d1698ef13f78d3598c44a063fefdda25;
0x15af1e8fd71f0799f8c7dec891c12d89bb687b8f14d0f12b4a52084bd68af74d;
0x147d419b1999d7896f7f2c9ab68937f4e1ddf75ce3615b51e275a33e5fa8fe96;
0x28b7cdada2f2cb2b1ae17064a61f03b36fe64faf9db752b7470da8398a1578e7;
0x2163e931b6d3e6641d34369bb808b3745c1003771dba9dec9bf9d5fe24c43577;
0x1fe3bf03ba1752e0d93486397e28ff2a9350c56abb949f7f6a02575b1436636e;
0x2ec24f69b227550297bee72b056181c91364f54f9cb31e0b14d38fc2ac37f147;
0x98d9ca655e17d9af5fc7933beb8f6b100d78644eeb19c1e7346bbd6077fef4f;
0x2e296e61aafd6d219daefc2b994d52310770830b5767a3c8220c2f5251e4d786;
0x2f6884b2602c50e4cbdfb45ed64863dcb689af3b917fb10dfaf9cfa8307d112c;
0x5e81ed97199a7c32f5844b9e3c48c60dfcae2e703bb19855260479d6556b63;
0x7b3281ec445d3a58654d72a48b86be8a10380910a57602460c91e4efcc812ff;
0x14e55ee2871da3b1e051cb0857adeaefa5e9101d9b5d7623580fa70cdd041385;
0x53f6a1c6bba5a4ce92962a6a23cdf21096b5c1c0652444a52174efaaa6287ac;
0xf55c1add25dc95f9602356a6ad006ec557378a038b09d9f46daf00b359d88e1;
0x302ef214c4c4e78688cfe22c58544d3cb8888bac5512044709e1c56fb3a6a513;
0x2b6fd7bc3a3b595c206c43daac752b765a12255c37ab51ae183933737a8b8099;
0x1e97abc82dd29d2284a66edf1d38115a8cf9d2316c79b2262afc5a43487217a;
0x18c844b544ec0da670ba7fcad86b7e4cc3b790c3269507ce0cf608308e63d5f2;
0x27e894e463d2d999c5bb6c29e9f5573603b4e3f55fa4b1eb315b0664794a8897;
0x1ec3f26b1af76185f0de2d894157ddf696e80aaa3661e94163e9106a9fbddd3e;
0x22978d983a255eae6840d50dcf586263d5a0afd5b8eb552f720cc0affc8cf533;
0x1618d7d7b6d7ba2dafd24690ada4cfa7ec3e961f395b9c7fbf7d76d0dd837125;
0x1df2e4ba9ba44ca6f24877919be6d84c97a6f6cc318c7297d608f1aa4f050848;
0x1fa6c7cfaefb71fe88191e62ec1e69611c76c503ca8c6c2b45e0ae286588cacf;
0x2f00266e50bc17514d27873eb92eee8038696ada6decb01a1138f09aaefb625;
0x24b0ef6c8ddd8d74acd34fd2977a27c6e584febb5cc1ed119e43333934a5efa1;
0x2eba590f514eb52770d140bbb2bfd1909fbb0056559a5bb18fbeb72f9bf1c7e5;
0x1c01664f520b12562f93bb93f40874300703ca11b39eb1e8bae9f21944f0c4a6;
0x158c6e1a418426179c9216cf35095705395180c264802302c2b5bdda75b4a4f6;
0x2609db7fe10c939e0289595aad97807442c4ac5b28205bb6fd6ef7bfcb55adaa;
0x68bca148cf00ddb73bcb32b580db9423292a3d0ca547207c281222c5ac64f05;
0x17bcbd81a901026df975e1a27ca02b7db2b6c7daa5dc0fc9a7d71e4210c16715;
0x2dfab84b8b358320cfd6fe1fdaadd8ee01d4658d701376506800ce70020c680c;
0x120819aae37b3d91fc8c0babac388c536f3f091923ca13587c8fc91d2c27a9c7;
0x12313b69bd606ca46c7008f6f4fccf3ddef09743f311adba1200581089985509;
0x11e9b992c04a4ee4586a62142f37868d6535f948e89ebfc54151c61e1fc4378a;
0x5f557dea69dabf8f49032a07a021b292a4cd73e51dc82f9b8e4d96d82569a53;
0xce2bc653061b09a271f64d5ac546f7b2f3a270910f2505ed186e11b0d4eea44;
0x195b61bc0d16c176128158e7463b3e3ee0df476d31cf641e297c8cb9f5d6368f;
0x1d0df7d7da33f468a43a413dfd4e4e188385c6c87bd767486c4a4a6babcda2cc;
0x13904564817a3bf9e98b1a21f1f360e5830764da4a300f059268111b51b0b761;
0xee010fca95f45250a5ce94a89a91fbd64f2c118e2755127a562ebb00fd27ef5;
0x279d86c488716103a7ec21aaf9d2139f72c7f72a18eabfd581ef619e0c3b20b6;
0x11b803d7d692745f2ba754f16d795a2c51bc5576576c244edb6f80cd790dd8d3;
0x3d093d2500c614852a3802e498bdd965dbb993e8d07397b6ccd9c3832a0907b;
0x16652d5f69932fa04272068446046190f9c83f85e9ccbcd36210c5877778f1b8;
0x2b6fd7bc3a3b595c206c43daac752b765a12255c37ab51ae183933737a8b8099;
0x2959b7c18c774ae5de1749af01c678a88eb32215afbd962a0561d6d198525e79;
0xc26abdc5e7b095a4e2237c872e90bcbee8a10618572ec9aabe2d7b1a377d6a8;
0x17303e79bb1728eecb88e18d8b7db784ea1a70e4eed67e7f9e6deba761b863ec;
0x8f1351b765587773fc254d4e9c6215178b81698a6e1332bdbb16c5626879b92;
0x24587c5be08773ab2fc2250421c4988b332bfc432cd4e283fc86de3882b7898c;
0x972bc46f752662ec72acc9851fb74ef8fa89a03f2ceea01849ea839f9a80d2a;
0x185382531567193bffc137ce0a17f1f087da191bab36af539545a6929b44697c;
0x2f835f068a500a33e6b44b3a492d8f09228c2d660f84558123e6292e93f906b2;
0x159abee658fae6ddaf7329b5f76a81e713dfff71c438f7e678a5b64365285949;
0x2ceaccfe0874e534eb39a86b066ca9b40e25793df513a2e1a8edeee8398489ec;
0x3e5251b721d2cd67a46b4e7bc90015c36a1134a8ec5d25194d5c7c309c0b029;
0x1018c8b0a3de1c528680503ffa391ed74fb1b89e3dc09b140f7625249f061249;
0x2c0015ecad1833f9b004d902644feebfde2a27e50aee9da314e4e7480a1eb9c0;
0x24feb7104d161a328cdf2dc7c125422879578cce893fccf80e5bb265bfbe2e6c;
0x2944d98697f7ddec78e5165cbaee2bbf0cea6359981a13c27bbd17a60709b7c3;
0x1eb6e93cbfd035bc4f79bd6d32e25c05be28216616655908dd394f8e4beb0c17;
0x15274c4215b3498cece507e5a9c78c728a2927ae24b72d580caca25885158c01;
0x244439d87914ea7af64471c047d1afb3ef3e4d3eb41afc5ff4551e34e0b2e03b;
0x7c60d6d98c85efea799c2d359aebd1cf865015712f99f6f5078776b44455899;
0xb4448d85c58321886de5cad02508cb079e475ad06a5691610848e530cfcabdc;
0x2d385f71e742fc3698c688df7df2ac0cd06bf1eda4db74246d5b3ef234d66603;
0xc3c7aa72581cf03932ea40da64bf0454b26ca6c02b25798eaaa3ee0893f1479;
0x2f4091dafd791bb3cf7089c8e714a34bbc2f5fab044416870a1110bd68da326e;
0x9a9203152f7c7a322535f3c2445dca0be8621df8f0c9bc63a8e3654145b2388;
0xc9944612dd0f8e184d07ec5a44ca257d67514ac9ae15e4f5be49b6c0356915a;
0x465c847c7d119bdefe896bf452c77f78e124ee0bb245270d21ed2bd79e11721;
0x1725856f51139de9097ed3842a414f8e8f63ea6b9e6414e5eb220842583af5bb;
0x276c1b109f88cc834ed8c2e68672a592250c6cbfea5f9bddd0834c5563f9a886;
0x2baf5485e19edbc5772e04a26dea28931742966fdf39011b1c16f2832ffbe3d7;
0x2042b1e0d4a962b95c5dbcc044fa0ec53a00e8ad677a6dc39e36b41a016eb036;
0x2b6fd7bc3a3b595c206c43daac752b765a12255c37ab51ae183933737a8b8099;
0x1eb87ed83839103c87434e39c910399447d9c63134d442335fb3e226f84b47b2;
0x80a226b8c5b7ae68105818ce707b2441a0da70860d771bb4d58585ea1a62866;
0x1b038c8d59fa36e1dfd4cca8bff7d38b6161bff01ffaad9e95e3c8591174525b;
0x2ae9c92470f8f4d5ef9b96d9c1c235c46b5ca275d4e08dd1d193abee581d763b;
0x21fb57daf9b4cdf828d74de7723985b3a1b0226d90f563ef1cbc0d9232fe3429;
0x22bfeba5a5a36cd515fa31b9da51ef26a15ad6050bb42853f59ffda0277a99c4;
0x20f3df888830ae894646d1166204af05d9817613c719cda745c09aa141590c02;
0x63b2355acdad1a0032a2f2c7a2ea5f307e3c0321d261c9d7f5fa10934119f28;
0x16de60437f4609882b9eafa6ac6ded955b8225b0985fc4e3983ea640add5028c;
0x2ab849a10d24540498ba4c7ee7afac4ecdb81e0083fb82ef56b91d025e33756;
0x25d60a27489116c12d3fb8af52c877f5691d57ad645946fc4dda53db186e2c50;
0x1b1442dc351aedc7917b1008bbdc4a05d92e4639e7f3af1b7f8c1efc9bbc79c8;
0x2502537d03523d64eacdc4da240a03f6981a89c3f3352ed51b95231d129f6efa;
0x1b786044b15312f04f057fcb32f799f0176237a9e5c70bf309a9860ab90fc724;
0x13aa1eb0dde09e3816e83ef9027b5b12fcb298f469d8523b588d728f6fbcc841;
0x15d72e8723e077bfbcd6fc983a47dc7b580681f0c4c4225c58011bae84f8e1a;
0x1369471512c4227330fa0c25299570db00e2db62554fdaae3159988504703cf4;
0x1b7142089a165fc6d053090f4e2797f7ebd8faf20861604b3ca39ffa78d8fb6;
0x65028c49121ab4bb6dd4b70ceda8065e546521a801b3690d836602df5c07a4e;
0xb0c93a4ca60bd6782440a3ed7ed610e4ae11dbb6d73cbd43bab80e55c0ef062;
0x538fe578ac88710d6dd29a5916aa739c9a9ffcf0f692b1f03d0e890a26a7ae7;
0x2aaf085390a5682425de02d9feca6b1713d016d1682042a9283f70b773eb8388;
0x12d3a3b814c1bbef754dd237698ca763867b464e9a81d9bb031ccc91574878b2;
0x24fb699b2d537bd375a53a4cfca82569a0f7bf3417e1d05c2f0a996c5e85eded;
0x11dff9e9c33f3786c5cceec919601c95a9569a01502843f7d4ea0a7078111ab3;
0x261e407b0cd0b43f5b9e5c229e1372500707db45aca65d3c28421a3583367e4b;
0x2351bf0327b143b2094e336337c156efd6dea461b8c2d23baacb18abdab7454b;
0x1ccff891ab723798b4de646bb5ad6d3e3da5970a79a4f25dee25aee7ddc543d9;
0x476e4b00efa019c97bd3cf545fe7a670aac04ebc418c4937827ca368ed3cbc2;
0xc1e697b8e69d9e6cd15a5b7e2d446038e11a06250f693e21a7ef4d9ee11e53c;
0x2b6fd7bc3a3b595c206c43daac752b765a12255c37ab51ae183933737a8b8099;
0x1a09d2b7e646521dd535d06cb8c4de0a1b42910ea066edc264f59380e26cffe9;
0x17cd99a103a4adc1725b545ef98b3cb45b2bc761caf0eca510891356c0f6b6b;
0x6b9bdeed92c495a84a828dd539be8327529a051131bea1a198bd849018a5a8b;
0x8680012993a07914e68e1df59d14f13f130cb8c1099833fc0d2d2d11fb311d3;
0x247b79afdd0a99fa80e82045bf81474ef05d19174b15ddfb6a5eaee7d98a66a7;
0xeace989a2a643839e86a96e5f8a1e99e868ba1becec4171ed39c7bd2aacffc;
0x1537fa1eb45e0b8dca81475c350eb64701fd14bacb0a2948609c9fa1b9d57fac;
0x9ebc426effe66fcd5bbff51e0aa1f60385dbc0c7feb0d9c6f4fe06384456ea0;
0x18467be5d0a4e54aab055cc7dbc4f876d56097c5eec5b27f9a15264059b0eea7;
0x2dcdc0099307f6a54c05fe4f82494e0611c4909ebe6643697f44ac932f533934;
0x3fb3d6990d8e8da405a112fc11f9caa56723a2f6093e1870a866c21d2f3433b;
0x7903dff1ca5b78cd6e95e1284f7a87002f00a81d612f82842bb2af82fb850ab;
0x1ccb172a7b0f1139bc8118dbba6bda8ef321cbdf153a4db826b08ad2450cb8a4;
0x231cbab35a8a0e9dc999dba368451cb41d7456f2cc0481a14a2a7d72f201663f;
0x1185df89f8a40ac6098d898334d0747a5b3d0285d41e2038e38712cd26081dba;
0x2fa064d281be156cf97dda9141c6ac20d0e19d85474475ee359e109bc25a5670;
0xa2114ecb4bb88293eba241bc0fc4a3b375da6aba30cca76e84810154a093044;
0x2bd5621d46d2dcb41cd8f8a22620ef625d6fcee5d6d507250d157b39e469240b;
0x1584517e545411ec6c849b82e0fe8cfe70cd715c5a657d78fe4dfa92cf690d64;
0x612bd1a5329c91f6c6f6c31809951e143c4b5ecf97e2ff8c6b02463fe29ae6e;
0x26d3d348ee74cbe27e5a4745e738151b3f61fbaac3ca334b1c6f0ee18a763294;
0xd69c097ff13bad16f04826fcbc91eb99221410fdabfb06a04c69daf5d0d46ae;
0x19df85abb6034b86a237f3c2a1849853eea70da522f725111bd78831a70f29b2;
0xb67940a72701ac24d81e056c7ad73e3dfad45f6c1147693e8e56ae8759c75f1;
0x2d067334ff4cab892a24cb40846b591176ac47451dbbcde9cac1de766bfd225e;
0x250e8bf6d939e2294f6723c8b2e001809923b7157ba297cfe107b8220cbfc006;
0x106265f59a713f1de605f071461cc7765c6eb2ce12b7494c021e07b5e0b0a121;
0x268591932728ffa445ab526d9cb60f6a1de6c10e244cff633ba59b9bdb957e04;
0x28a264cf3eeeb2d81d4c1532e63e34496b3500da9e62fc9e8070bd5967c5b9f5;
0x2e289ec9d9fb747c577898f2104373a49adc00a51974b8fb1c63793f22414f2d;
0x2b6fd7bc3a3b595c206c43daac752b765a12255c37ab51ae183933737a8b8099;
0x292cdc4fac941966f3f2fdcd0b64ced5ebf1766246e1cac45abc40423575d9c0;
0x8f9166b886a64e24bd5cb9f5327942cd66aefe8904bab3ea68f1c93da72ff30;
0x1d9346b55cfdbce62471674a48c93173f222039ca540946df8cad8f1adc4abbc;
0x284445af50c975330a1d48657b764cf7b19c8b5d8cfd72bd8cd1aed812458804;
0xe5caefd895dbae4ac6d9a50ba9da1fccf2e99182801e50def13f656cc52e823;
0x2c549e8a4cd3cb9c925dcf4af0af39cc5d419957e85a1734fbe0cd495b4e6239;
0x2f691c2890ed7ae20244dd12ee9fac94cbcacea42bbd323484146b83beef3964;
0x189c18874e9397abc281643bfa747739e2ab4f51c2ce1c64d8e0f6e0f65f065;
0x2eb6705a02c7da98061b74e10ca594d9fa85f2e8a76991313d2720268f65223d;
0xb8c7b073c91922a0a25ac24de7c5781f5b95c1d29676b097409380c6e4f0d2a;
0x2b254c1c989381315f1b091c685873377c05d1d40e3d20d41f56506756ce5ce3;
0x1f9e68c2a44b9a206a5d1c428c27604031de91570926a23190329781dda14dec;
0x107e82331d1a1db3aa814c0e3854ceef0db0270c842945e09b352cc69e959fdb;
0x17fcb1867c52d50eff04a137a183d3f0dae94b5656c8818b4fe024b7a343dfda;
0x263f802111aadcc99cc129d051f90acde70278801f4dcb1781b744c208b6aa52;
0x27ecf8ec238d8089ba1393e8bacc856c9b4bb554dfa37c89a6d6bcb0a5954c9;
0x2aac3bfa20e64a0c0012512611b5460908616ec7282197ab7345172daf70f421;
0xf822bf90a6d6c7e046af505fa63c58152f880dba55cefc639313d104a99435;
0x1d482f74f7352cc3b1e07f0c4e0ca4685417ff468574b7694f6ff7e9b438323b;
0x9efb3fd5f2af95e1269ca6e40bfdecad8ed10297b2261e7a27cfa076bda8348;
0xd70b85544585d7520bc48048e716d4bacc8a357c3efd735e10376c3a68e58f7;
0x2a96c2d2c57ff7ff8a1fee90d4f30a427c4ee5faad1bc0c7640dd2628d7be337;
0x467014fd75c87da4bc08542150237dc948da566956c03a7734f8aa3d4ce2a0b;
0xb26d2f933b0b528867e896f30e7045af1f496d73a13e58fa1456f4aae1a911c;
0x25d68e5bef9420f64c42a4d44aee71b216ad9054d968dab70bc5eff77556c9f;
0x177f027b0cab57291463ca56e3be569fd5579d89ebf5fd528742f123718a79f;
0x2c5132a44be83d88879ea114016e67092bd966a9ba0364ba501fc05b63887493;
0x14bf8d2e43f7d1338bd93c4350007077fa9ec02ec8e64e03950d17efa18711a8;
0x309414aa73703addc97561bbcecee45d25f19b4591dc6d772fcfe0801a85f30;
0x40ea41587d4a40b935571880dcadf45e722e4273f0f2b32dda53e53e70a7a87;
0x2b6fd7bc3a3b595c206c43daac752b765a12255c37ab51ae183933737a8b8099;
0x10b0d37ca26e90c6c139a01ff17861c46ebfb646f348fa543a44fa933dc6c7ef;
0x175da5183f974e9606eb7d7e22cd12ae8e27dbecb9bd3c4c12b3f6ee0f7518f0;
0xed8273a2cea837930a2c09a3f7b24188cf44b7d3b2fe41b13e03bcf26b925c9;
0x1217c887532e425c1502f9fa496dc792acbce0cc79c661b16e4c35009e7d84a6;
0x1903752f1c798c095c24ee714d1b8124a4b4b14d2ee2ff49ff7169ddbcd5b4b1;
0x2803547df88fabd669511738ffb17cff8919c233c053e2b10d01bb398629deaf;
0x4ee5ecf2b925246a34bfeaafc9239f9a5f7277fb1e39131900b432baada6dfd;
0x4c37b33555c362050a25021d96f000d1a1dbc15c9965b2536bc4ef59b52fe8f;
0x1a68530699df479a39fd71d5699898f91c440b61d7138d4c95a353ec2a60f0a4;
0x62492de9362ceef05e663b2e14cfc1065415c4dabdca0d4b49b602228ab9aea;
0xfb5d4b500ecd21e402496acd0c39a0ce6aa93741dd846628387324004b15dc7;
0x1747b55b705c98dbe7c38903fca5260a313fb1ae77984671f6c2fd594bfddafd;
0x2d5a953c65e21d277459d6ac17330055536bc85c49205e6e75cda3a58faf9b2c;
0x12246b22f19de420b776858c17df7b57d3dcb9dc48a34167b9b92a429fd7a403;
0x1133d3224669f992858632b54a9a2f3cae9a86979684bca621d21fb8a7a84dee;
0x42c7ff4112c72f96e2a90a37d0b9755a935d43ada317de49047e45bace9214f;
0x20948256d2882d787bd97ceb71a8f9413ca287382dead6b80ec8511a0f820a94;
0x1a3624b0bd43a88ac7c7de460e246ca48ff71a5a23098ce0a713ed4cd3b42b7b;
0x1df0dccc539de543bb1cc2f5a0747c1a1d39398b7e5d2542ad7df388cb9a2c1b;
0x21dfd5ed89c255e1c584093f98d854f81cfc58f92674fe0fe8dfca8d7c1c70a;
0x2161ac36dd50d34ad7ff8e2af49bbe1088d3318678e3a8d8e0e0b3f430d55d2a;
0x1ed3cc39023610359593bf3e49a58dfbe99ee1afb33acb553bf08012aeac1747;
0x24c8d8944de112708df57b28fd012d576868d998ed87276f7192f8fe82044fbc;
0x183fb7baba3d12e905bb7184ef691982c1dd489844c06e9f7a048793c46a3b9e;
0x67c083da1428ce521951ba41ccef834d99cb41e8b92a4c4cc7ce8dde2de4adc;
0x1a18a9c1c45e95a541ac8dfb96cf2bcb5f93ceedd0135bde9344813b3b5762aa;
0xddf7ac0878db5f4f384ed02d5fc90adf7215e4c3bc57d37f4c27ce4379db9a4;
0x2adab562b4f7991948d9cebbe53a821fa08c96b9100b17a92d2ade4032f490c5;
0x1f36cd6e66832646861d1a44378f81777cee66ee7b66ffa4466e9f9827d3efad;
0x16c514bc623520a3c63d724ff9f8e2128de3a4e93ec26cd60596d2b74cf90df3;
0x2b6fd7bc3a3b595c206c43daac752b765a12255c37ab51ae183933737a8b8099;
0x276235e6cd6b4ad073433414a39f872c42ae47d5caff6a0fd2b11db226627d13;
0x288fc36fe0e39bf7f8deb74d5edcc5d6ac0b0e13f715a911a696212c8244cf30;
0x1f6e77bcaf2e10160d53e81aa4bd1fb9620841cd7cdcf5626cd1347714f1790f;
0x2c50c513ccdbe60dd9d14262db601d085beb529f9f9809e734b12cee63ad60b2;
0x1048a932b87cf43cf61b9fe7d5e7824a9c0be2d3d8a6927819a1dbce4de7594b;
0x258802f01620793e2b886ba9978721882e6ede295ab05ad492dfcb56055677d4;
0x1fdefe23f71f9c4e4b5a27bb8c5ef9e97f8a272361f8e6ba93334d5292ab1c4f;
0x1f46592f6d4c77467466a48358c5c195e12db247070f684bb30caf332e050b15;
0x1a0628c0617ed94340450e8b212d19bb6d80e0c336a0c73ebd489718d0245512;
0x362fec7e50a9ebf5cbc1bbd06320a44839f3e1a24c6dcec2cea98dc2ed8958a;
0x1434da4216548b811c240f289b634c70bd0217c2c78d3515981a08f0b4228a56;
0x2a5a298ee338866a51ab733cd5d912aefca609abb924c3b91334ff31968db1a8;
0x2fe35de4f8239cb701957994cb678fa76b45ac2ca62d155abc6bd0063d8477f8;
0xe81871313b59264be15b4d24465ccdfa520f1aae5e34762e48814c151eae20f;
0x1dccfa84663bd168fead0d648a7024cc7f45de299a1552c65c9aee69800a21d;
0xddcb95ed4ccd6154052d0399bbb3eed354d1348a26e7e3e3b767f888b7fc1c1;
0xbdb5ed04d13305bc7abdc9a1f72a3cd3c325a8d5d0b37b3f6bc32f5bf2bc30e;
0x1a3791a5d480f586e225f6a3419d92bc7c93d3c2c941e201aba2db0db9f15d73;
0xab254daa5ccaa47e3ea7ddf885a32e8192d280ff8b96254036f22562e3280af;
0x10d084b180585ee9000d1537f77b4d6d3befba3b2585edb286f9e382257acbd2;
0xe99d44a8d7b3633a48109e8437a866139b546ddc3a43911413edf9c0abed951;
0x1abb36484f304e28d2b406edd5d4232f52246a2642bb87e5e8049639a5a7e48e;
0x1f24c896eadcd0d5f6b1067845c87cae3897a454e6093fc062b6e9fa9dc327db;
0x1f8c613272cb2e0085c3de18d2c0063422bd3a3f7b34ebd39462a54f96690dd9;
0x3f8600811917a21e6893b3147b75a987a7ad447437ad24fa472b3016129f86a;
0x21268f597b84752db51be08a3a6a2a8b1b2284d8b0442b549ee5aaee395c020b;
0x28d3ef83eb355a7d306caba33c70e6e86900ba153ad61f6b8b41ce49daaf52b;
0x25d200e83b7288530086b690322a530ec8b502505f3080a7a46e6e822ac90d2;
0x2a7f6b2aebe3142b2662d473a358fc1bb9d816498b3c2edfff86866e2ac00082;
0x299afa0d0121fc23c6d42fb127eab14f2dd8ecb1ee0c04376b9c732e97a5bb71;
0x2b6fd7bc3a3b595c206c43daac752b765a12255c37ab51ae183933737a8b8099;
0x292e5deb4d74974e5601e05fdd2a01a57ccfce1962e3f12ffc47ecf62cccddd5;
0xb7fe07627b2b86b9e560c5c6058f62a23b9cb416af6d749319a5f0a731e9b99;
0x1be04625c4aae2000e9e13a7959133e86b7888be0de9c4bed8431578d87ddbf6;
0xd6b21b10daf3f589d71fb89c727278c0cce92db0d4b058ddb3b23e379fa5c7b;
0x208f14de82a7cdf5b8f2d2c2d77fe963748847574dc8f168c53b1dc68674daed;
0x261b3202a10a92f8f818f5c9b768d891b3fed3ae03b189e5a743b6a2f631210a;
0x21da24b99fc179077a9f8ecd8f3ec7a3a6d4e8c62c3721f5a3f4a12fed074d91;
0xf821357065851a94b6fc9d8d679679a05ca9ca81839c786603a98d92cd3be72;
0x146cf2ddedf7045102306285a0322a26b9b312d8ae0d5638e122fa42221bd203;
0x1f5595159d4bf74c70466f5a5df27f878727f037c6821bd0b4a16b9a1f9e22e1;
0x2e555ab81d4af50711a229745a65dc974ecbbf16d855767d3ee973f261c6958b;
0x9d88eb8fedc6dfcad4ab68ce84e1bf329725e89adb094aac5a25e36f8fa1248;
0x5becaddb686664747af21bf5a5e4ddcb030a20314b123c58dca055cc8f47200;
0x2b5133b32b578393ff342e4ba0169b60ad72d1082fda97c4b696610dcf06bc50;
0x209f4bb986abb2671c9ac555ce282948dd3ec049e67812e9add90f3d83d62346;
0x2986e1901bec371bcf3f2bfadcc34003a901cf3c6c8fce5a86715bfa70dd05d1;
0x36f213f560cda1028bca7da534b8bcebf84ce7b4b275d873de14b03fbb8ecc;
0x220d1b8cdb11be75d11b27932ab7026a54326b5b340ab065e1e4e35d26398677;
0x1fcd7370575ccadc60429c962fcfd8f4b3ec9614c085d1383a943d7e487c4e37;
0x1c49ea5e5ab4635be0cc07f0d40a8f6bf68622bed5daf5c3aae2a2001d19cce4;
0x2c33a36c54999aaa2e54efe70048654f4d8fa8bf7001a8c92d86cce2077c8f26;
0xe70e72a3a3d2e267a2b6af5dfdd55a25435c6f581a46ff5fd461f08d0e9f7dd;
0x6cc0728f4993107d1ad1cc3c083d7f23847df303de20d92b5ec90ff8785e8d1;
0x14adb5029eecd4e65bc58af84408697c8591fc5f6f74b6cb8335e7766a93ed1b;
0x55d9943e138d24cf72d400134a020e38d4ffab9f52f85610b0e5e678b6ef47f;
0x24659e5fd5b9d42642221039b404c0940c7a560dac0e780c59ef19df7fbb1134;
0xe5d9ffb29775cf1d63fc54110f1e384ff63a353331c2935bc061eb0bcef7bf4;
0x231f3394c59385b1e8bfd5709fd95d00e580cdf3e37f8a940c4213d03e6fc636;
0x1d74d876aa5187f518188bece8d3f4510ad7c73380c362ad8252e6c61c4cbe88;
0x22873eaa2fc0f1d24d83ad4e8c090f276cee48919965304fffe237a5c555a0ce;
0x2b6fd7bc3a3b595c206c43daac752b765a12255c37ab51ae183933737a8b8099;
0x1cfde7b00570ae56d610b0ecf469c6d5417dae9656a9b36a35c5a72dd38f14a4;
0x1a5111cb0a961ae216f5a1d83ac8da38d6910c2f74475efc1d49a8e494d161e5;
0xcb1846e6664d919ddcd95c78357bf2029b750dd3cf02f4731b4975b4cac64f8;
0x2cf7d663f92d7fb9c20dbd49208ff17b66a023c460eef5837a124bd89e3e607c;
0x203ff2de4108ca7567b52a45ca3100b18c3015afbaa01b951010a46fe7b3a2d6;
0x2abcc429149a29c4015959567a3aeb77ec781847dd62ce295a4cc9487f58d2e;
0x172032b322c260b66b56d12d9f27327bb14859be5cc0238dfcb9d1f3a8a7c424;
0xa0e87895274d1193436e943de47d8ee0909c998fa08a714a375656872fc5702;
0x21eee81004b563924c0089d162a2a0b5047ad60910a5931ba25103364967bd41;
0x19271e4f9e7b8a7f54041ca93fa5005d76e5960bc6d3dc132e1de6b2ea072329;
0x42dc1a29bd582fd08c781efc0e67506afacecfb6997ac871b203cbf71df7120;
0x6b8d08b07a1b58558a9dd55596a67cd72960514db555a0c21c6ba29fbe1d563;
0x116c800fc674c2d6909c1e55568650ca2439ce3fc1ac3a81ef5ad8fe2e9ef30;
0x21b9ef80d19679af571fb185e6c0eaa780bbff382e8bb7ed8bbd342c40aeaf04;
0x1aed5bf3d3bf68f2ec32aaf43e0b43e380244f25666254b23a0321a33a6a5840;
0x276ae4e84f3446a707103550805c52c0510cb0c2e253ec32f2fcba255e90ee3b;
0x677e26ecdb28f20a7d565510f73b24c036bb6ee0636010e6bd2654a15ce49aa;
0x144b679dfe4fdf64adcc33da78a377591421c486df1ac1247f8962762eec6353;
0x2b3e47433e01893ba1416ba93aaa4e39de8ee93f6782e1b1f9d709701d26caeb;
0x21007ada7a8cf858670017f02b6f452abbeea2cff05ba63511a32408bf8c55de;
0x99eb11c109ca74fd589d0647392ff6056a100ae0659e60d0c34b9da3f27365d;
0x256f44ae0dcaebe716aa9569b9373053ba6fa022693bd865017a093e029231e8;
0xb43042d175b108a0e9c553cd99a4d288ba1bd0ab4b2cffc049bd63ee949bc2c;
0x2820651d09922281a40505d755c0951dbc15977d8f3ac9c9bae3929044039a19;
0x7c75e7a56b94c4942d893c12b0e8ba3d7ca49e2435fcafe0ec9fdf4520bb9f8;
0x2407140cad6a6c1d58b3e8bb6f083b3d1ec411228763dc4cecef95c56ef9f801;
0x19f6713df3399cc47648b497f80707e11c962f694d9486a1884214d63b1e2423;
0x126880836b31b2ad4d3941a65eeb12015282959888382bbafb662ffcb146cdc9;
0x10f48b8b5d3586007a9da374301e5246ab668094850451f601316f889073b66;
0x2b35da385f9daebfec630113748adcdbec531e80323e00627efaaa55b9b9e977;
0x2b6fd7bc3a3b595c206c43daac752b765a12255c37ab51ae183933737a8b8099;
0x413c2aabbde38d94bf1bba05b680f5fbeb526118e75df7740e03c6497fc2a93;
0x1f5a1a9d111269b8fc9c4bf295f95df0068a17c12544161132d3d06cc6c28e17;
0x212d07b689f77ab9b11d9c58b8eedfbc84a0f3a5c3d011c43558d04096b3c595;
0x7c689aeb8426becf2d38e8e501aaee897c6a9aee5e479b40bf1b84a50fee324;
0x20ad507d2e6bd8caa8b7b879d8a0f22b037fc7784994576a2053e173b8799f6;
0x29a7b5d1df34024626bcd4d01586e1ac5addfc06e8ae7e20e4856705d6921e7d;
0x1cbb5f6c2ab4fe1fb5e81b5bf2c583b7f0f6a3e23f51899071e6feda30610084;
0x1ddfe3794bfaccff166ddf4fed76cb5ce75606b016aea81a4decd295fcb73d6;
0x2b49298bd3a4415198bd2f444de89a1ad359aa90b14caf77d1afb21ce7a50b30;
0x2c10b2b301be57504c8689054ac301f071e6aa6d9f60b9c428fce09a60acae5a;
0x2672e1c103d7a3f8b4f25389d69b884d9bf997dc4caba63c15f4ae73f7db96a3;
0x414ada0c4576f5279952e118e442480aabc46107cfeeda9ef834410483d7716;
0x1c20492095f5c09599f0ca32e7df69be7724356280f799fbe074b29870e67700;
0x3ac96e8e3ea740c8e808309ea5dcc35d62ebe5d72b66c239d5bd07be9523ce9;
0x198f45a7fcf410eb81a12e1b309f0f95abc6608e847c5a68e3c352abf72bc469;
0x1f46d6ace37983cc1f2e530296fef1142b1b074c0eb50521de863159edc3bd7d;
0x95d0ed6735b0fe101e3b7ee0586f060355513c443ddf49071ad90dc1d05e4d9;
0xb912abd1261b825f9e4b3fba00f8250befabfceeb00ceb5d0062b71e99efe2b;
0x2fb34c0ec0486f139c4d6c674da593e2a92dd88b4556ac05151754050bf7870e;
0xd3eba1daa20eb618ce265bb1da966997f4c131b3ff2ddafc0c71fc035a12f51;
0x2364018273755eaac29eaae7e021dc0ee1e87dc603656b32fd3c671b7076c84c;
0x1f05f9d5508343ae4597d0f01502a1660a8e5975a4ccf5b8915712c4e4a782c4;
0x129498a8fb3540f610123f3187faec3fbd0f49e978dab3781e5fb0b117dff678;
0x219e082f6b2eebcf1de778082e847881b9327f906f9b8e27d33e9ff0c10d8482;
0x15b6568d2a70fdae1cc8b0ad01d746ff2fecba144f504261995b8c2f116780eb;
0x16da3ade68d775f641465dfa1468999906f61926e73d3e08da7509b4a78888d;
0x1e0899f2fb6d2385316656b5e8f64867b83dd2800633538a195f6860a750022;
0xd5c49a0cfc9aeafaad6415787b8cfa7bfe62c569b7d69552f4c138b12db2710;
0x58e978c6c092939294d1e723aa97c2e6000a5ca187653b0dc4858ceac8d1d56;
0x188a71a52f914ec4bff04b742907b84cf6e1c57e855aa0097595f86caa7cb23b;
0x2b6fd7bc3a3b595c206c43daac752b765a12255c37ab51ae183933737a8b8099;
0x2f3a7566a10cf8d3ea9a794c4adff2f557808fc43b07e76fa4c61431a2063453;
0x9a8e3349ecfd2e871b454f2b2e931d41dff9a96fccaa7ed0cb60361edd4ac48;
0x6a81b30ef222ba0b2fbf14165d46c175989d325caedaf588014d126e7585a96;
0x27c859acb50045e87ed4b70aa9a561acf5fbbc8d0a5215fbf0c5d49063f122be;
0xe784382f4defe97fb1b1053651feaa5002b9d1c2cb522a0ccf949d59ee596e1;
0x179e84bd06bd608d1d8cec72c4d182c13bc7d650ff510cf2b1f4e584eb24872e;
0xf23d189f57b74ae31ab04b76d0cc3f67063ae1ff17a9648de59cc281f54fd1c;
0x1f0d550989ea2cea26108bde473296824340fd2531a2b2c20ac14327b009d62;
0x14a346d622c46513a5da377f73edb803a705ee18f9e447dfed88d5ada5ede42a;
0xa71d5e77eb081c8570d2601466bfbea27f143f1b2c726a343034f015c81ece7;
0x11fbd1c03b7aa3a9f5c607da1c4164f928055cf6e2a1272506df242230e9945e;
0xb5dcbff27d668509bba8add0632d65ee5ddca9bac146648c6caf2bd09d9e46e;
0xca07ef6ebaa5ffd1e6f748cac7192d6470b170355a8517eb697724cc1c3289c;
0xe0dc71090198288bfffa79d2237c162ed9dfb5354c532f2d6369ed73df6374b;
0x191093f164dd4120c06ab66dbaecad8a5284a96ab607afe1b0ad10048ac86920;
0x111d04c083f51a6fdf87412a537f6601076d61f435094ea16946efbfa4893e97;
0x133c5913f25ff5eaa860d0318f6a4b4349fd22f2d53530e5c785b70988a3a88;
0x8875f47d6f518c8c2df51a786bf2207aade284067228f440e7d0307520a56cf;
0xba9f44a107a81cb23fba66f2bc34152728f5f5ca68406649a7efe47c9473f21;
0x542832ab23b6c7a4b547a1066037152a2442e998c5381ba97698413153ba6f1;
0xba1f764367360952942ccb6edf051c8f937906a816641e0d1e9e2ed26906fa8;
0x2e0611fa4ca3985d7bfaf512f21a4081141f4ed0dc4b022834d3cb6cfd8b7ffc;
0xe6f23c0ef6f159dec68341a87830fb864b6c08cb954a14a2500876697897fb7;
0x1a7a2a4a08d87e75f720302bead7ca21c8f7c2ed2debaced9b8b1b2da461cbc;
0x1d8005df48c8565987dbb442b482cae5bfc10ee486ecc5b670ce861345979d1d;
0x28122254823f8926acb7e98f557e796282e5e1271618858e76d49d0886da16f3;
0x2414d4aefc7b4857df681328e68a582d23b2dcffd579a8e6aeed6c61050e05cd;
0x2f710c72d6da19c7d87cbffd55665b472b0265d13e2326a9a33b96e95d3746b6;
0x2e285441d0bed90bb41d6480836850e4d76da8211b04a236dbc7c3c30320c00e;
0x2964901a2b42e9aea1a6593662aeb9e12077a287434bda4ec2012e36a19dc95c].
Definition tabC_17 : list Z :=
[0x2fb583762b37592c6c5a95eb1d06694b6c6f9dc4f1ad4862dd8f5e67cb7a3f5c;
0x12e9f46cd8231bb03d4028bf7a11d7c0e331dc05c088e6dc3d1d001da58b85a5;
0x1275cd70326f52f816a7c53fe62e323efe61a5b8d3747f6dec5837a825873afc;
0x6e7d165b57b0299d23e750a75ea2e12c9c7a16954c40a4d10904a61e8773541;
0x2f67f23a93ef1e215a4add2ecb41bef4b9d85ef9135065d992800e34fa98108b;
0x169eb9952e2a8623ef38de57e15e242df388019489e01b7c84fa839d864dcd1a;
0xf4cd404b4024ca13a513ba3156d4de9cb3aa240c683b3e0eb7253bc98c8b5f6;
0x1c486bfae3ab032ff519e8dca6dc41ea060b0ef9083127bd7c2c4e089fd45aca;
0x102e745864251ce940c67b1e2f4bc4d27fd3851571ce6813baac665e8cc0c79d;
0x1e6a6d620433d22293044ffe36a5f2a729c129cce3eeb0bdafdcd0d52bc3bab5;
0x8f3abf97ad8d01cfd8651ff2d576e3d68ecc47aad82b4188d92138bae603b6d;
0x283da3f1cf8477d9821ee60378b1c39c72428511a1b9d6683c0302938c248ce6;
0x2d99cd8d88e49e0babc84cbd58adbc143a75a26ba16f96466a2e41629734437d;
0x171edd6a7456a4c25fef8aa6d8b748ead869369f72a4e502861fd037dda8f779;
0x2fab64694369e3a2bd573c0cc383695c02a381e785792a3fabd6e1ca8df2d3a1;
0xc6155944f64f7694fc8ecd2a2b9a2370568c3c898db9531dc18c72474f9afe7;
0x1ee0e5cfae030622249210cdcda71437f28f0b1730653c0915efbfc08607c3c7;
0x1c15154895ebfcbade12f0e02f0cf65f87351b1972358beb0eae6b6976cadabc;
0x467fedd16f9e87b3069ae697d185c9c884ed5d9e64bb814bd11f71885754083;
0x2b5565852f65969bb087fcb51626b4754b69136d92546fff44b7048b2f9ef8a2;
0x2250acc27d5ef8d0f4ae8ede77510a7ffb897d45d9c93fb2ece4fe4c9a520f97;
0x2c0abe26ff8bd475ef727815bab8a81d154d2c1e36eecd07574222782b02a8c0;
0x19b0bd9e0c5fa1f56885be00fe97cd4ce8e107e95a10838b70dff34051188a69;
0x2342fa805eeb2b237633942aef80bafd3af387ec8d472f5d12e8f9834d32eaaa;
0xed57663a2a64c73b2870af0065ceb8cdea397599ccd9823747f884cdcd8faf9;
0x2c8da824719f86bbe3e601b19d3ee2a9fb766e7537aac2ea9f44ce4896e64bfc;
0x242fba876b16361e11c677d62c6aac73930683c0c40bc11938247d2c244a4474;
0x180cfd0b1cd3af7d5903e1e638bddc6711876fff6d5b12607290debd5e409b3;
0xfe8ce1b265d657e790bb82e6881b2da774713b724b9a88ec36373fa66f915b;
0xe8701cb0f031d03a5d81fcf949230dd38dec12218ed937cb31d58cc4640809;
0x7ed575f9154b12b0fbc12bff4350c6a4d38859d10f557d38c513b37469f47be;
0x22e9f46e17dda4066a4af81a4be19c94de4b12e0921f819030f8352aad050b91;
0x2b21049f7b8e6e767d633dcbf2acb264dadc7a85a39b937458c134f652a6ea5d;
0x216c5a5bff445ac3a3da1eeb706898437840905b9ff27dafbf38efa470bd0bd3;
0x2e14bd4f01462ffd0c83929aa97706ac772f66a3a0a0326c00eac11f9d5a485b;
0xf28e51e2f777239205f13ea21e8f33172ae538b21fb69bcfcd82ac51500eeae;
0x2c2295ecbad9cf1b3f6a773c69714eb4663a01827044169e7f1edd5838106eea;
0x1afe7b1d8ac438739d488ef003f9c3c679e7fe2f0918bbcf93ad1f127f2281e;
0x2e0833dafe87279685cd5b5a0105f8b98774b3083833bef43608bca8451b210d;
0xbbf4266fca0861341c7196fc15592fa22dce6141935e01fc6077c774cbb967c;
0x530c66b07d2db8dee36ab00f91c5aa0a26b48d8940f0b72735a65481e5e781e;
0x2ecabeec31877a68058a22f773e92d483867c01df7d050c3fa953ccce90acb51;
0x1e379c0d2f9d0b659bc732b57689e48c0262a976379959e12b95cb5d45820f28;
0x27767756606bf727b8e5361002c613d6c3a20df9c1788c9c122d3a7736a6b340;
0x1be3d832de2196443062c3b42321ae05779368ff46eb68fe57d835d8d656ae25;
0xe9b839700b18ef3eba297cb68ad992b3bece0cd5bec65e6e40712425447dc59;
0x2760900970a34d2051ae587ec18f502d246070d70c2c3d7fedeeb51bdcb785d;
0x370ec3f70286f496692cd5f50f6b06e21c5cd89fa28f9c8b71d42b4ba277906;
0xba8f86362e1f301baeebb2333893f7fba2ea082d75969a97ee3095baabb10a8;
0x2d683c3cd7b4f544bbe4a6baa9aaf78614434a5915299ffb37f92abcb4a4dd6a;
0x25544ccf600d8604bf3e11aeebbed37b77cfb1b22f3b110a930c91e9e7951f82;
0x1c583675e423f947344328315280966833f05f91a2a24aeec1ab6ed37376f959;
0xcb752efd07c8400d50a06f3e1baba3cb35b0ba28b262f8526f5eb0ab5bc79d8;
0x14cf442b6f22ca3f4c16974e2eb56ca084d05eb93ae1049275b8bcbe4dc238f0;
0x1af1b935bdb5607897f4ff0745ab08140d6e80878652855b1947576fcfee4fa7;
0x2499ad4b7965230d4dd5d1c41e00699c40433e22c2745807eff395a13e6f1f0e;
0x2b582ea1669028196e62e62271a36f532b14c0a8109d34ce53df9b75b81d63aa;
0x1c335a347abda047c4b5ad93dbb2e9412d526049fe1fabe1b5fee25ee99e0bef;
0x1e3451c495c60dcd443730401ef329d70571e3644dd7b5664cea26daf8a70aa4;
0x2d96286e6d9eadd63e393335f1217710746ccb928834e73105823acbd2da005c;
0xc1033de21891ecce9bd0afe313334f7e65977994e545204d616ae0ec4c1bd8a;
0xf0f51cf6db73e970a6b8efc8823bc82cac8403ec369c02a14affe5fb40eee36;
0x8ed2dcec016b8eedc067a6da7b562484c010234d84821780662acf9d281b348;
0x19a5ec3b7882ec910bf7590e9774b63ff37909995a6d695611d5532d6b81a5;
0x23feec5d6235a405f0d53fc16c955fa0214cbb54fe973948a1dd39263607c33d;
0x85438dd42c1d74fb0407e48ab1b44e0e42aa3f54b8d7d4f6efb87102c6a00e9;
0x1916f1d621aaaf4f9072bfc4e41b4b78e82b595d7510d507591414c005fd0327;
0xfc2435156d4ee76e9a85ac6aec2fbb50b0b77795c370c2183fca9bcbbd07693;
0x26cf4d12199003f6978f80761784de0919d3a14887a57d4a28b4ff3ad39bd969;
0x2c480375d8dbd4ac4f039f452fe1a9f074c811d48dc2b214d3f5de827a1a2025;
0x219b5f8126784340f278b77b765dc4c697937b3d81ba2691f8979839f02cc0eb;
0x14adc2f2733f55d49fb628c3ba41110e16946214996d1f93262b9347cfe69a21;
0x230a5fe366e0aa4dfae1dc35e0206959781a64f22d5c684e53ffaa6614b1df31;
0x1279f8d2e2d43a9eb3b7e4149d16451b78c65118b5a80f86678f5ee6fdcacbde;
0x2be4cb4144aa4b8e705c37da42b8819f0165ef3476fbc327a3a3deb0a0e8d751;
0x283b18f7a149cf2f2c8cc446513b5a03a06022cd859f16da1149e7dc7c60a45a;
0x2d5baf88887aebe22d5d9096dd6c45e941f6a67369af01c75479e707803378ac;
0x1cd9a6ffdd0daf7ca9890868d9ab398e0546335bf29623aded76e4f7afa5ad55;
0x160767c1cb457de2acb400781d8cdd25b99f75af301e749cc46049c8db5563f7;
0x1bbbb19bf384f9812aa63685729e0dfe06f3454c12139454707c1789c39fca6f;
0xad3beb75c91ceb0b2bb8aba2a1c73c95e7de57b8d5a7984e9f4d010f15a1755;
0x1841eb6cc35a1dd64feba1d8ad6cfecd65063e1e6c2cad4fd5bff1b4614e0b06;
0x2356eedec4882d9032ce821d611b98779bd344e2abe0a57de4de06b72be6b447;
0x10fede6245a9c78b391e69db91108306bee130faf298432d60a4944ee6ed6479;
0x2b4f28161c7a843692b07410223d8b5db762ff16ac0cded416c3594de6a53443;
0x1f0846b1b26aa3db14ac0d69972c9118051183ed1d1633876b44c92f022e011b;
0x28ff7a7752e51734e1f568c6aa3dde3009c22ed210503d5dcd7dc25f7f6767da;
0x1a3acbdd739794d252150399c6a8b3d114d97d643d4ce83fe8f64f41d8c34e93;
0x290ba46b38179a447cc81d0031d18e9baa34da9a60ba7df3cb2c7654bef3f412;
0xb9876589637ee3628c3a08500d67363a1a01da7a1ac81f528c450e9b050c6ea;
0x35b7b33a1e17c6d1674cc229068e03d3d1767bc950d68a2e376f0c793a896df;
0x7e6b30a0d3c2526be65920e6b873de72db1d761f7935202fce088538741b347;
0xe5ed87393495c2a7f3b877578c6bc09653755179159351d8e67470abe9cc690;
0x2824873ab7526115957736a5cdae583bfcee10b9d418ef8e17795de3386f21f;
0x1db49ff47ea6ae80c26654ff5714e69cf3a1ff7b31b1fa7a3b9e64618305d582;
0x1be421809f80b11a626a0eeb927a39c2413e7205d25c89276bf5633565038941;
0x3b7c7629b535df5b487211f4e789b9a287abe7c453632ef7d42623c2d2c377e;
0x12a9f7f6e0c65acdf8c9fd354f7ec84d6e41638465e347f3063adc04e00e809e;
0x1df5905e387f8ec81128c20ffd995fad5402096e3cc6d2e229a23709b6859ac6;
0x2d39da8ade615636070e6734fd848368d58428aa3b2aed784d8429f2075d122f;
0x327c1d1f0dd35b08df840db2579623243c13d9c073b9d70984bcfc97c9beb7f;
0x18a10f3e452a08076aeb6b825004322a48a6fb0f51956f50250a41a49454b6c1;
0x1e94dfa0b21f7b3e6047d599b3ad491a693fe458add2a56c5ed16155fac59ea6;
0xfe2016941461beb0f0bed25bf31e8c9a36f21fd61cf70095d2da2bb93bf3b2f;
0xceb82937c84923d76bf855a1bbe412dd3e35d0378007404477883d885b425b4;
0x16985b2ee64b42bf9ba0673beb0e47580763c527f4792fe994c23e3046621a9a;
0x10e6ff96c5dad8a34d7af2e3c6ab2e1eb6ef57849233d2945fc0aabd404e5b6d;
0x192fdbc53b382b45aa3020d21665ddd656bc1cc332581cc71ec97c3ad71dc542;
0xd8431c14f1ff4640fbf6990506d930843bcdeb4deeef3380b5cf2161a3bd030;
0x604632b70d1c0dbc74ed29d69d11d37b90669882c2e3d6784b47a5aad03495f;
0xf2553c7fa5beb9cf2f6957b01ff7bb7d3ed61f9c2e6fa8a53264704f986c193;
0x1fdc2bb41ac0418d8351414dc360ab2dd324d1622807cf59db5ca6aacae5d58e;
0x18c42a157f39bfcada57e085c7cd33781cafc7b33d6505dda828972966a9c2ac;
0x2645748d1b13c825bb457aa7761b9ce5425c56137e213c8634c87ab29543ba1d;
0x2788af72cdb594ac08f41269497e1ae18d44232ed0f80a06bd9e72fd216e3972;
0x21ae229ea6529c4f9de897bb849ab6bb15bb92ee41f73d348c10ba8d64acbcff;
0x1abcfdf990784706f54792660668ad106d1a6936245785c3fd023a5344cc25ea;
0x29ccf1d934f2a647595d1be0900002b9b7a343c3e7d3ab9ac3d2ab8de01abf8c;
0x39c2ffda04fb850f5e70d97ca2d93fde05b651b310b1d27dc298b9fc888d9c0;
0x1f2ba53bf1c99665fd6f4e862ac08899a41da938198153e4c638bade14719a16;
0x2451b8e4232ce9c809e439b6eb5fd2bbad8f51e9bf0429a33bb0ee95b7890719;
0x171a629d2c40364327666e0c05ce3097b2be05ea5c75123fa78851ba178980e0;
0x8c9b34df311a18764044e24961a95d1b2dcac3c6df9bbe0480659611db8f137;
0xb22a3e321a38a3801404091d2b160fc133530e8b7a52d2422c9f1a8b252bc20;
0x797c435ebe5c845a743f87a7f0d267f33bfbafc9f1689c2796b392772e7d301;
0x1e7306b31a137fcdfb389fac64b5f1ddc6147bd1cc7f30f11d67870454165dee;
0x112f01c5aa8b6ae92e2c8ca7667f5d21a0b1e4a8ce00a2ccccdc459ade9b019;
0x219de6b42df30699c66921c11e899b888e9ed317b586abed36fb7692b1216b1b;
0x86a228ba57047dc5bbbb04bedef0d87c1a78cece6aaf9b698117b292705de04;
0x14e98432357efd4cc323da2a344142e74f2aa117cc1aa4b559ad83e541ebea49;
0x1e6b895858694eecad78b8b88d54217c879d8b86ad928190789a09147168fc96;
0x15e37faf1d08493df2b643576e177c9fc704fecf164b7327481d32313d55d161;
0x85d0f567ddacd3f8e5e00c4209cd9b296693dba11d00879629b522270e798ed;
0x1067df821f616fc9635104d5b2150f831ff04a1f2b1399db49673e80c5c86db1;
0x90332160427de3eb055f9b8748f7e2b88c11f415576e72e4e087416544557ba;
0x2dc94749388ebd876e0d44ba0105f8da36fce0d45831e4255092d5c7f8b84225;
0x118c857f29e5a253d50b4d24d2d0c29b82c68ac4ec31e88bc43c74a9487e795d;
0xaf67f0d07a2fe41c72a457c92e95458a77db9ad0a28768b62b6681adeb11579;
0x30104204ad0fae366f11620b2f12ee6bb7c141e2fec7e29d963e6fc94f8c828b;
0x1976ac8ab874f49ccd63235f4d81cf0032ce66d53b0d9a910da3b8d0524a5a60;
0x2c316de3167edeb721ab1270a0748ee7f77ed7a8a7c727559436f6fb9313bfa3;
0x9d2011c83a4c911f4535e741f79432b5f2a5b8e53561d179496ddb63cb759f0;
0x135bb87773cca2191cb5d22ed48e633d71149119bdee6569623af883ed734294;
0x2d47ce655296753999d0d8cabcf056f0047eaa166f5f8bc3cc5eb601ed2c5600;
0x12b3ae2f8d3633702674a4ea2e98ab5bb186da55cb7f5bad038be08a46f8f8fb;
0x1941673c79be83924a43b0159e5f0919c3b4bd334df567e23a109d5ad7093a96;
0xb524c1bf3c392285d49a42d8bdab4ca454514792e2abb5bb4f62c902c9b9190;
0x1515ed77226a3311eadf3fc8f035c016fd3705a08b8a9dfc2175fd7bf58eb8da;
0x64862973bd0b7b75f7b4624a84d680fab7da9b6741aa5d6edb76a9d0c40cbaf;
0x1a23361fedfc5e494b0b2d4eeb80c93f8835a73100bacb989be5226fcf0df55;
0x14752381dfb966594721cd9486750a4f1f8e337b06810938317563386d4e544;
0x4a09034e0f69e26581ce66e097f9b5be008d08be687b8122540f2e3262914ac;
0x10bb764a96bf402a53785cf2eb4af7b05e20d89ad0658aded12c1b581511538f;
0x1499cfd036b8ae372458561c19a59aa635054692818f9b3234707168298fa14;
0xa8b3b48ec68bc2fa9e34521099684e72258264b7796eaa9bc2130ca5f962fcd;
0x1a46e59c6c21c9d54b9b231fc1403379d01e16680bfe9622dcc01555be87487e;
0x9569a38ffb6c33d8ebcadc6029a3ba8ea8c8ade1a7874c3f017516c358cc698;
0x16a9c201d574004d0276db42e7ef31592cd49a56b9b768ca73c7c6d1ddd6a2ca;
0x19c05f9660f2cb6b113179e32656fe2b39c9307c0d1e9b3e680983e27bc941c7;
0x29f4b811dddc6725ee59fa5a28af545cb21f15cb7fa6f9885cb7d6a405a063a9;
0x1f99271ffe92b27fdf561572e5f6092fc06fb7faa9cbb2e07608067cdd529b10;
0xb9fdcfdc7dfb8724957f00327ddd9372f8fceadbbd41583b66726b252b6c089;
0x1936f5a41ce7135c9027047ec1d759bfd91ca70a62324400f15a31debf179ba0;
0xe5eafa60334d7cd71251663f5b91dfe10ec503a1b2fe5b3886ad9b10662abb0;
0x18065d065c304f7953231240f544ac51d897f58777c69bb9d1f8a486a10c177a;
0x2678766be9d2c5251479999760ea8d6fe4a1525095e312fae3ccbaf689e7e809;
0x23750f77af3988a0600ff868b61b9e5e3d00de0f8759612d4af260cf4b113ce2;
0x7318b129e4789d21bec7920ba354193fdd6fc628eec1513638528431272925b;
0x2a7bad1eb2e6418a954869513a7a531c58f0985c64aa07db26f8f7949fb0861d;
0x1bab89c7aeb8f0f1c55bf1aebffd937a520cf6330add93cc33846077c83a987a;
0x1552d5985864ef2844ae3d20a40a368a4e032a4ca49d8ff6546c450cb1e079a7;
0x4b91151b3b35f11f5996365de43d43fe5476e5bafa6f711dc30face2623d320;
0x7568334c7a0595b5ac2105b2b5f738a5df0931aba8576b970722d4e45c912dc;
0xb162e458aeee52ea49ad59cd7b5fd2dfda24fbd9de8cfa1cdf06016e9d171c0;
0x2cef3248eb4dae55793e1bcfa553c9315f6b78c356251508e79af7cfd8ad95d3;
0x15e7245ad978573a5e2b912527de7964cd4add05fac3654847cc0b6edecfb9af;
0x27c471daf0598daf80d02e06c8171f94dd4b689aa0bee6a68e57b388ddc52155;
0x13cfdde932c2d8f94bdceae7ad7a0ba5d545f2ac20a04f7e9397d67b942b09a0;
0x19f9a64fb9d109936e840d1cbe108c9c36eb46d237cdc8462ea8267faee7e8b7;
0x14169ccdf08725826332bbd522d72ef94b5dc96d07a18359b0cf770331224d67;
0x2e8744177cd2849b77040421907fc4a9c356c4cd02ccf32dd8f05386ff3122e2;
0x1507d5deb9bf6bfa10e2b432b56daac4ca62d302fd8e37a021ecf111eb42018a;
0x26d7097b3269c5d618a95bafb9b128a872c5c85d770515b2815b581e94c8b9fe;
0x1c7ab275f1c221bc248d8498dbb05c47f41b97fbdb637bfe155cf1e75849d476;
0x2673077405cc8bc1e0d88920eae1a797d7a40f9999385be0da776c0326b9206;
0x23fe81be9b9219be0e6312f29022c7d0cec98da3c51c959852d951d6f1cb638b;
0x10ba3c183fb3890c360fa562760adb456b01949ef7151ed8ab8103f31c7890a2;
0x2d5259daac231ce0e74872c4065e14db8b32679927872701bae243f6842c34;
0x1a637c2706a996ff57c037f4f5ee37501fb3e7de4d067c4c0f5ccf30f9d82a05;
0x2e6067c558d96831add6dce3f7668546f96cd84c4e227cbce700964431ecefa0;
0x1a0c5d35fc732851917ce3bd13a7f28f75898537f6ff8eef1a1ff41b4b7ae935;
0x2edc867095cf941cb1ff7887926a4c8c44ceb1927172e39b362d2f7461bb1b84;
0x2f2062a65c3fe731e2aea024198e417627f38d6cd91e0a4874a856122a9d965b;
0x261a9965be69de3ffd74235c3a239e3e374cfe12090f6929e7c4442bfb8b61a0;
0xe51a7f2109df256ff814fc310a3b08efd5bc160698af9ae219c26603e84b586;
0x201537485c818bea2b1bc635035c7f92ac4be93b1a732a259e5081c6b10822ff;
0xb1dc66c364df6ca43e96ce916012cfc49115a6635e8a76a13c56f966991ef4e;
0x1b70f07090ddb1c480c10557d2f818c2355a0d0112f0448f457196db0ef585e4;
0x1941694438a139d8dde10865876403207f657a2883117cd3a8cc2e7c5d24f32;
0xcf031701838c4ceaa490cd36e710d3619ce54048ea826cf23a2c456f245e6ff;
0x132d7fac73535b2c795ddaaa3a69281704e85097d78ac6e8b1e9e8a7721863f7;
0x4aeffca0f9922fd0379b69a7fb710b49dcd05026a3f2576a48a6e04f91b630f;
0x25f5b5001f87bf2581938f3ede0c2a7a35141c7abc3e5bb7bb8601a22a3cf43c;
0xe7119275a25b2b8a4a6aca534650e84ec72b490a41384d44975ed8c80a2a28a].
Definition tabM_17 : list (list Z) :=
[[0x196b76cefdcc7f6a54c71d40114a0bb82694c936f1573ac7ac1ea3fcce1fe938;
0x130fc54477fd953377fc23abbd7a41be6764892a8787c759c1440fe0133c852d;
0x2c9c91f48661771baeef6774578a78f69c355c8e907156fdf26db39d2446413f;
0x1dec0bafa3e8190621e5e095ef751ea03c836dbb8045b2a73f8d397cfb815192;
0xa5f52ad6ec4a8aa377d8dd2ae3aaf6eea0c68c63a1d034fbda67133ca0b85cb;
0x20ab7394bfdab344cbb6f2123800a0e23508e2125bfe795ab4a767cecb4d9306;
0x110ea322b0c26476c67bfa2c1b9d1713f93b3b9cf8320ce0dcd4b64288bda07a;
0x54eabe6131681fa01fbc6dbf3e7d53595d0f8809987182142b890ac8af89cbe;
0x224d811fbdef8ec0a006d376a019e57c93bd596213a07823b7d4abce1fd8e621;
0xe691fca423128a7d4afcaa582b1a94799ba1f5d2a5d53bc2bba56bbecb227a1;
0x189e279c92de0bab66707e6e6e310524e615cd4c6aacc665372a3b8e372d8ce6;
0x1d9bcbbd17b93b1913d2f79cdf12844441237206f0294746d93f8e5bdceb4725;
0x1179184635a9780ee1312dcc3d15c7ef042b18ae9409670e28c4c7f0fb9b608e;
0xe48466182ae8333af1891a6aa19736741ed0680d57c931ede13fc07ae82e88b;
0x1c9d56f71c2f22c44d3a8c17bf5b40452e05471f0b6dfe9ffe4725eb29f73464;
0x2234546f5e8541e8f72ad794891950b32b1cd891cc66775c5b635961642e9c15;
0x14c09d155c5d428198c234b553da338f227cbc12b0e42f2b9ce71563ee1495c0];
[0x1440dc2578f44694d18c25f892d98c23cfdb87a772200020e897823d4bc84d3b;
0x65e134cb8d84447d6ea1e17932bd4a341ebef2568313c24594faf9d7eca2110;
0x2c6b133e80abef84904fa4a75f968fbaabef890286d5fd11b87a1e52b7eb6d0d;
0x27c72332f59a00135baa94bde294911d135d1d95f53c52eb8b3b95594374906d;
0x87488f735b1fe2fa3c6c7148c4968e7f3479b1418a1a566743c1ca215dcfcfc;
0x19f0e2e141896eae6d56d182b687b8a6c64cbb59e031b749f35822fc7ee353fe;
0x299c47f1e3ecc557ab1c9abe36f0d2ba0ece01051e07f0858e97a9ce16f5664e;
0x1a4befe11c0230c62de44ffafea0de903ba328c6d67af73680312b68f9acffda;
0x140762d30c5c3a0b0750b1400a86a9e2f5cfc2531b729370f3ad9fe1dcd43f96;
0x180aa4babfa7539753d9c222e5e3359aca59e06bbefc7cf3a3ffa4f961fa1d5b;
0x17208ea9cd4dc1a6deebe6a8d27a3181ab5f86c6a706e6fd007fc1eb678e9de6;
0x20007a0f5d37798789e0a8ef683536d9cf4831a6566eb727b41191d9f2974710;
0x229da441a302929b0bae93741b7c75e11337c797e5721f9d7ee59235cda9a40c;
0x1137b5c61b9684bec41e4dfaa76438256622a4378ea4e646a2844bbc85bf81cc;
0x113003c1dc7baf35e4536f95f4eab2f3badda2c7a1c6b5afc956234ade3e7129;
0x1b61468fab59c925f1986186bcb97965a858523a2582d434319a9525ae71158f;
0x117fd528770fb17f718e29a2d91a63ec7c39ef1dd3039f0943f717d1804253d5];
[0x23aeeb0c6499b84bfc32ae3c42df9728798fd2ef774f1518b870bc57d1385900;
0xe76c40392bd5f458bc187be54099312a0fefff44b441637020eb92670a6fcf3;
0x2ce8546cb59f420ede61692e764e0e9f6715b16a2c8047cd8131c97646f50d24;
0x16e64661144d816885b32f3f7809703477788268d57c14b1d939a26b29cb7ef3;
0x6cf0db92f86b2732ee5fb881ef0176012dc4adfd849b9be4de17846a6ce5d99;
0x18f754a95b0af0e4706ff9024bb135164abd6fc16ee40cc2d6852d88a2ffc9f7;
0x1cc053a6a4d6f96da77e5e73adb9d49bc4d0ef2cc2f69fade48040b7f8d71386;
0x1e40665f5bb8c5c0dc9c11f39d47e9d33e717afa31ba74f92f8737a55efe134;
0x976d7c3844bc8deea0f0337f89b2a131302ffd2d0a870181ca5fd5fb6d4fb63;
0x2c54287eee368d5d52dfb068282d68e6b09b76bd1b5c9333b36848ac277744f5;
0x228a3488cabbf9f29efc0bce211a09031972b37f25ea35aca840dc2331a0cf35;
0x16bae49f5ebb1ffe886b634d215de61ebf4f44d1cdc4f84670df8ed69310bfe2;
0x2e269dc78f70f9103b2bced3edbd41e156e64910887b4dddf8a3eee960f601b7;
0x1f4b85552b960d1c18b7b8f66af7305a6773d9b05faf51e0ed1a5f2ef2f95e7d;
0xd5fb9b0e1503f2b92697c473b69cf76d38fc12912e2c3cb33996dbb0cdfaa38;
0x11291ef514a10d6f0651e4ad0da5d4a489e3018927879da942defdbdf701ddd;
0x120e7416d74308e24047f6828c68ae28bc288b216e8a25e8b0ebcf738480e390];
[0x1ed9d3e9276acb7b4dae53eba148806fd9bb07b2dd06187212fab7dcbe63d72c;
0xb981765ecae69dd7af3b10ffa424b8aeb206cc4f49257265c6753b1cc54ebcf;
0xadaeaf28776b813d518f645c793e57bf16067fd80eb921dd5a67e895646c9c4;
0x2018db386a3e4e57eada8d91408b155061df050140fb22f9a4f34fb4e2d02428;
0x67c4411745db6c6aa659ec737a586a8f4a1cde0352e30aa0063794865fc1c04;
0x193fe0e9b48010fa319c33b86b6b18f428f323fa237ca918a38faaa91ba49567;
0x9558ecc58bee4f3c578f62489dd900840a9889096c0a62114aa2db045a1d033;
0x23c4abfeb83192362aae21b2e9ee5cfc765bf1000f798c3ae70133556abc78bd;
0x152604201ca7df05994e9d5f058f3b6749cea63aa0cb5b4e1c3a00b6667958e;
0x2f65361a4aed320fcd03a45c44dda740213571f3975ce20b96bffd960cbc6e25;
0x22122c6313fc9a4c6d0f944d3ce238272bf35147b1b788aab2b8dbceb6024c76;
0x229aa5b547a63780d8d129e209fdb92f85662616d59da908075e668fd817822d;
0x21a91fed8bed14914c4fd491b6fa4dcbae7b3b8b3d456303af886c328abf4699;
0xba8a54914886fae16700c02efdf7767413a0bec5a19ed0cf0a7d8ac60c1f1c3;
0x2e164a524ee22eb5a8903fae1f35a3a78f882f3e3a9892b6ff4753baac934949;
0x2df2fb2c2e321e3cce13d16091705a40c5c795f8b41b61dfd6ae7d97d63578b4;
0x6995e510fd7669374c39d27903f342ac5bf8a1464807f308bef610b76cb693e];
[0x2ff57f3f7e95b03411db790a86647467581197124d217520ef2e6332a5b35185;
0xe4fb044a9fcb4087e351341f25d98b1399b576e2d6654534f348219a0acdf86;
0x2086a01b816438a2a41c59e43d73fa9aacf0c24e4f6bac229d65fba59922554a;
0x12263b7e3f3de60899a2c22fee919972cd79dc289a87f31f1b44baf2439dc87c;
0x19909241cac50288c0d12343e0c12cf9b9790b405ef0a9001aa6be0289063aa9;
0x11ff091dd551b6d586203ee0cafae2f7652e923aba82574a53b632a066f4884;
0x93d7d5563e3ccd0b5f15a9b093fe6b863aacccf9af11ffea9b295b7dd42b1f6;
0x1669e44bf0223a77f48fffbc9f4f20b5814f6185ae11a210f8fdfcb5f71d603d;
0x1ab6d8fe39f87bb0ee5b883eea2725caa52c575740d5ac30b058f77113d05239;
0x235bf178b5b56262d988bfc62708b0f85d57385cde2b4dacf9e6d592deb2afe4;
0x6649a13e65023a713aaee5387d388e3609ae9b14ba4da10642ee0b7b4a16634;
0x29a5b1e4e2f25445496adec230ed53a35993b37630aecb5d76e56608d1b78cc6;
0x29f07c1effc65b5589e1ca52cbe00bd65ef5e962d01200302670b6dce79eeb00;
0x30289c9678c0330f85cf8e362683a6144f22b841aa08f586f219dd9edaef78bc;
0x1f9dcbde7d058134a510a711d036d1f1800e473a63b33a7e0fb04dc2e09e3af;
0x1baaf8ff96bb2224bc34cf80c38bf13086f1e429bceec12090d8a7c376a9a82;
0x1d814b3c17656c2327f94cc02472780b886b88394f1a5cbe34dc4f44ff134fce];
[0x15faefbf8584a38969b4a719ffe5f02c2191a8cceda0b775162203d30b80208b;
0x303e39ca88e8da6e5c963564712df8a7f8501a7af4a990e4ccec19e5f8fc805d;
0x2348580de49aac01ce8fcb5aa2b467f6787dd8a96ccecd6fb47df7d5a4307398;
0x10e420edcb6da76170b24d777ce9d31612edb1593ea6d30e8cfdacfb6974f991;
0x1d25b94bb7c49c0170ee1fb2a5824b70e4554bcc54b6c8f8cc0cc9d74f19a5e;
0x1da3e00601ca3fc0d90b197bd2a474b46efe3aff3b2cfaf1ebe15fa1afadf2db;
0x45dc0579ca66e7e096d4dd86b882e68af2d35d70cf5e3b1783caaa0ec424253;
0x2d5b3f523a9668cbe4887881bf7b40184f978713e358de270d87a600e5c5c92f;
0x1b62ba8037a83f1261544c307f019dbea1cc6a84d481ea8960b0fc670745e8ae;
0x1794ec2b0eeb22fbd753b21fcd949e7bedb305f15a59eaf74a961c3046635f85;
0x1ed4c95c6283b45ec0cd88f511976f063ea2beb0695b8af7cc10589593a7978c;
0xbfce7b120068b9a30029dbdb36be01d071e8163fa1724f13c6ca89be29b729e;
0x506a7a5de6b56ebec5e708a70a3cecb3a2cfd25e7a20ed495e295a93023c5a8;
0x4890048fcdbde6366761cd58fcc6ac0a3360d9a64233d3ea4d8d6be8a23ec45;
0x285b20799970b58c63ac9f4af564ce0f28209b61802214da5bfafd0cf24c6712;
0x7b0d70ccff1b70dad9bb4b0142e3f6dc5bc95d3766affad378cc5042484dec9;
0x3b90da34b198cbca17e34aac98b169875ecf73aeb5c6ff1f00c9fe535aa9902];
[0x1e6eaab1191593de0d89cbb2399ab8aa955d829ad959428cd539be30b72fde9c;
0x1b77995dbf30cc55f9d4cd4849ced949349da81239a015440fdb38b876abee5;
0x1fb6bd6df650d27e8cac05ac0b45eef0700e308b29b4bd41eecff58027edc45c;
0xebcb358f95f84b719c631d4045cef03ac6fc238f6834522cebd02e47411bb6f;
0x3274e735db2faf186787528254272ee01967e6ae9d825141378b8354d843965;
0x4ef41945559c1fb0b2116cb2be1f043bfce8dbc96feecccda47cbf68be59b5;
0xda02f6410e24058a1e90412cd5302c57197f7b1af2a99496f9cff3ffd58808f;
0x10c1856f282f556d7cf6d4a293621506724ba6d3c582e4c261842f2a4bdb0ec6;
0x239abc7c9f866aec28685c26f4e046a92d4360d36cb50890f422e18ed6f8a7b2;
0x83e1cd5943461ab505b200311bde4003fb4f7ed16aa58c8bc28f2e08e9f6922;
0x15fe62a69b0438294395da1bfc93272d88797ceeef666ba2443f0c146f8ab7ee;
0x20055568b33367bc12bf4aed7a0909c173588a5763c6a1a7598ba7c6c7e3c2a5;
0xc02b148f4a1559b597cd320f00c02b96a7fc7c83811bd86a1e79cc3106b2201;
0x1a4162e8a7704447be0c1d4d5cf2f777670f4841ea27ac2709cd6bffeed2cebd;
0xce3dd727fdd11a8bc731500effa23763089ce3332cb730f9fe57146ee204810;
0x11f28ee5da80d19e31581b566a439537466d9ca7fdf14b7086830bd8ac13c4cb;
0x27fa77a0658791e6755781c367683f9c9333a41364f7870edff1935a347485d8];
[0x2a3bb020c8a50d310ef5b5c77cc408b077fe2481454754c4568ff668fe5f0974;
0x23643add30be204734d029cf034c958144551060c1901c420a28c9688ec36a80;
0x3e9718237c1700d7dd213e026f307e8000b3851467fed9e6f51fa5020c2369c;
0xc48e2f304f730d48e83dae5c78a46188500bc8040a49542eea5ef1a21b9d222;
0xcac320362e235b458d6d364cd0fff914f3c056adbb038dc2a861a49f7f70e24;
0x2f053fdf1a72d6ad8c9df97a04d637916f25e3425b6dc33e99ca7cac5cc7e4c7;
0x2dfb6dd598ada57ea71a8d68e6924608f0ec7838808688ee4b3fcd521f7be6d2;
0x22cc4349f6baa3a8e0b61fc40ab97210e4bd3b3dec7f05bb8ef839c84692afbc;
0x2fed5a03200417664537df8fa30276b85d91bd2ed21de33d901fb4d82439857;
0x22a67a88776982d6a15f577dcf780ac485ebaae6fdf6fbe50b95ea266a7b6059;
0x2b079a1d09b9d4a76d4e50c45c01fb7508b1c443a8fb21ebd28533e05def8864;
0x2df1ff86644fcc42a1932cf15d314eed407608246f14a8098725ff7be809c87e;
0x24a466f74e99a602894f421010f43a81c708b1b4ad076425190b85347f685b1a;
0x2e944b449c1369ce9766fa6f4f99a87630b5c1f2d63677a437a537d61b6c7470;
0x1079746ca51d9518a0c309296ca48206292798910494277be2bb65a6b134b3a;
0x13d7b03e8fc9fa647fca6cdca97146901df7c675a164913c2bd2a3b6ee3cb4;
0x6d6ee531ba3fdced05e24cf9103d0962dd227f1de692c0199483e92ab24ba59];
[0x51f815c454b6015c7ebf90c297b90e9604cd36acc6af07f99b5e51fdeb32234;
0x1946a26ab8953f9be558105fa5179f175e76a24429dad5d532c2ceb3cfea05c9;
0x925af35a3366801ac80a31d63f745fa807bda10560345ad572bef4cf2ce0d6;
0xe766f03afbb7af630eaa8aff4fe60f3810f30f3f4438498efe0186333dadc0;
0x1111ed7a66ba2ccd4bea0d43eec86ea35ab40253a1209e3637f103dcb84fc429;
0x1daf74842c7e79104349ad399592c5c4cce16f79e1a86f50d941598772cca953;
0x1057062b40bdcf1fe2aaef45898c871146799a92c87d0fce64302d6bc83172df;
0x12d019e37cd1bd76fee065bb7380a9bd8331a4dbcd1c9c776792bc19045c23b6;
0x996cae74d9627ca3c56c646095f39730274d25e82c42ce21cf789253d48a3f0;
0x2d1188d9e7e6ac24c4b2c9dc3dfcfb0fe4782d689f31b94b1fb15ef29d11f19e;
0xc34496a7db5abb330b2f6ce9adaef5ae6e308c8fc2c5634097ae352aa7457d4;
0x1d4fb0f18f31c8270b4636e6b5d7a33e455b1050de1164182cfcb739cce965da;
0x1fee18888425724970bd2897b54c7fa8e9c367dddbc8484da37864faff9f9056;
0x22d6e787f44daa6b6593dfde5576d2fdf5dc0447e65a1d5e7712e4e62c3bdcee;
0x23a85d4f91eda69f310c451d7d480c2f40c0d53382ddd3fcaaae627b9617170e;
0x2440e786179a7fbcfe8d29ab18d0fc6cfa383cfb747f7a2d15b77d82d9b0d9d3;
0x1e507921be7c76124879ffce5b62dd0e96259e98cc64c27208d62b40bfe3e482];
[0x28b75c2ac167fdf184725317c7bbb8083e5ac5bba937bcfa6cefcb69e4048bf0;
0x248b533f875e5ee8e751cefa4b1d0732fcd30151c3a5cc4abbbb1e93b4655d45;
0xf8692d64a5b69a956c4e2006bfec344477fdf5f0c9aab866609842b9d75269d;
0x1b8a7909d7e7bd4f0bcc8003968e384ac2e8b405ad05cf610364d3ecb982db7e;
0x13e736cc70b7c828a38dd6394ece76b9ccdae2ca4f43963432502fe8c2ad19ff;
0x2ae8da8d0b129a22f834d0d234c8917c2f877ff00dc16215498d4b748fb40df1;
0x26e6d18aea75a94861a02333b5364ceceaa78adfbb742817218ca3af607b910e;
0x27aa38fa051c434189df57bafd80723ee29bdccd59fbc1aa9af11891d3722e61;
0x304dbc0936862356e0024b2a32dfa3085abedbd337f22b89062be614d83cb083;
0x265c43c886f07d025200d56cd246b01670b3e82ab482f5879b10608cc05a37fc;
0x4ffe27a92cb4300e774388edc3147ab9dcc4ab354c380f51ca7a2e7fe0463c4;
0x19d6f1d110d9f873db002ff2ed828905bd6cc5d7921c238d7569daa9b2401d32;
0x19711c41d76f64a371aba62f3f46710dee0c3aad217b7cb00bd12613b24ef52b;
0xe08ddb69d5efd949c3d671e4e78e4fc7628c65ec1cfbc18ba6a101aa19dbf66;
0x240657d67f92b5e4261ace434fd286206c315565378ce8b81661523f0e6ddc54;
0x56149221712b88ec291fc218324142d02873cdd53199679fce4dfcb5dda9116;
0x681adaea79cf457db5701931f0ee2f15ecbb159ed50cf746a15b85c6f8a5370];
[0x23af324599683d9b71b61d093d63dcbbd97e44957333d2697fdd060c1e4b585;
0x2e7a1c51da61dd214a1789d6f1ee2957f69d21b1f16d1f9458eb25a406500bd3;
0x2bdfe7eb4fa803bc1dc0052a46d850ee3e091eba8a7f12579682f6f6fd5044d4;
0x1d92e4213d840a330ecbdb08693dbf9a971bbd6229047eb88a03f334cadef227;
0x1f2805084976b142f7c74a416ff439ff1bcd8b8e7b0570130040754a61b71912;
0x99b0a6330926a4a1564dfe94f9a1104bb8374bb518a89de08c591c17dfaa059;
0x565b96659025935d9c025c7ab20b1611db00b67ecc51426b342f8c7a17fed83;
0xf0b9336db5c16d472fda3fb9ac13b13394c09ab9f484ecf6ad2060217b5896a;
0x2a7de8f5ff476d81d393f1d274636ca956f05bd422bc9f3cc0fac0054b58cb02;
0xf26d05e938f8317bd608eff0895d352dca712b653b1492f8c2ea96b26f9381e;
0x28b73b335c72f0774871a2030d444e5fb954979c1c568e112fb911a46c666768;
0x282a01e8f2ce09cbdd862f98fdaba3f9af02443edc962cb34802d04477de1e20;
0x2770d14a220152fa7083040be9b3cd38c8ace9e207073486bcfafcad706748b1;
0x27a573036509a8a29a90eaa34d2adaed5ed1ec6b207274f3c5ca23dad3880e57;
0x2384a384bcc2c4a17ff7c9e3e7d131d39173c431333a9c7c1d6fd7110e25902b;
0x162c5bbc81b44427be4e82c5e5253bd66c3054f5c5b73b28b29238487849a794;
0x1e6196147508bf2edc872c4e897a967778b119f69fb431a7f646d2018eab4010];
[0x5a07868a7c95f50a015879fe7cdf1eb6c317e4d489d4515208ddf40a32329ea;
0x2065e374edb1f3cbbd2919dc04d14adb07062dd01ec1501b85522e7e0faf925e;
0x13bdacc137bbcf51d8bc9d281931d6e71122dc6e93e7ffe8b835e3393775c3d4;
0xd3b3fb86a44b7422429a249884c85644af1975641206e610070c02ef5a9f4cd;
0x27aa50a0e5d5588c1486e8e7fc8dda65489fffb866756c218f87e7280cddfa64;
0xb9aebf041146c119199757ea8ceee5abcea9ec42cdb28b921caf21e84847851;
0x2776bde52a1259472c1cc020e719f82191dec3ab7699b7d0fd769dd3fe392997;
0x275a6f59623354d71d38b4e200ce2e9676aab74ea8b8366fce33bdbc47d0586d;
0x12c6f6c83a3530faced60c88f19a82fd12b7d938a79864ed20a545a52fdce11d;
0x257689a4e22f6a8768aafe54218d31de4e409fdbf42319582536bb583313a395;
0x195821b99af2c217404ee582e29889072ba3cd994b74955c261b5ad364e5a9c7;
0x304b679008e8a1f09448423a05889e0df663a2b65055ca9ee5a99dfe13fb9a16;
0x8dffe684aa33f911d35e9a644b4bdbfcd15a4da49b6531816b60e8ce4f6b5e0;
0x72372083f62195bcc2b5afab1038198a3f0546b62d171ea21c37c8f31551176;
0x25547b51b2c6874e4538ca9b34093b714ad36a8f356e4c78e0d66b1f190038fb;
0x178f2aa8df9a11ef33558dcc934971f7697e626cfef00ffcdeb6f3c9c1a7d10a;
0x68efa35bc620124ab7d88990171bae4102ad21dfddfb387df0de0c8a3a189e9];
[0x2c5b4a65bc55ac5fbeebde53ce5fa68882faed2a92a7b3f5732832c72f7f2c30;
0x2f36535a83a09cf09fc38a20a725477aec56668f034a364a9f4a5605fffd33cc;
0x7d78ce0c1c87391a06a06c83d300d52524b29f183884e300e0eaddacd05f068;
0x25c7e8faf6c48a156cb91d81a997c6673d32694a3fdd64f5e9594e9f504bad83;
0x1f3cc6f65d9d34370825a38fd1f48f509f7c56171b9e7a624d9b0ecdf6ac4eab;
0x55ef271e388278b1aca34d3cb00116bd6f7cb584b3c69f0de2a7afc8d98deb8;
0xc1a324c49d15f87931821989b8c8437ea9eb46ed3aacf8895fd1cc311053e60;
0x2ebb6730d7bafeac23fc0b457ea824eeea3c55eca634bf24b2ac2a9a21483e1;
0x201e03f1ff672629473a24f32d2d502acdc8fdd2883014de74c98f40a195b3e4;
0x1edc57f174e1322b627c6f9dbe27ae2703c3f11c364b38188bf41d8ca0c1709a;
0x20a56fce37122b7400ab61a65eac815dd180f52fad2835f7fd9649063523881e;
0x1998147edaf3a92ab179c61ac2c36af5caf3e78bcbfb684cfea15db17b835907;
0x1cbfab7cb05e2f28254b230bfce017f005fb4f2dd8935ad11765b347d2003667;
0x151e0bc2110e4300dd82a4c92442c4751c65b294426c8c320c69e61831958ceb;
0xe59e1a990ec00f72edc37248349d7a5a6f7bcaef158110450f1e5985f0a5d99;
0x24afd92f80e57788f40fbb2b79f29454dc485fbafb5a7263f462b7c84b4e500b;
0x1b012224a4f050df841122d17c5ea4eded7c8ec2034743a432a2cee893976f29];
[0x173f895e472c4eb16a2aff3b8e0417fb32b83eb1e3233471c76a0550505d0607;
0x1123d3c97ff8e6b589d118bc40ca0b9ac12ae909558f2582551f7a42345b4621;
0x984c132b29a05f2b506ca07c06fe9a6584f36bb87506d2d316a4f353cac5f1f;
0x2d7af834c9cdf1b38c8cfed218f1ef0ce0b9908de9e7aa7a5510c4fb917a0281;
0x1b11713791ea4cb2e17c8c5867502043d0a8cf955384c1c793c506b75fc0db29;
0x26fbf1a351963fbbdab590dbd760ce6284273525a1b46c41f29226c65339f4b3;
0x27e68568e9cffd07f9253ef9dbc356251dc6b2d6a903d6c7046b5e90e1bcdc9a;
0xff215eb1e38dc67432e262df27eda7c3aa9419d5b6e299bd948e970fc35a62f;
0x118c3efe920c9c3f907c867743d35d2ccbff7c89e9c31bb6a17c552ef92b6c01;
0x17b39f38636d5eff5e06eff089eb56051a602bc8f4bf1bb0ad2b2cd10cf07138;
0x235132912db2da07a4750c5ed5df2590e718404aefc48be6953432f64424042e;
0x28a4572cb654261cf9358435923e65aff8f40393752748b76acfd2e3f5755c9;
0x21d7269a53d3712b20543b0039aecc9466520133d299e8442000b33184a39e84;
0x13f1acc389c4f8e752cc7e4b81c37ae2130c60df9c8b7e87dc5fb7459caf4916;
0x66c6090936f6b054f17dea91682954332b3e32d8f20a0ae171d417316d3622f;
0x492ae5f5ac2a5102ea96e60ac8375553687151ae44042dbf5899232c8f2100a;
0x208d814151bcdcddfcf835a958c259a6477bfe4b3392710edf9d80787a25c5d0];
[0x206cb038cc328526d0c3dc5af19437d83219751c5ee8f61b0e9e2f5881366be3;
0x160b30c874d9c06704c92c266c7a5b7fd966a62a5db008f1bffdf443b1099a82;
0x1b00faa85136b1bfc496e0ea9a6284cae525aa96612ffeeb514808955693879e;
0x175af5e50e5685ec2dbb1cf7a2cd25d45680f6cddf68d7c0795dec98b87f6a71;
0x104560e95c49febb7a030862edb3a33c2b2a3d414b0536b2e54e25ab36e8f281;
0x12fd67863b2e03b6fb45224fb041ff280e936742b54c8e54d3823e090e144169;
0x1db0e7e01722aad210e5296c36e9103e82d15765c318134d177146a1d9fd5358;
0x247f9c7fa610322535feb0676cff549f1c177d0d39d3f1eee642e9253aafb82d;
0xf705feba5f01cb27b27c104bc93f0c974f561fa26d5614f6a9d9e47d03bc655;
0x306094ecfe63300b2f95bc98a0406c7898d86852330a7b69f9b04b5404b3eef3;
0x1059db5e97f25826b0bbefd6bfaa6e9496c55ef5a88fefe9712691f6fbdf4298;
0x15bd998c2729dbeaccc29b5d6e4f0fd96ad0a6037c84a1a1a785169fb336fb6e;
0x21fde580a19886b13358f18a32d5aff685b4bd77d94f067f44f6e7a93350fd2a;
0x6823a9baa55623732b02fa270b2f887fd3804a85c1a7f2a355df3fbefc69dc1;
0x1b25662843b0986ab1a4e9a766193efca47c70d49364f03d50c5edb5b5517ebe;
0x10dcb11f815c7e29c66be1dd3c5f7602c98e9fb1687c2d825b48789c521fbd0b;
0x28f901fcaa860b0dc4192adef8ea4ae55af6ce432c85e0ce4d073e514ab24252];
[0x240c57897161666f28d000b88d3353921d967420f401ce86bbee42be287a4f8;
0x1361d27c42a7b4bd6eaeb98a339592616c0d4d8fceadfdb16468162bdfa88d46;
0x19e1e46536704ceceac3eab991bd806e347be40a0b7956dcd7037352fdbc4347;
0x121f4a18d7b7d9650aab625ebe8695a8079439f2ab00c090279de74726234e6e;
0x8c45f3c4c486f6b5378c779c607b517200bb70b5533bdacef18519f625b925b;
0x600cf26635b2d546431507589739010d1b757ceaae617bf95b8e1efa98643d;
0xaef8a4e47d5ec760e0565ae7acdabe7e8e98972de86dd2f447aaf216ab4cc17;
0x2ad0bd9f71e2785084aa0b84616b7dada053207c418e65f4035be66a0cdc8c12;
0x28d327a1c2d6012d9e69e9a3b4c11ad336d3c0dcdff4c5c84ddddf911eb645f5;
0x11afecc85590543bd2df8ab952be164670a3f32593e962d4bd493bcd3c84f84d;
0xb050c882073a581e767223705cd9510c04c30168c50ffe0c9875a28b6938299;
0x7cdf3309e130f9ceddd688af3885369fbacf6d8a44de4d450667c0d7641213f;
0x5232bf95807e48ad82a1eb4bc481e9b0720e95196dfe361f55c4d1cfc7926d7;
0x1e41936e6bc0c3ed665c2e2466ab9216b9973fe136d9f9aad95878c1b5607c6e;
0x2647635477ee5fa9e7ac5983f92db34d7336646c63c63e2dd53d60b8714bd759;
0xa11d587cb75d48544eec662ad27ca6acfec98f7a8b7963a294e4bb329b170df;
0x1bd639879731823c871f9cd4714e3cc56a6eb19884b73664eed24b11929119a0];
[0x1aaefc2e9925fcd453996fda804063fdab276b37c5f51dfdfef9255b4ec10cc0;
0xf1e8f86860c3b5c78bc14dfb67d22c6beb8992123658842f23f75ae3a92e99;
0x19c2540bbb1cd4e08f105437063c945cfef28ae9dd50b97e0b795f8dc5ae34e2;
0x21f08f9b3c23f3a02518114a96929b6d1056eb4d1db147ce0c8882e1b0f7bd1b;
0x2d2193c677bbcd56a74fc2ae50ab4f2cc69aa77ccfc33c7707452d5adac77edb;
0xf528f5912be49455d4323b259e30ce2984d8170601eeb4bd7096b47353ab7fc;
0x8c00c4e5b3467f01901f64f9f89c15bb0b90918d488b730cacc3296691e9200;
0xfc3ccef00d6a64080abbed4fed90b69c5e5803134c22b42cdca0a60f03ec33c;
0x1bce67f4dc99547f2caff1b5c6d63e3ee2565a404190664533c1c65dd9d8d532;
0x1a8ba4f37d2315389c8560d74dac572a4447a02145516287053e6b9edefbca2d;
0x115e60c4e2937eb53c6e4a5488f801266e84d07547a0b1cd91b18f49efef9920;
0x152d47acb9b06c9d12c2138a31416bbbbb991a65dc4d4f8ef91a3dd728e63b6a;
0x13602646b88ba31c0d544c757bd9181727835dbe690c30583a23f37f52fe5e3d;
0x65766d2980331a55c0a39d83be78bd127baee77d53a24268e064c71daaf2b6a;
0x26db2e85a9006ef5c11cd675a267d42efef9f5af90466b2aaf75eea8024b00bb;
0x1dd6b095cb68459dcf6bdadd434aa81f80a55a08e6782c653a93afd8a65f3267;
0x1d3ee85f078fbeecda2473efc2bedd1ba7ec6f4795faaeae3b0de48d3080c625]].
Definition tabP_17 : list (list Z) :=
[[0x196b76cefdcc7f6a54c71d40114a0bb82694c936f1573ac7ac1ea3fcce1fe938;
0x197fc9fb21309218eb702b935044146cd33407ed33291cc599340b271c399668;
0xe8ab972df74eec491e4b8c416b4a97c3fe65a38d4e76093ebed05ff3e7d750f;
0x17af7102238531c988dc665323d3e3348ca13eff7d006be181cfca573bd77e79;
0x1b0b5e35d65981e836663ab49379580a659e1dda0d8c49c189b8078bcfdd3f0d;
0x1aa303c6d0552d6fa013df27f7f4aa907d10da9cb9e0881ef2db7ec1a74abbf5;
0xf4eea81fe11aa323228b430a2f9021e2639d66596b3821e131cd8fd5fafa0a7;
0x1b47097a86346051d2d42d6810ee8f3fa3b992b90c009040095fe8357b6be24f;
0x77cdf97e2049e1764e7169aa4ec11ed314badde9e84218bcff380ffebe45382;
0xb4d6879a54ebc4b74422f70789c1b7a47694f6bc0f88624ad0141721a89f73b;
0x14ba91f29fb5987a1d3dcab55e35edd10de3acf4199d877b5c6623b5a6ef8d9b;
0x1fabc01bf1091b88001e832b7ecaee26e5eb867f85b8f1c083832b1db57537a0;
0xb4d4c2920ec03187d1ff531b4cc1b879c7321315d7aeac09b53bad9439ec93;
0x2191792ed6ddd6c3ea8ae009cfd1174fb9efc01482488c101502e34db953815f;
0x162b05a1204ae66ca80d0a89e10426ee4d757f9b34ccf08c1aac697c55245980;
0x251575500ce3526f4b190061361eb2576591f9ef2f0a7ff9a7005efc3c71263c;
0x4384592e42ace8c8014f728704ad93695e50a16c5199d5815e00ce818ed8081];
[0x1440dc2578f44694d18c25f892d98c23cfdb87a772200020e897823d4bc84d3b;
0x2ff15351b14d1b852edfd01a8ef108ab001a10c8d66e887daf1817a315289259;
0x2fdcdec10d3354953fa9ca8769a3799d001626bb715f19a97e772f2ba1abc421;
0x146deec0773f075175a208469afb87199d1b063c994b98125db22e85844fb455;
0x20f00881fb533be89b9246780df72a26ecb103c554b9b6fb17844fddccb235f7;
0xb419e6fc9348d7c69dc15b49fa148232740635cf2e39904cb5bf7e4e1c85292;
0xc6321d9f04dfd91a4fc850ab7d1f7fa66de38d67faac26599ac62c80784319;
0x12784ae3aa761f38e035e7ee5f21242e28df65235da8599d80a93646dfdcbe9;
0x1e09ddd18fdc3c46c7b2aaf6cfd942c62720cd1630b63dca72b42b4a6409c5a2;
0x2a71a3a65e49942b825245aa127bac8dde2a6fca570c8365d3251b146dcd078c;
0x197d178b0f91d12bfaef18f402635554efba7da59bf45f6daaf3eeba444c3bc1;
0xcf6927b15b1b9df1656581cabd0909b7ee2f1dca0258e183b07b030b5db3320;
0x284151191b230312298ca0d1cc6fbf122b435f7e8de25d9d1927322b0b5a84f7;
0xcb8f5333099700c6d37c787c67bf7fa6ad5e35c32fc1a539a8df57b910257ca;
0x15d5a61db8e06697df1da0f06916eb32d90e86ddc53d177abbc7ccc86f14188;
0x2a9b60e4ae169f3d5fcb4bdd705d89e0a9361e239bc3417c30a42ce645e76d6b;
0x883b0b606695b0c96a67ccf221ab0169eba895363e66ca88425ce3700c0e7d4];
[0x23aeeb0c6499b84bfc32ae3c42df9728798fd2ef774f1518b870bc57d1385900;
0x101e7e35808991e8cdb0627796f331b89f2646cf0263924aa6003460b351a940;
0x2bb568a99f55bea84bbf76dbf0f54d5f1331ffa1f62d686f3709a56662e51931;
0xceed1b75b2f6ef1438b751e8ad4dea24f1a20f1d9a23589772db49baf9932f5;
0x2af501312e1b653155ec7f8e0e59649b2d078f5ce5121be83fa716e1b5dab2be;
0x152fdbabfe1a0ded6e2ba5497e140ecd1dbc9fa8df6705237fc8c764317ac751;
0xdf66c437cbccd268bdc448cbb706f4b179ba223b6bb87a921094257baf2b69d;
0x15e5521c580b9faa337d9ba06514ac965c373a2e604305b8efb0aad802e72a21;
0x9a09a903ce4f69ab99dd47c16087feca6fc2126ebc4cfd8def7a0253303f866;
0x2bb52dc2028e9887b2a82271ac46f7800dd147e706370ee5edb35b9550cf71b2;
0x9bf3d01f97e22646505f76fdd396b026bc8bcba0e0522ed2ba3079d301fdd88;
0x26b72c368b0bd0103cb7dcca08e68b4446ee788ef6114f6ba899202f1f19b5b1;
0x2bcbae8d5471d562e885b4b185b56ae0fe11ca5bf5461a1e0a41205568525f43;
0x805d6862cafcf5030ab30262a01f2c65b2b7312ac9279baed50c177516bd0dd;
0x2b8b1aa994b54ee5617766dc812d15d3cabf187d8db4ab8da85130f73f01e746;
0x1fed5b75b01e9f4af01ebd30a6f355e8b2cd88f19e49892a19403a895fcf284d;
0x17ee0034bef77cbb115fdd75be9880008af568ed633eb7b2abdf8361c4357500];
[0x1ed9d3e9276acb7b4dae53eba148806fd9bb07b2dd06187212fab7dcbe63d72c;
0x2c05638ae2f83e73ac9b1bac220509e30ff5757342ccad17261a4c30e3bc634b;
0xf1fa08e424e4691c66bf0a524b81e886da234ba5bbf78cc168c8a13353c9654;
0x1ee32a96f8d3e8fde8ffba0fcd72859847861b8143052e212bb56b103f6f742d;
0x20192d8adf841e5dc110994238180267954de29c8953738ae196447acb182a7a;
0x2419a609a380157d9f6c6e64ae2cfb6e4b39e0d6ec0661b546c1552a620f19c8;
0x3ce58f147c681728f2a2af586144d470e2231e80161f97200b7aa6d624b8bf9;
0x12aba963e415f9bbc95c5f1ca8affd59b6c6b03fcccdccb417a9d89a4eebfb32;
0x167f26eedae299f0e56157c8c7fdda1ecb48f90e553ecdbd4ef35b92ef9f39f9;
0x486a139560dd70e9054321196ddb973e7db09350cdacde3c1c7817fd2b8a46d;
0x1e4a632c34dad41873c541c5caeda02bf58f2127994bca0b0780bceae409256d;
0xa471e606e256e387d5e44d8de55dcdd833b364baf00a694b52e3c10f21f814c;
0xc52f1224066c212a3667bb2beeda181ea00294c5aab9348e5a71d696c8fcd20;
0x1b2e51bf0afc16188b7ec633248eacbdc550f592c742edc91b204d49dfac42a1;
0x25da91e9be50e3762edb77a90706df802461c374a7b90fb2ac018930f3b23518;
0x29db9bd9f3940384f177d7634721451ddd0c6a868fd047161c2358e9c305ad24;
0x7062de34f5c74ad5822948fb7c476255fd03a13d9d8781262712946db22156];
[0x2ff57f3f7e95b03411db790a86647467581197124d217520ef2e6332a5b35185;
0x27ca7b8c33207e75a42cba1237e0c568d3b31f475424d23a9fd0ba6ef188df9c;
0x1b6aeec49e5936a23d2182de5ca78ca56d4ffe8589d3e77d07a34692a7c5b44c;
0x5e94c1b81bbe16e77c7fd2db254949046cb85834c34e0d8986bff72ed22f6f0;
0x24a01b8801b2865c3a3d20b6f31df95350f5caa9ea158b3ac240ceb81c8f6cda;
0x18c647eabc6fb45dec61bdf9007f83863fb6b7827b23437e10e49baf8e835ca5;
0x523cbdc5787c220da27bcd517d57bf3b31cff9e4e2e97299d44d9f838d96465;
0x1799989ebc4fbcb84e487b4e42f0e4500c309c2d90e740d03f8f9bceda208616;
0x254d90f21c923e30fcb471688f64a6115f0f4340b744c5d732a077f5fd6b46aa;
0x10d8f1c90a94db10a7b730d8c21c69e793cc985e1ef2c62b8815e65c5fa91962;
0x1032ccd20d4ed4502df7faae0b2d9bf2c5368304a24611597d7651733053ce46;
0x39bed2152c1cc38fd8a0addd226c2b5d53097f83d826f7e9b9a3556a32c8001;
0x261d68c368aeeefc167d6b3e2d22be484231b5b800b51394133c7baeef2f879a;
0x28893305254197bef603078e333db361dec1a7775813bd95d39e386729cc665;
0x2f570c80d99ea49bbd76c199e961db6bf59ba6e0a47683923716f9e10e913221;
0x2318f3a1f9ef5c6326960014e622db56d8adfc885e3d0bc2d06e86ec07b156c4;
0x7946f795fb6251bbe041138607f0ee6e1243dca71d592cad53f634dffd91ccf];
[0x15faefbf8584a38969b4a719ffe5f02c2191a8cceda0b775162203d30b80208b;
0x1dd8c52fbcd6e06ceddbc122ffcc656e4c28ae2e88b94da79f3a276bf5fe2acf;
0x2915408b3b7c2cf127999ef3a84a0a5c2de70e75bcb06ebac67c73ad36cd7153;
0x2e655f7e6277f2147665a414632eb3a418acd90f6a29748e4249f6713d54007e;
0xe0dedcb898406ec36e1ad2e3992b99c8b457ccaba2105b4436ba840e89bf0d0;
0x270a85dcfc9c8f202cdca355246fd989551495ec57f8b6533342e3af8a1e6d85;
0x494b4c62731baf8f3338f2cc0dd934f82606e768f563a755cc501504a50a9c6;
0x17061fdaa032097e06c003d9d719d29df4c30109d6fb86def324435e8176bbe;
0xf9e56a5af5386c4884ca7d0e7792a22d3b96a801f3e8e79a6ac6578c1ee0a75;
0x24a746819bb8574eed44e23319cefdd09c0e8c2dd1ce6924a63ffae59eb1a905;
0x703bfec7b532b9135f72a794d9e3a3c6ff665c08d590677026a06cda66055e9;
0x21bf1e826a3e2141ad2cd0c6b286146b530927f0ddca59fa78d06a36564b7a3f;
0x2f678070c83d71945038501c74ba5968b131939a6af6edb297de5f345e6692e5;
0x1c30abb88b3fb7fff8e97da6107209d608fbd9f2db97e61d74dff19d3e36f3bd;
0x2a14fabf9e37f4497914de5868daa628ef3347a611f675d94ef67fc317e28328;
0x9ea8d820c4e6ee47a4fcbfba19cd94e915de9dda25afd1399c921b1b7666854;
0x106d7b2ded46945b3901ef651245d519ae93b8d2eea8160970ed07fcb6f58015];
[0x1e6eaab1191593de0d89cbb2399ab8aa955d829ad959428cd539be30b72fde9c;
0x12f17c280efa40df0fafdb7148d7ae86b6401f823e47854b7f11c0a87ff00bf5;
0x2fd97c7d4e331e328d3eda047a68a64f7cac867b6bd3795e2932f350644374a4;
0x2c1c8f60b63e8cbba016d475ba0483d001c70653c1ebc256c51e18975371cf08;
0xfb2d646b505c61dc54f56fe9de66641c6797e59e860528aeb52867aabafc2fe;
0x1a44835e3e9620a13fdc072c1212e942ee95e683d6c07ef097527bc10616c622;
0x192e49c626530d5965c53dc6e4209856d71226aa5021b9eaaa1784044c8baaab;
0x80fa9dddf985137bcfe965068449cb6eb36b1ddb1706d8632864e954f5ac59;
0xff1355d96389f7c74b274950b3f70a3d74bbfe992860c7ba6d9066e59260c30;
0x237f4f3d794bd3a23cc52c74e0ee10dca1d4edd90a3a519af54944ac91deacc5;
0x1c94985507159d367f2aa5a1a04857bd44d205ef8439b844386b025976646bd2;
0x286fb15e9ab4224c0319add3a16b8c82dc71931fe3be2f4b3ff0289a5319c4ac;
0x236262438ed3acbbf4bd56c39d12be65fdc0126562bcd5468a49da6ba33fc9aa;
0xf695879295d610d1edb0da7c3fa43c3633e2d02d2e6af6799a2da41e41c3687;
0x22949d27c373e4447e9814d6f189d064b3b092b4480f8d21c8c12342a956cda6;
0xbe0a5f05b6f2deb2fb6bf836805d52d9ad224e8bb8af6e0ffb194a49ce026f3;
0x3070888a62ededfae0d72f144b8ab370f8a54c52597db33d98c24edf1daba0d];
[0x2a3bb020c8a50d310ef5b5c77cc408b077fe2481454754c4568ff668fe5f0974;
0x1399820ddf4829a24bfacbe47f56b793117f599efdfcf9e042bd5780fabc29c4;
0x2303c2e89a14828a19a9f75d97f17fe08b6282fbc090e6dd69a4d780032624b6;
0x1f7a5f8fd30b1f9d7f5855c084e8995367889a1a076da17859cdbbfc8301afc9;
0x14f79e9e9c5998e8cbf5a2f1de18ca7707f5627b5637dcd962725f8ea1804d3c;
0x10199cfd4b1cca1f0cadacfcb429b44bcf83e13ccc098d908163aeaa1cf5a9a;
0x34459376fe4246c7ca6f298180c2150367ec05ede0dafdc4806d34e44c180fc;
0x2933eb342796a75af7e1dc15c04904b5f68bb56ac0478a85233a588509edae0e;
0xed494f6fb5598ab0a0a7c655890ddf4a7c0684f24522d2af98dbeb0204791e3;
0x228e31df905565ece7246c261aa5b700f60f6ddd5d7c249264748ab3e521a20d;
0xd36f7669a52260da523b388c608dc283f107e9578e0bcbe1e3d4201b6d5bfc;
0x2ee63ea38cc2cee0e08789581cb31eee9b112dd61e4032a8beebedceb6aaafe3;
0x2be13746d4b19b770fe382bc7e7a56e805c1ade0c9236e3e28f90a5fa874296e;
0x916249fbbb750e41ce6f9475e6cf6337ca4ace63f7a4a377c14fda9c7b205ad;
0x17855df635fe8e7fc7919412106e9852ecc57aa0b759b490cfc4773078016f53;
0xebb48f5378773ec048ac3eb5c84d44cb2585583ce45ff30a93721d70f289d0c;
0x33106bbde7d027db2f728b2563a62d3d6f8a02ae114bfb8a2593c6a2fc15524];
[0x51f815c454b6015c7ebf90c297b90e9604cd36acc6af07f99b5e51fdeb32234;
0xa44004794fbddceeac78010d88b2146984c75553cec26164754d72598358b37;
0x22423aac5a0b511923d747148e091d1945c252a77e51bcc62ee173c5483f80ab;
0x1e14c0a17f23e94ac435bb7f629c6c0ab66fca8c4db085fc56be0ad9da545827;
0x1958d6547accfb884d50229a4fd5b234a377f5c671fb865170d0a393680ba3de;
0x14bcc6d4b8326e66b453691e5c948a80a618b4f7ecdc3a380478d43dd4075ab8;
0x193025256b9871e2afebc966ed68f38d2f906a4870652805e4246353f567c5bb;
0x1e4200bffb9ca4e47bb270a09e8fd994093dbd4805c4cc15185ced28ff872e10;
0x1d1fa5a83742eb9bb853197f56a4732625b2474e7aadb9311dfbdc0f41ac61be;
0x2d650daa87c7e1c09b53b10595bab1e14c32a67142092876c57b4ba68efafd51;
0x33319bd5b5247a3cb7f63dae46dbd8136f3f3a9b4aa0a232309070d718f7d47;
0x26e56b19e55c9bb5df436c13eb6deffab5059804552442370be53a951b0a9e22;
0x1a0f0930bbea65ad095174ed8aaeaa84628d35471bdad37bdd624d2eedb6bf14;
0x297921088a94bfeeea233c91483a21bc59982034e0c8738c6526cd44f9a11306;
0x1082b0f264c61f37b71fad404cbc0207f809cf8002a7e39c0290d88a48120356;
0x25cc52901aebcb35f9ce47457bbc4507bba219c88a5bd1229f6dc46c503c769e;
0x2ae1b5b3e89117e08bb7385e0b711de334e8fdcbb50ea4bb3718d5e1a0bc8075];
[0x28b75c2ac167fdf184725317c7bbb8083e5ac5bba937bcfa6cefcb69e4048bf0;
0x4eb2ffac1de16288f52a4b74101cb73d53addd56bbed326bec180ed2363c224;
0x2bd52a360f3328d5c98a6b2de15df151e997cc92c2c72e542819e317c0ee1d2c;
0xff14782906fd866584bb5e93cd18678c22e320ddc66d6fe0e917e18de1094f7;
0xa4a053ffb41f84af21407c6151dc5496a9651a519e317664ecdedb017e3c50a;
0x19dfcf535e723327add95d36e7276afb472408699d7212f34abe32f808b4d292;
0x155dd9ca7898b0559b3e407149e6dd64bed6f9811d59b1ceca7486a110ec99aa;
0x2d9c5bcd84c97759e28dbfdbe9fce6b3c1cc7cbc9a2e35f2ce8a8bdc80a3154b;
0x1ff3d01d32a70fa0911119ebbcb4bcfc1b4fc30b2ec2298832f5da4dce3d7a4e;
0x44ce295745ded1737be0bf68729d669efc18e7e9b55e6ef65f895e2f9e95056;
0x117377429e138736228d8762c8c6567a936980b7c043882adad3951b9986859a;
0x39c17d50605261dabc76676120b2b889ae504138ba722976d8dc822bd1af974;
0x2a6f067cfc9dc40850f552ab42d6c096da045f8039453d7a9e028c39f2f1377c;
0x1d7e961151f8a1d1f6092f102a7c911194618a3bae9ef78de349a99ee05ef476;
0x20431e5d3bcff4bd90372a1eb637c04536317a81b02b48b5a3ae45a4e8380527;
0x116b0dcbc35fae766914fc09cfc359051f626100151eeb2a762d7a0738132a30;
0xab340604e81eb37a5dcbf1e7d5ffde8f2221d60b382d43cf75a0f1360ea5c72];
[0x23af324599683d9b71b61d093d63dcbbd97e44957333d2697fdd060c1e4b585;
0xb11660056e02d7f845b79d49bfbb685555febb54eaa503d987ca5299521d16d;
0x1f209382e3fcb44eb1b1c03dc2be195b3f92faa9c1ae1a0b57c4df69e7a53d51;
0x22e25afcf23ec18a36471d593ebc8d93372315cd666db66bf398f7730285f9ae;
0x18eaff4c9d5d00d3483d7b0c74551a4487c452cf672e6a74ca397be38f5d793f;
0x1ebb9f7b5f7f0c553b03552d104693515ccc17529c6c1a462c0c24473630f678;
0x1212ba1ac3bfe0c08096c503be351bbaea92aa3d3f6c264b73c7ceda7f8bd721;
0x2f0256f9b47269790f3f2b46a7ef2536d8661dae60d50a61bab58346e83885c0;
0x1b6a8442e48b709797a514e36c1f86b13a413eb1f7fef458887833ef4b482124;
0xc96e617f36391cc516eb3631eb8a18d4dd10d17135bd93f450ef6ae2a945117;
0xed9dc15c9f4a60f8150e367ba71a4a37a9cb50c9031194f55850a1e5e325911;
0x2b8b201e13900e638685cdb4d07c110a8f8e8d500cee83566aa733621cc20235;
0x23bf4e044f678ba1fef62ce070897d6373914ee936f92a2f4d5e09890e238e34;
0x22c93d459ac5db54f2b6a4f267b5f049b976a93d006b88a98a5fc0ea39f53a72;
0x1a54b0b47d98fe83acc4dfaf83b8bf7d972684923d5c7dcea9894b6a07d934ab;
0x22ccb3842b2d75a33b65465a5dcece6870afabb3e3401faeb6504de406348a23;
0x1e9abeacdd2ff75cca093b6d8826a46d8d2c05e30d1d3995da76a4a8ca9d2824];
[0x5a07868a7c95f50a015879fe7cdf1eb6c317e4d489d4515208ddf40a32329ea;
0x28c53ca5db5ceccab548d154ea6071e47ca73b6cd4fda7e423403cb684d3070e;
0x651a487e9ef91d9c4fd75178dc57aa1f76edf56c4c5c2ba6ea7c6d919e91440;
0x16d216f97bdea9f8b01025cb47acd5d03e8469dc6b558a235a23d2ba8773c71e;
0x2c8a5c7f394b071d0f329d51e451c8738f896a2b8f87c6eb3eaaec71ce1cf71c;
0x132175ccda95488f348ba37b6c3641dfbca9e4247ec43977e279f844330cb694;
0x28eba78439ba284229de2b1c6124fdde36323fc82805988501337a3b48aea040;
0x140f550b1cfe4079f7c44efcca6515f70a9ea190d2cb4a2cf116719737b15621;
0x1fa08142c4cf49ceb13532ff6f1c453f9ac4035d8ec5514f4f3b52c3dea9bb0e;
0x592cf45e5a2dd382f1c6ecb059c99232e2b52bac5475c10b6669698cae88827;
0x2897ccf4f75df225ab5b1c79de477945b24f2ea127c5cbb37954370505957a31;
0x288ec4309c81a0d2ecf16c037706ea4d526d717285ae02da008d14cb8ea23ec2;
0x12bd882b0d8af801ae2579a884b11f80f1ba15f48741f61609466bf04f68cefb;
0x2bbaca431e1d464281a1e6f483cb4e9b2002d0a0ba1fa70b60c1bececddb1e79;
0x173087cac123e07a0324ea3c2231cca859d7e4d112c8e2f4dc9249551c941007;
0xbabc1aa6aa0d7b234fe81651f7b6d616607fa766534d5baee6f63bf02995fed;
0x233f5274aab1d107af4bf7f2b7f4d57d8ee0936005a3525549cbfc75697ca640];
[0x2c5b4a65bc55ac5fbeebde53ce5fa68882faed2a92a7b3f5732832c72f7f2c30;
0x17d5e7e1862b3708cba3d41c556b070da60b73fc3ef198227f2dad5b202d5c9a;
0x1d7ef8564a9ac7dce945477d529ace63481ace463a86cbdc1140645ed57d0b3b;
0x1edca4960596d41548199aee6040d39d814e4562492a070730982f9755615117;
0x258655ae996ae6e4deba6fecf1190c2afbfc1dbe82454558a18bdc9819442f05;
0x279a42b218cc556132ecaf5666c04e89984f5ffba4225281d3261a48bec6eab9;
0x24605ce4aaa33a0bbc08d586cafd70bcf4c635bedcf98afc3fb0dd32909e8ff;
0x292481a792f2dd4979b04822d73eec02e90c1e4ea42ca5414989ba04c31529c0;
0x19f8effcd417b79016b57398a7bab72f946e75d8628f569f327df5c6832907a1;
0x279c71db7cc16b9c726b934545c2fdb75d956d16f89210aedfd7dbb4f1d9ecfe;
0x16f4afc47a61df3374a702f2800a3a39fb4450a9f92e11e240cc6d76c252de41;
0x1ba7d8b083eb0e83cf9178efe8514e612a5d3905cb9e4279b1c09ae53e8cf23a;
0xa1e2e12a51722b6e0acb9705c443d148b1334dd897185eedd4c4e87170e42c3;
0x1d6b7bb51eb9ba719799096e5e0c1aaa594456cbf08b2bf9a479279f7524d3f;
0x1129fb969355253e7cb31fa942978db34b7ccd3bc0d0cd02ba6a49e159d1cc7;
0x23e3f31479550cb197235af10741c376d326f85881d1f1076882c928212f8b9a;
0x1ac5a27a1a2ea0d7035f74d3a9b54b671e58711d79c87b56d32e40983b62c8d5];
[0x173f895e472c4eb16a2aff3b8e0417fb32b83eb1e3233471c76a0550505d0607;
0x500a676c5cd159e6351ef8d2b567646fb4d4c61d3c0b828ec201d4f425991ce;
0x1aba42213aa1f15e7550ca941d9bc485e195ac204c5036afee992a967fadc501;
0x20ebc05e620d2c7c362f8d7916ed7e3e12802cdf41c87b06790c40f5efdf724c;
0x191531c0fa2c547a1eb51cb026e79cd663abf458a2e8630e83c1f11876aeccea;
0x1ff17bff476047fd9a466842c8fbd711c1b3c1841e109c687ba4620ebc49969;
0x17d7ef1f4f75295cfe214dce7fc21dfff13ff8a3c7bb86224c8a79566037179b;
0xbc4494e3d58cd6841d0aab064400e6ae8594c35f7e9672c55f283869e0f3f93;
0x174a4219c4aadec5921ae738b7cb40a3219ef5dec8db3bdfef39b373b224d38c;
0xe989d36297ae2397d85b8025bb304fe42bfb8bf93108996d2ba13968bba9874;
0x1ad84e6a15633eba89050cc15d94e459a6c2d42825986f9c5803c66f08976329;
0x6f0eee01ada409058a818ba8369498fba956e713a7e9372b4220ef15f954a99;
0x74a08a71a7e34b1031b63978e329bd0e12ae631100f24fcecb5a60bef5c3ddc;
0x2185e4a0d25570c435162266b565c1db0f23ce4e61b85b8b8a1872517754b632;
0x2bcd8e3cf988891e58bf8b8d3a259ce52f86de01bb8e6c4d49dc903f4b3ecc07;
0x2027fe75d87804599fb66c0d65b287c4e0582a4e8d84bbbc85c6422cfb5eeb9;
0x1e2dbde2355a4d9c61ac0c0db87447c67e08550ac91bf04d96790142d88cdd00];
[0x206cb038cc328526d0c3dc5af19437d83219751c5ee8f61b0e9e2f5881366be3;
0x255fbd250e6628c5eb540c311936b282c52204f56fe81ef75c398d9f0adebe12;
0xe14d98de84653e22efab29261c9a36c207fc9f5650ec1a5bdce6ae992239e84;
0x1342f46c9e240aa8eb2f1dd6c61d0bc79fa6cdc3dd8fa67d79729b02343b6df7;
0xe41cdc0db95ad5d67946f0ff028aad8c3a3c88acf10519e736f9265ce19a2da;
0x1cc6d37794a5bf901341db685e790cd7f7427b669069e4d320efae1d55bd7157;
0x117c39e46a1ae3c90b26b0df85078ebdcb66362515c74d51cdb192f789c9cfc0;
0x2b4c77d18677eb99a966913f7ba7b478ccda159d0f61a58702e80f4952b37077;
0x250d35fabe31fb7fd1719ae0c13cafb64e706932fecfe47e475034289443f240;
0x2c712075e8848b2d26f7c8c6f7accba81a49800ed3515221f03d845407b1e1da;
0x1d04d22563bde8bff1b425e9bf113cfe2fd15dca666b9130e56511462e971465;
0x135cce03597dd23591aa6fb38b2e70ca41ef91ca05997adbc11354cd831d57f1;
0x24716ad2942c2268df507e25be255e45c00d5dba96093df6c63c8a4df733f0e;
0x11cdeee1ba873dc61888aff7be54fe50e03e3a4a5ea0f32c6acae7d15d9f7979;
0x1ae588627ea2e0c046ed4f6c208f29803a25c9b2c0c385be294b9c25a3287e47;
0x8e0df227ca5a17a9081c60caedb5435a8aff99371a70219715b05800ef811d4;
0xa1cb35782612c7998afa40dc467fd39c882e6b3dabab079e63c330bbc8e5f1c];
[0x240c57897161666f28d000b88d3353921d967420f401ce86bbee42be287a4f8;
0x7c9f836c94eef4e831b3126c06a9b4ba19c11c7e886f65c0d6267e07882dc57;
0x156f5afd193a11d87249f3422912980daacb8fed225c60a5bdde7c4d93d5a019;
0x203a73837d577d910d3bce1b15fef96c1bb522d4f02cc4032becb907810bc85f;
0x217ac1a2f28cb7bd2509d90ee4c03aab4094e3fef4741cf4015e1e823f71c0e;
0xc2e41be00d98a8dff8b30f5dfbce2708412e200682bd596b2162700a67274de;
0x1fd5670b294ced78188cfd816a41358ca32bbe8e024a2a200fe11d060f8c5e1a;
0x2884fd57b70a2305bf5b94c325b01d03f3cc2e8901014e0be3dabb984514863e;
0x23e772e0725ef73aa18f59f934dc11bdbf5fae9cc67fa18a2319ea13a69b9c4e;
0x122366ae0642411af291571a8904f0b6c6fb11d1ce750b3316ac35f310e5dcef;
0x1d0b0c33d83a40412cdaf42cb7ee8e5042d9a73eb17a0d5867a3191aeaea61d7;
0x8eefbab2c1c522367f543c33400cf254fe07711f94e9036a7558565e7305c0d;
0x209ed5faeeef4d1d01bf753704574d34febc7afd299a04430bc0f8f0baafedc4;
0x1cb753a0f4efe61b05e95e099e4b556770b364873d99e1f77e38a53e9c262673;
0x2a32d7716eba1cf93c98e9bbf805b0e4d27cd7e3f26c560beb2aea41c1782d8a;
0x2936d36a869b8b2318109412bef3c1a0407a8e0b98b4959ee0b624c116040494;
0x281ad4ade7262394bc55b71a8aeb4135af3b0c2433070cb0ebd9ec8e20dc7280];
[0x1aaefc2e9925fcd453996fda804063fdab276b37c5f51dfdfef9255b4ec10cc0;
0x2eae17dc561c37084e990fd1bc5057d96e7367c4b801d27f6a6ad8e0d0c0875c;
0x247ee52031ac073a81f56a957908c200477513fcb9853942a62b06fb6eea3bc4;
0x275602e8ac1136b245f551cb053d7eaad7dff488df3f645907a5cb151c553523;
0x6143a7c97a91838b0ad68065370bc9503d3e0c8d11f2a840b2c32c3fe2e79b4;
0x1f3aed03d37f7b14629aa2e5f086bdfbac862325988c4da943f88f4313647df1;
0x18fc0aca1d4a45978f6e3fbc4a35a2579a4c12eb6ea700f79ba56727bab87117;
0x97c4f0ca6dfc073c84e97fd4b2c341ec3c45b6f716700cfd7647e423f5e634e;
0xde5765593280a32bbb1630216e58d1d669ba575b7d276a2432d9c6ee302a5d;
0x7475c2b72238b87b0d8cdc92890f037dad0bd67a3c741e5672bc8677a35c206;
0x244e984c6f2f2133efa9d5dbbc1c60463d26f7748650658395201b367a39f554;
0x27a55f5103ad08547128724e6c20a4ae7af36be03567e4efdeca9880214d42a9;
0x14b2c9ae1ec7a0c1593ef29e782b063ed48e580ddc3255c0a1f081e69b634448;
0xeaf70eb10be27fbcdcfa7ce5e1b289b66fe68a3114038522d61b435f17ef209;
0xbf40bc87a391c052a56e43aadd307df751dbc47ef7c6c5af3e7bc4ce0dc942e;
0x3afb962f8ea2cd1affb52a50cf59cd5b1f08f087537859e8a73524c3c7758e2;
0x240011c27da581b7e91efefbe8f37abfa3c6e456ac5a6da05d4af4884287bea3]].
Definition tabS_17 : list Z :=
[0x196b76cefdcc7f6a54c71d40114a0bb82694c936f1573ac7ac1ea3fcce1fe938;
0x2cbd265ce3e5beccb09bb3189ca08832cd4fe102f39f9ee2bfe851a8038ce383;
0x1e0217f13e7f212053e2de966a7ad7fbde6a7d47335bb58b2b148ac4ad7b8cc0;
0xf885c4008d2a4c2992b3337f1c0eb3b21bc5569e7eb6aede116420d33f981e5;
0x2e9c594b2023ee628c88f7a8cd002e06fddca13a014922ea4fd489d7f00d0cc8;
0x217afd05c2e55b85675cb39f0aa486a11691557ca9ee1b7ee42f06952bdae058;
0x1f8f067c1602f54ba576795e16bc269cc4f34416fa619920126eb16da9878c5;
0x25f3633c988971494c6c37a0de4b737a88cd5be9c14dfc66ffcc4c5200c3d6fc;
0x18cdc8b1d7543efccdebadd46b6e9096117758a3e2c638bdab7767e74f88747c;
0x1cd8be04f1ac72a0b7daaef83a36e688046a41b7d4ba83aa5ef3a3a4de8e58a5;
0x1a31f69bd76c670a3183335cf97746f6676698514467df13194007eaf8ed8b8c;
0x2ab2c3d35698ec035746c4131c8d4cdae3be77eac56e708b6fb6a9832afb3869;
0x2217b8cac3e14934002e24683cb6fb96da2b282d12447fb97789670e716b3bb9;
0x26d8ecc33cf52610b26d55145f298e5a387c1b4587d44bc89afd2ca81a21cb70;
0x19b5fef4d9456e93fe0799c1b568e2f6deaf43067e119ee89cce7b1b0074e8a7;
0x2f0ee317d5a1d6c6d6c8b01f100eaf5389bffe269131af9eff36f71b3cb7f4ba;
0x1009a43a6a00db52b2d0e325312220738c996b79414b70b2d04f61bf8475759b;
0x2881d241ad316ea5b04bb05c86484922c0b6c6f01173a1e84af83d8b69bd23d2;
0xa3aa81c611a57f509b1f971352d680f75a03361e74a5c12594987287972c39b;
0xbf1eb01ab9b46638fe9d0a135105ed65848bdd9929b93d37369240a6e5ac276;
0x1666fad124b64cb1b1fbcc06ee6180e2d3d98bdff534ea0d4fffad2413b15925;
0x13006947e1defbcba51ece18add637d08c38b973232ecc68b6b2f7fcc0e40f7e;
0x20cef2fdcdcbf581527d5fdd9442d7d80e8c122c60aba74a349e318119a9b077;
0x29308abcbb8c3d71812419611e6e3f30b64b8b3670579e5f7e6084c57f8180dc;
0x20a651bd8eff8989f70625f7e1db0da19b408d63385e63f8b1f066d0c3912e0e;
0x2fe8775003759af3f41c2f923f0b683c27cf89bfa609ec6fc26714b8fd7c5ea7;
0x226d37fdd9023563a4d6e2a3bbcd23137d949f36b2d9b1b8dbafbc644ff2371d;
0x2f11eaf353125b5b7110a75fde384c14365c2e2cbb1140f8b520204118ce6897;
0x7cba6d14f09fa2eeec2242ee401fe0fa089c28bc77f02f0aa90a564c10b4e29;
0x757d39b861897f4ca863713452abb9e6c14f8736417fce8359c5b4dac5be0b2;
0x58992f42ff62ae08b3daca79a5ac83d258272802dc6556aa757b390ab22d6cc;
0x1fa470cc67647213df51fc636fce6b6e69de3a665044696f6bda9316fadb5a1f;
0x11049230da628e01b2a11af1b214327c58092bde0d949e8c08a0c929b39a13c8;
0x196b76cefdcc7f6a54c71d40114a0bb82694c936f1573ac7ac1ea3fcce1fe938;
0x29e2fa62bb11282bff23cddfbd44a2d9fca9bb0ca099f34c63153d32257e8f76;
0x2ec58445b13f4e1b14d47aaa8d3c01489e81838dcf6a8fb2e79ae1c420dbac0a;
0x2a26d88da92db338a1de3d64aa9f78389c45cad24daeea74fca5c5721cf0b079;
0x25240495a831b1128568257ef0c438a227576328351ef52cc3f6a361ad097666;
0x10356b86c6b5b46fd0913fe632fef7bcb9507005df6fe46be9089f96008fceb1;
0x23967538833c9bf2f3a2387251089e68c81a47051f8c3154b5863fe78a6ff6f6;
0x3dcf91d2608f94783343c6c1c9cd24847ab2cd6778f568418527be40ac23e89;
0x1185195857959b965104d24285d2f83365412ce31a6abcfc936d74af9fb8fa13;
0x14ef1e17d68e5cbcc3a90ead42b8c438fb56b5fbb950d8883c2d1660fb2d1ded;
0x1175100c6ed2ddf68ba552b4f40c27047fe02cdd2b533a3b9975454399294205;
0x230160f538e3585cff4bd3cf7b4fe333d2b2a35738fb135ae6dadc075f92ada5;
0x88c4e4fc1b21270a933a937f739bbc7b6e7eb3e316ca1b3ebe5727e381742eb;
0xe3e345debdf5cfbd7bb9a4cb5d36d89c20713e43323d4341795448aabbd76a3;
0x1a4ed87c8037af1d025638bde6b974caa276671abbaf0210cc7e9db2fdc9a345;
0x11ed48467664df00548f3cfc70eed4039f6a59e826e73dc4b95990c03a313829;
0x18ed0bcc41aa34c5556a7ebdf27ccf1a50f32561793053215a03d931c4f72eb0;
0x2e73e5ff39e58205a16e013ccd0dd935bebf06505cdcd650935840062e8b1f8a;
0xf66bc73e8a87b0b028720dc420534528d2fe5609bcb3d600507a6c19d20cd59;
0xbc095405abc012247bc4a7277cf59e25e39834bd5839542cab959ad534a23f1;
0x1fc384fdb89e274dad330eef9dc51855c11fdadb0b9b052fa220eb3e38d61254;
0x2805a26d24644536da5f7e9f5071443189a5f102b92613098a8c23dbe887cee0;
0x2a2eab082079c60e24bb5dbe3549bf6390708e8ccd034a2a94a71aa9c414cfa1;
0x5aa87bc4fe90cd48a59fcfa82226cf759ce8f60f8c208cf9632a28ff7b680ed;
0x2038aefd81a73ef09b7d0fd466d2b3c8aed99ad9ce559eb2aa80d7e06996909f;
0xfaf97c7bbde99e8853c67af9e2187b8ee3708e48da3446b3eac3b3252a057d4;
0x5dd570bb1e0feb5e6f13b9dbeae629f6f3ad06a365d9ebcbd2c120c6f76deea;
0x124548796b8905caf386a61bc868d1467251cb29948ff1f3ae4847c724ab97dd;
0xdf9dc278a65d06f8c477dcb8b562c262dcb7f9ca4d875070b36e9c2e7fcf277;
0x725e0e87db61e62269f56d25955fcfea65fd3882320ba3187611e7bca42c2e5;
0x2f204d469d9ae7b364fc44f2959956654f613f60cf669afe7b69a944b6903390;
0xf4165ffb8c3cd0c8df2a1cdcc6d99d487b204cea36ba8023e6a17c90c50d3cb;
0x1ab6363cc8e8594caf364c93385aab21b86de4aea09591b34df2152f6b663079;
0x196b76cefdcc7f6a54c71d40114a0bb82694c936f1573ac7ac1ea3fcce1fe938;
0x273626b708fec9b5d1d1330bcbb2d80d97ac1c84b89895de0628a0f15fa73ac1;
0x232c260995bc29571e821068a7fef290fc1fca974214b45cb6eb63c02f56101c;
0x22a91317e4cd0f048e756b7b41c10a9a10f85683df9051b1aac41cfb73dfa959;
0x1789ef31e5469c8fa9e265becaf3f6f0b66989dfdddfc52491933f990624062b;
0x27502f81423df0f6f223bfcb038b0347be96880b4d9b26d685bc87df88a12f80;
0x15944d6894aed7bdec1cebe81ea14066dc63e49db38b79b63b5711cdea0047de;
0x2d5d79c75632ff589cea134763ba602c43390e05fcb6ff8e91fe8376c327cfe;
0x1f83f223b3a559ac092b5ce1bfe95f81be64ed69bd2aba06181f9962c09ce680;
0x1d9105ddf213b013cfd5589de071e9a19becac29cbd9f5699314f7163f14f642;
0x2d8879a2f005d4829b5439aa1630fe03cb581dd32be37ec112cbc8fb76715870;
0x898f42d31a6838f40ddf7874dd4afce3481b6e1eda04c4f22f82e3a7c339078;
0x1e5273fcce91ec174a392d2b384eaeeb2856c1bdb4342e1a38976f97497e51ba;
0x24a863988061d2464b7bcc8d4ed630e79a471fe07c829d9d6b5eccdee1740779;
0xd3f2af2fde3dc00461fe65fc25d8ef32db567495a78776f0f4eac20d4c23222;
0x11130f82fe058dbf04d8ea6be3175f22ecfef9c4983545870967c73267e0dd64;
0xf327ffc10a298ab4376b35f28b7eb90e794b6c9617b9a9cb1fd60d1e6208fc1;
0x2fc6a08cdc07224db9ed85c48555e9b6747d401fc30b477a376470a19189428d;
0x1c33ad6d01026a48305011699dcd1ca89d10a95b096e2b7d60363374c038c62e;
0x1e5457fba2d9da56d4ebe957e2a4960a45ce9bb8c941e2b1bcb861f1c1d88bfa;
0x29d2839ebf586fac7dd395ce00036e0530bcfaf01c6619489494f78a6f7d5ec4;
0x4d8bcbbde662005d7bd4ff16ef911dd1fd74e44d850f665faffe0d4724063e1;
0x1f110564e1708c2705cbd95f592a618406fa8ccbcebfe3b4fa9420636764c7b8;
0x1588d891ff3d8526d281bfb900ea2b4de960a5d2b3740c2562f6a8ed53f374b3;
0x639f2677710d59d2708e3ed851a80e7133f603ae0276ec542b23181fff30907;
0x2a2e29702f1ec78a47401585569f7b48e63e397bd64ddbef59fface62fb5591e;
0x172b91ef6574d5d044f3e03e69e270257e80c9cd0f1000cb91d7a718971dddc6;
0x93f4d3b969bbc023ba1de485797a6ecfc42e2e9f034ead04b17830f297c15f3;
0x1eb585e563cd03b430e0947955e5b906db9b169af33cef14671865a04bbdc7c;
0x15167514d32350029469eb274806d81d6ba80981c4694fd030f0bd93c8ffcf31;
0x1240581c6c08675773597b9d50b9187f160fa7d7a739630f943e4df9b1801237;
0x1598daab9828ae0f9490eeba9d3dbd6282a2490db8ec4789605289a3109a3079;
0x15f48fc5ee41eb8cb97fee7e78b55d3fda674fedaea91534bb506a4b440ea560;
0x196b76cefdcc7f6a54c71d40114a0bb82694c936f1573ac7ac1ea3fcce1fe938;
0x6b19393be5286a5cad14b6fd12c51219467aa1dc7c4923753e7b1adeeb464f;
0x12ab8709e0b7289c712a002a6f0bfe6e72844177720a0427631540c7695e0905;
0x145662a0788a01d81bbc0df72d6eaf0e887d22a1e4aeac090900c432c4132fa5;
0x1d403655755dcc00c298137bc7e029f140b9d9e71d30e9145f6dd2a040febb9b;
0x2370434b953dd1d26c4eeed6cae501a3758014dbad14bfef1c3d26cd0f615837;
0x1f13968a23ad91e74be05489afc4b2dcb41621f6fb8b52f73c27bc2f64d198ef;
0x3012f6382c1bffa9df0240a0f66b310a7463e49e7cf74facc054c7fd124e20c8;
0x1da5c938033392ffec34887bfb06e6317655c3094671a68247eafa70d630c144;
0x1a94414d237c4ad29cdef25e46f49e5e939d9699e9a36824f51aa65ff2adcb04;
0xa234e79999d9f55a21dc03c43eaf5e018035d2b588d5ec8cd2d1df72f83cd87;
0x9f0c86d7cf4004d071e067316a8da875d4405044b0e799616e22c96a1140c26;
0x11bdf8824a0955d04b5fc96abac08049c0fa9cd678bf055fec2d43634170f052;
0x20e74a475a9faf92f4998eb559ba0d8f05659dde0ecb757950e8a6abf015d4b5;
0x1366321b06c12b977c2c396974a2a6b0c4e58f09a53531213c6206d072f4d074;
0x1b2b47e3ea9a39df6a054879cee1ffd2cfd789acd7823e765c675241c3acf498;
0x1e94a144e18eafc014b1aac9157ec2faa99affa50a05f8a8ae8ecb152bdb85ca;
0x2fc95ebe62bfd5cff9fa2464bfc67b854ab2aae650da63c494d87294735305a8;
0x1ccaf110504e1fd4eec6cab1d20f863feff3910d832fb789ec7e31713d262bdb;
0x151066f81bfe7b4f1ecd0f7a8fe09a48ed40b0c9450476042bc4303602891d0d;
0x22f0502a277cf27f336d9f3ee1fb7d67fa355a2421d4a01d121f1020e44ae43b;
0x234465d17d5ca11607fb6b7f3ed5d52d0c06dab7b1761356cbbf0227b5777de;
0xee0c8ce14909dc5d73607dba19e39706783488f00b8cac649546d934dbeaa54;
0xc1a12f8f600bcd0dd2963fcfb7172d5842b12aff081a8163fccf1eaec3284e;
0x27813f720b7a7fee3b44b2fbf89888c664d960bfcd775816ceb70050e6d26308;
0xef129ae227544508104a79cdd0fbb9e8247c352c97190b90b5e5892feb828ae;
0x1c59bcacb92f3012c6299cc6b43ba9269481cd107c161406349db4f728bfe66;
0x8944ab7daebb6884078a8d618105b8843503a90ba51855c079b13b6aaf5b4f6;
0x215bf9136c8b81f9bd5b221d37fd0fa327f923dac9d52ba825cbd3d2d62459fd;
0xea608a14f0b4b405017fa637237863552a98cbb9bc1e151b7edbe8e6d78b598;
0xc1aad9a675df88deccc3864f8c6e16cbee74db5441a6fff425a2bf2a6f84d67;
0x243e3a95bad03705f35109af4c8c377983f06fef4cadd95c03833dc06ea51296;
0x29afdf61d86b2558a0cf6083069157e5039ad172997c8ae76857f73e05ca3eae;
0x196b76cefdcc7f6a54c71d40114a0bb82694c936f1573ac7ac1ea3fcce1fe938;
0x1a85e806efde07a54e9cc83eac927ee5f534b01fd41388f806298b28501a5f04;
0x109d8bbad7c3c77bab1a8506d4d588e7f5b703361a6ce70d47478e7464a73574;
0x12f04b1f932511c8596a8c3b5f3dbf1f7f1d91554020fc43db068d95b8e6168b;
0x1f28636d87164d2217fb393b23d0bfbfec1d912dca3fc000ba1f3e2ef46b8b21;
0x16179a1cfaa92c905e039047db38e288d336b355029b1ce1048168e55bc1d701;
0x16c3deac1173e14fc8b54c4da1b1ff61b7bc4ee2b9c62c2871d70a14583432e0;
0x176d6148624c45e210837dd7fd87d4dc9e89f8efa4dea7c3cff0702fc2bf042f;
0x20dbb69374e977536f1cdc4a084edeef4ebbf0c9c3cc4191fc4a707961fa39cf;
0x2bab10e7b585d418399454c7d80fd38bb23190eecc5f85f410d85300487b9ee9;
0x1bdb9ff621833468a0476986be6d6d719779ec581cc283a11aaa42c5111d232a;
0x6660bc2be087e505eed7f1d4e5d8418d55e799008cdd4f91bfd536900e9f7b3;
0xd4beae63787b3447f813f245fd8b7d6f49c83d63fe74a400dcd66cb3d363af5;
0x1d76613f447ed37b64000a928b3b48e2e8dd521aae874d97dad7fe9b4c57886c;
0x1f84a0ec9dadcd3937a045561b6205385c12c2ea4c562bd420f3d27ce32677e6;
0x1f6424f12e6950564745b305080c881ea931d9083649631687a5a302f1d86fd4;
0x2bf626dec6b3c130ebf137a656988397de0601250e39822152d316537a891fde;
0x134731482b66f87776639ae513fa3245540fa1d34e6d74d32f7e9587b851de32;
0xcc894c9be43663bde1317a4e3591aff66c18abdf0d8b90d872d86012e2fc8bd;
0x22e690f84991940125c64d8513be14cd3fa81c1efc12bb80a6beada80c7091e1;
0x14287659216a6cb96496ea198bfae1408696c5561f01e9504d5904044d9cc1ee;
0x237b66703bb797da48e0c64dd6633de18ec506dec2d4d72b28fe93aba30b1621;
0x1eb201c3e2663322f85acc8d641a362ac1eb1dab575d105af0feac86d68ebb14;
0xf2588703431e1b9b0d059f900572f8222df5e7749dc0f93c09a24285fd53e4d;
0x18a8905e765a49b51060ddc06eacbfbfbfcc0736f621216de0f9a1a11cc66484;
0x10e1e120dbf75198c342b585b49bd0999633fd5310840e725642ae873af4a53f;
0xe65310148d5dc0fb00fc135ad071d9b07e28b32dff7dd8fb1a2e0670238de99;
0x1b924a6cd822b0eb0c6227c810a51c540fe9d9d07f906e24a57ec6fece7639e3;
0x14f708f7a7c1430e9f6adf3a23f1dc38c92ae2f175b39671aa297d590f7806bb;
0x2c870cd5699f7a402a473b3610adc0b1b1dfba1798b30681de9359334891b5d1;
0x2c2793cd489f2a0ba8efdda84b35034f81bc47c131a3c6b6f8107f7cbc5ab058;
0xf12b486f743b8613685af0b508c3b3c41608d34b82c7dc3d8f15277e31842b6;
0xea23cccde8252adc358410548ba3c53e224a3169e6ca958458940f318bbefa3;
0x196b76cefdcc7f6a54c71d40114a0bb82694c936f1573ac7ac1ea3fcce1fe938;
0x1e5a6dba6fde6063136d0d97f46d5f292f065b8a9db8f2ab07bc17d31566ca3b;
0x2f5bb6281fb3085c9cf508288a809476a23c142a459949254f99e0461496897c;
0x230133fa9c214b6cd63701c3a082ee211c2d4ffa7037d0d0a4cb63a77ef5b696;
0x7b9beb8ce1dd13c153d36b636a7af56db3800d97c16400284b5563b192c7803;
0x18a62bd663f364bfd0c79d7f3edbbaab5f58eaa44c0fc207291c8f71222059d3;
0x909d7276a02aac190974de34558921d3dc8e6ce22964f0e97b69858bbf39108;
0x191ce266e49cadd50eb403e7fad07cc9ced8d81d8d23df3dc653cc69a8e62310;
0x29cd029dbaf281a5b72c6d730674b53cbc773dfb542428d45a11d443aee0c906;
0x1235f2e3aa2a5663b1dc32d86d32a8e2ddcbde4e97a3edd894c7cf2f799e545c;
0x11310308464e805034d840a94d25a3b8bd0c206d663f41d145fa66415c2dbc12;
0x2007f67c3b1d638da29631206a6befa6e21365aa1edb39a6f3a0abfe94fd2392;
0x121d527f117db7b0a614ad1be6fea1f84369a4c6e451c0d5d2537983fb6b913;
0x1ca4a6c7ee32ae8f3d55e7b5f8753ffddcbc125e170dc7b7c8ba2d62701aeb80;
0x2f4ff9505df9f5dc0ee5584631e6f331213d654435b5d2593d249b3ff4e64802;
0x186af707cd1927045cb8ad1b1510d4150928d839d07c8c9a3d93411262351327;
0x291caa38b2e4083119c579ad08328807d4ace7deb24f78a5d4d208cce95055a3;
0x27e62d562d2936ef5dfd0aaee64cb42d6aa90006a6fa74a7ccee794d78c0faab;
0x2706ec2021ef6f28fccac547cfb1aab2da02f453dac5b2daf393ac9bbfa63444;
0x2c6c0b69710326e4bf73840601626d94cae75c92ca37aa5b5c6e61706cde5a5b;
0x3bc51987425528eee7a4a3177a8ee4571ccbd028c70ada4bbb3f8e6da3f58eb;
0x1273940d422f16d7b918e5b6bc3dfdba2b22abb42cd67aa154ed75496186025;
0x253094fbc334240ab67c86378c9d8d7435f3d87d5d68f3ae901fad214e0dac85;
0x1cda718ea0bd4ae40920c54c9d203f88deef3e00b3a6c3a5bc9243957c20133a;
0x125308584766a4ec9815951c72a099b9ef423fab29783c9c8f8ba14ef8221ecc;
0x130af16ef6729327847344cdc8439079d47871751ed3f0b871dc248c6b856b44;
0x2f730d5dbd23018d8c91be93b9e666cfa9e9c077d3b2724c43a16092170d7040;
0x278ad27534ef1afa5d3742e03bfbec8156aa660b0d663b054a5feff049aea2c8;
0x6d35c831095f5def4afec1841c74aaf1b18880eaab4256ddba34e49653c6169;
0x2a9eb03bb2a3ad110273c506031de6f432b6673655255c4189fd2db2d9956d24;
0x237bad6e8955fe0485f4f72b4024855f35903b6d795cffd27468a7bd0e47056b;
0xee091319736fcc0a648bc6cb1b31ee36b95b20c4d40f91392c315e5fcf26150;
0x40a730f39a665fd9cb0c93989b291d281958057e9b898d0b50c752f9371a96c;
0x196b76cefdcc7f6a54c71d40114a0bb82694c936f1573ac7ac1ea3fcce1fe938;
0x30478f2543e91a3b1c9b3fac23fc86c06032ca0fca4bee9387722862c449cfc;
0x41b7accd8054a88f4ed64394473fba2b13d9b9ea06fccd0f75439c8a09f968f;
0x11bcaaccaa00dc4c80c43172a833a6fa50fa47827b3d4df0c221eedcb7e935ba;
0x1276b1ec4d51cf23c53b104a7d1e127058b91f5a4cd2bfea420c15355b43553;
0x144dc8dfbc21918abb47ec061c7e6a2f7fa9b32babf270047a2f465b7f8f6de5;
0x1dd046beaf1e8476308af0089af19da322852346b18ffa584af9d98619dc8f53;
0xfa7e283d56ded23e03a16d79c94298143d259d8c53c8e0de261d197a4a1c071;
0x2e1a819abacfadb55e98efdbc5bcb57e216fa7ed9d60a4ed920b2a1de8fd1316;
0x256938ee3b182642f778f742bc3bc00a60aaa25bb3ce9f7fc96559cf21b28570;
0xe6a334e357792b5182d8b44d893ce322996913cab640a006c1a8b73c023284f;
0x24073e4154b684459e0cbea690ef583feef556f092b2b17c82c31776725da906;
0x2dfbe4b1760808ac37902dfb1e18691901b413b87c6d8c8ae54d79894ded6c80;
0x20f447f6a67d3b8929e1efdde6688fa53d47964873d86ea01126f1e0d447d951;
0x2c502b5ab202577f015431cc2b64b61f85f486161ac4ecd64c9603fe6d353d01;
0x5caa2b6ed2b850a5ebcc686b7198604941d48d30932a09e2de9006ffa61afb7;
0xa3d02ec260b02ef2a4d51c2979cc1b22cda27b543a1bad75d9e547b3a5c751d;
0x724bf5486c9bd20c2427fbc1d6936ea65d052f442a417215cd089b9e4537843;
0x1ea84269caab7c273d92e86ca287a8850995c9adf2624daa858932665fed66ea;
0x1d7e6d3695ae5003b9dc6950af38af6b5319cf529a7a1d5076512dfd92b099ef;
0x99642d891092eaa8df1bfbc45d79b13934c42f37f8e1dc969fd51caea4fc246;
0xb94bf0fd8f907040c14c1fc8aa290aea61fc881aa82da20ae568c34990fc705;
0x28fb0d75533a8263ef2ec6b85c97b5af21e526471056355253fc5f6fd3361375;
0x10480841e4451bf366c111c8d3fdbf0a7ac9c04b9aa2d8d547285dd891e77eb1;
0x112274c48dece347a089aec971f0cfb9d7bb1a15b32ad3678e77d15cf7107ff6;
0x1a8c6d411ddc6e2dedd2fac64c324d88ab8a946fef1174c973dc0f658275f5e;
0xd0a4a998536c490396be874d02c03de56bcafa3cf45590184f7b53ef5c3cd87;
0x22016b957df82fa5c825f4fb8fcf8634e654988b63d9f9933bc7b7f256e7c67;
0x26d2a9b0db83259f6c7d081a2d50317039076baf6151f1734883fa6c322b243;
0x1593b4f33dd3053258dbea8117f435f21d6876e7fd2907e98bd81d13e1f8aefe;
0x1ec80ad7ee2b685fd79b38b842b0d420b685e3c090acf3e7507a57739ff76185;
0x10573113bb0d41c18513cef083fbba91266dfa7178674888ace5d566e1308eee;
0x2c5bca238c2c3be6d5cf5971ee92ef3174d4a040ddd6b0431354ce434de989b4;
0x196b76cefdcc7f6a54c71d40114a0bb82694c936f1573ac7ac1ea3fcce1fe938;
0x2f77238c057e187797950c50dacd539a7b7a1be7baa3a3f3a617f88ec05513c1;
0x1e4b327ddf07cc065b37a9af7f6d97b89c40479908be61b2e6312c351a4d5ef7;
0x1fa0048409da60cdb12a2a3013fb60257940ee5f4f8c2b1bb56362e121b0c8a5;
0x1c92ce2c35358268ac56a756f5ca943b43db8c7ec965770da62b649c45baf1b8;
0x25a62912bc39aacc66055eb6cb404b6a4f09b703a344b752c526dcb93e768c73;
0x2f3e3c91be6f5b034b00dafa6fdb33ed00735f48fb2300a783ab3307a6aac793;
0x12618073f72606525b743e3ab8c2749bc83ebc31cd47ecff2f851adeb397b5f8;
0x7e1a14a5fe9a127930b1ee9a4bbbaf3b33ecc0c23d7b3b906f59925c0670f85;
0x185866c20721e1018a4eaf241031b69ed1f2aa25e05310a44a015aed45003576;
0x1845f9656990a68b36e47e83b67e6d53f42df6a83cba95b016c349ff191ddbc1;
0x285db5bd04516aa0416c2c52cc651c2690bc846621ddec2ff3037165c30444b1;
0x230697cd1a79c303489232f2d060182c4101e0fb4b6d3ac38b82a370d59ca295;
0x2d5d42436b19bd4916f035f323d6acddae9a252ebc7445adb1d7bf560b464bff;
0x1ef94358c904246669907524ba5bffbdbd7c9a5afcf160e44d00f19cd804fd87;
0xdc902c1c2f63aaebc2a69edb37331ca6c053513f29991bfcaf6dbf9cda9f8af;
0x38cfec7101b2ee954fa5bd1156da5c5662bc77e2b4e16d39139bbf165f5e331;
0x23940e1b0657dba41ee3c7edbe86d7ef9f3a45016a61c2dcdc39f0321af50fa2;
0x300efb612aa09a721c8feb5775c639204c092bf5adbf9d4268dd3f24a406e969;
0x1cdaab41d8141524f40389418576088f7c8aba62feb69e895d39843068dd5679;
0x1f035b6f957e84c1eaeec71e31b19518f3dec9964753a2caa1a33ba14879d0e4;
0x9ff1b666e47a433088329f94545bc44a179ff61e7988ec8c86715cdd25237fb;
0x97ad004ad339a6ab46f92a80e303e5d431fcd77b46a5b4435f383af68f7d08;
0x2189b934e1602af6e30d786a0e283f0877720cb8fe77369c37f7ac895886dc1e;
0x1903bcde38ddde14e22209d72837f9b813e437099f71263f84e18bc6414ee74;
0x81887e6be9c14e1b9ded51e9cdbfeba2001c9e6098d6ece905a0fcea98f6452;
0x26c7af1f1cee86563e9292336fb6573a0970af2c6d49d469b682188ad55561ad;
0x243e21405367c02b78c9da82c9102df9c32a26dea21da00beb62ca9e4e71fec5;
0x16e3e6bb95f28d2f321e7b63f6acddf3dd6c2e9a05aef8ba4b9151b1de10a78a;
0xb011142c18c2fd3740c07513612794c14506ad3094f440420d5265f225a84f4;
0x836b51afd8ef110a57d3d82bcb1c294a3d0c942ac20f6f407cb20ae9f0addc3;
0x1ef12a547707d7dd27529e8675e5e58c3f35bd50de464d5e9b1735ab22d95565;
0x12f1b456a3fcabb116586107e089ccb38b8ea0ac2fde6f6d464302c5f62c5776;
0x196b76cefdcc7f6a54c71d40114a0bb82694c936f1573ac7ac1ea3fcce1fe938;
0x16e23bc3ba612e8d4104a5a608cce0d28bf3a06c6f9024f8f829edd7c84ff5e1;
0xd4acfcea237e44009b358d998961b4719fe512aa2cdd6438aa30dd5baa6dab0;
0x93cad17aaed41e759cfeb15461f0222addf78c3a0aedea7186431c535ed46fc;
0x25e68166acd241fc301db582f896b8e314e398dad56de9f2926f9f131a81d5c0;
0x8d9b1a38c7c71b2fd5dac87ef974ddb4f7119523d81f88b0d7e16d577db060c;
0x150c5bf06a071be6de288b6deb00b6ee51ee41f96f71cdcc980a366e4049580d;
0x1820e0533ea75404ef263e570250e25f9c0bea1228df9fa90a5da8176154f089;
0x229fc7b637cf8316edc29145ed5f060a9188f10f71e078dbcb887d195e8da899;
0x1cc5470c6bd5d73eee63996481a28466499751a0a9c784abdb1c3fefe643dd81;
0xc4da78b5310d04853242a11df821ba84860fac1a2fee9fc04e25c6039bee8f4;
0x94cc155e114ff824b23e67ebb28b2bda53aa526fd3f11927db7060ededd2bc1;
0xdd872678b808e11045a657250172181e1fc7d9e2eabf893f09fc3c6be3a93c8;
0x2177c7830ac6b2cb6d01ead266a371320f7069a0de0454e5dd3a2566ff9eb716;
0x232dd9ffd97dd5068b1041fe3ed6e08e162265e9e814b85116a6561430aaf72e;
0x87726ff3cabb6294d2106931b3160809d4d1e669ed7de25374390af8ca39b4f;
0x364f607b21cfb12929ecdd65f7618ef65c8e9caacc4f42c440994d8b5dcd35b;
0x304b195fa0bffadcbb23ae2267693c7da7607eaaf40c880843ba71521edeeb40;
0x196610368a8764fcf4f0278601232bc0a5aa7ba6d20e2c5420a7862272b06749;
0x218f52826b8e2b82e86d87d7bc87fe5cc69171430488282062d7008069c89dde;
0x2a70f39b2d8cf212fe706545d1cc154d07405c1417712b388c919b35263c1343;
0x65be4ea4d6caa4125badaf16b830538527414ecd718a923c3417c474fcf5032;
0x527abf8fa6b64559c86b69eebb3f0acd94c9f23a01438ff78f034c80291d964;
0x263078abe4570cb96d27cea17fe9b493fadb3a020605cc474be08ad173dd424e;
0x2616b2e0a8970da8019208335d4cccaa489c6cb8da6a862f1867e246e1f36736;
0x255f2df1f986f154768f0fc8a5a2ced1f18d395ff01165e77d6cbda3e8b7bbd9;
0x1806ff1795d9d6c9292f980c957038acfa02ac32556c9ab826bc14a968dacc80;
0x871baf013f2fb16c067858844cd395a520d8a8bb17abe207d3138bd591dcfbe;
0x28f0493d5c747880a71a82644c20dc23cd3bdf84e05cbe0c0a1a48fa27312484;
0x2a45ef02fe1dd41641c787b8611113bec4881a56784fcfa21bd896a8205798fb;
0x7ed262400e2c66934b968e3f8713d66e85fae72ab73c6cd33eaf5b2b480f6ce;
0x17984162d397a2b3b3bf3bb04af70532c4beae81a076d0b8e1b4c54e5feb2f7c;
0x296ee291fc63605db9594241dfeb6576603a30c42d6d631d4123982adbf54cea;
0x196b76cefdcc7f6a54c71d40114a0bb82694c936f1573ac7ac1ea3fcce1fe938;
0x19933fc7d1aea36ed4516ea4768628c08d206e8cae12e53a61147f2301df7c31;
0x2efd792c56ad19032f4e2307f7ee338895556de653bcf50239f56a6f595a59e3;
0xd6c9475058e6029ca3162b0db37e71ca570a626e7812f8938db5bb9f54f352c;
0x2d6e38ed12eda3856592e0348ccb4fad2477619bc8a37237d4e48a8b12d0d7e5;
0x1b22798bb6b6e5711236933e2596905ec1a4eaf3c224cb8e18385857df475aea;
0xee2bfadc6c771b8279d82f54770acab798e5d7e6b6c93123cd6d871ac0f9cb2;
0x21dc8e7e1951b62eaca40550618cef0d32ff82f425264dff2743e287594d7d54;
0x1e75bf782b602b28cb11f489a17ab323dfe881a7654af175cfabadf765d2b48e;
0x2c49b7045f45347ea8498df2f5d5eb560154f3579016772dc017f6d43cfa563e;
0x1a0ac37735eabe257b9c0c25c0e8ced477833e2368678c6449c1aa4baf0f2312;
0x1f35e213914c01a5ebeb34838610578a4fba2c4a06d248e0d6b76212ef339560;
0x236ab082f2cbd2668f53ed5a9ac5f29822440e4b06543b6ff3944739edb00a52;
0x12261534f09c4b4f143717ec4e8b0afe58fc399671ff29f5fc8c3dd302eb70ee;
0x1421d8d32235caeb8e90379b3abacea1d7ce42bb1ae928840a8739d85acb3127;
0xd330afe8be63d8ace3a3a83b7da18804912e3b3c1a8ab3e556b3256f0c551c9;
0x1563b55edf443890c4729a6c84d523e1133d54bec37000b9afda8ec393c0d2fd;
0x2f6aaca00913c8a056867f42f64016d72982e3eddd62f7508c4b86651d2fc253;
0x2f31927a218ce8d5931907542909a9a8a424857218573585e1a11aac34a4ac59;
0x2245d56c69c9bcbe47ee570fa2cae8008a8bc3042410d29f84cf65adfb1d65f6;
0xa6d1a50326bf87096bcfb5acfc3a84bdf112eff86b9fd10e935b3ea5cfe52f2;
0xdca2fcb2fca35419f3ad6737417350e4fe4b3428e65d4f418143b97204355bb;
0xeff0d35806c692f93f365c7ce6d5489b513aca79eca0a6663e9bbd8820f568c;
0x761a1a536cf23aa1f57a5a10140d4b1cb968e9e3054833cd33b769db1cdd0ab;
0x4fe0a5f272499e111984cb95f691ad3533008ae70634baef9e60bb0808feec3;
0xe5e1a69a0f2521a67cbaa96783214399818adcf5104c8da98d45f3951df3d79;
0x3042f99a1751ea962828ad563e8a6d6dc438459f9b912b3b5f2567ae31b74cf5;
0x2191f2dd5699e7f46dfc7a0fb01c5abb9a34740c534690ed789a3bedbe15fa65;
0x17886ed47f13d1d49c9c24836655683cf481f3e89d2b65b9de78b591a97b87e6;
0x1913d17541b234d83fd9f7851782516da4bf4ffe9355c19400adbc995c417fc3;
0x271e99ead6dfaff8400e390541cecf5146ae0f3b86d0d94898a77b67d0f59b89;
0xb57c116f3a607094ae8b3e7a2b7ef123635bf131089ca8fc8d0264715bb72e1;
0x1e097d47d4a82b797a5ab64eecfbc5026ad25c9aab94cbcfbeed04e47aec7e78;
0x196b76cefdcc7f6a54c71d40114a0bb82694c936f1573ac7ac1ea3fcce1fe938;
0xeff65c0120d6929212be55e8e6ec2e468d7fddeb7951b01ad014948c174b971;
0x2a5c1de1bf17f1fbb34987d445e22e3bda9510062ee81821d20944df27d1d6f1;
0x106178470931e69d02288fd73abee97994704d2cf4c2142498fdb2487afffc91;
0x1f2d17deb1a25ec04570838e8f5caa47250c1bc16c0406017f5b2afb2b2c8b4f;
0x1ded3f9efde2ddbca11e2280038ded37eaf9a4542c959d9ea7edb29557118c00;
0x132611d30c21b4909aa39e4331d2fe2a1f532198f34588e67dc92a375b1d95bd;
0x2f5741043ed87b7272c7a0db20ad4626af621071cd0aa6759fab3518f420e751;
0x20749c10519279b7ccb82ddcf1cab67a14b26b3080022997c05ceb47da0211e0;
0x2f4b12cbeffe89cc8e0eb8fcce01ad903d14750534b107d1a5095b53f2eb994c;
0x19f437a4cf9d69d918e2bd2c1ace4309e128fb911926c4396039790db1677211;
0x2189142b8e8e62d3eabad7d3a9c92a2ffc07677dbb3927a55035436a4fe99084;
0x26deb902804c50f44397613473add31799f85b20d1232ccdc220357e87e0444b;
0x60feb6d13dc7538cdea6274969507ba784301ea76cef8af0eb914ab2339be82;
0x76ef42dd0bb069840f761558e2005af793ea5beac349c3dfb9e610933b1728d;
0x21718df0edbd2d21670fa990fc293f89f53cb169739bf7cd2b732967fd4e936b;
0x21e9e1015d05a67cb7a314fdecdd1dac563dbee2b9edab3388ec4ef9e58eeb22;
0x5fc174109c8e7779d39321d9b843cdfc1e0d89d8806e199e15edf3cbd724f8e;
0x96aa7b7315c181d4bb6527c1abe5d758908a11d1443ee30c0706b31bb43da3f;
0x100171ff805f808f17a40a9e80b4f6516ba5d39cae9cf62919e085edcb46e0d2;
0x28a6f6698a4d25726a7e7bcb50264b66a9f377f6dd42e9affc077b5bee5680ac;
0x2be4c72e7f354219484f1f1873eb38a8aca5924509c892c1fd072241d02cc624;
0x120e09a9b5ba1d13db63a4d011a2ff38845564e057c641657ec24bf5ce8e532f;
0x26c044b1e72e2ed87e620c3010acf302d6f19cb8d4d5c8554931d2e29a923da9;
0x1621a950244b5d32dae27f189970ae10d14f0803d92f67d8912eb7588469471e;
0x5065df755c536ba54bcc816f308c2e341f05d16254116d0e29bac9cd827250c;
0x18165ae1001648c8d9987e38bff84bafed3414ba2dc09eb937b73a1e636f43c7;
0x2e84dd68cccd069cad6fee65deb27c501b2a0a8c75fa6b012b6451977a1cfd14;
0x29868ed0bed932d2ae0f4ef731251a4ae59470cce43250be9f7fd55c543ce635;
0x296b41ce4bc8cdd06eef0021c564646332bbed4a8cd4216effa4a09a015b1e22;
0x2c1558f35552fb1f9fd96fbfa1cf187ab296c941f0dcf1af18063db872028d57;
0x8b1bc5debafe2cc01e92b310a9bd1b62278d9aefaf78a42ce169dbd7ccbc769;
0x2c64eb96b29fa0e07efbd86bcdaa1fcfd342ff26fcc11adb163a3e778092fb44;
0x196b76cefdcc7f6a54c71d40114a0bb82694c936f1573ac7ac1ea3fcce1fe938;
0x1942e0e4dc6666d050565e3041b09d79fc20e99b393b2a3c53f67467c3dc9cd1;
0x2a61fdc217a0fd51b44cda5669eb8c81b4e4cda33c07d96a3b3abf75bbb593a1;
0x27676c9245df29af49d1614b032c86d99dbdfe04e1ae951e91ca88267de9fe59;
0x796165a50209865f0c12eb768681ed7107f6e7976c76a36fe196ac36fdbc5b7;
0xc3ee0c7cbf8623447c90b90e13d290d313b6d0c466e0c4e1629e54eea175092;
0xca789430e09c72971ba49ab8cfbe88c7ee91571c1bdcebdb512adb061597f20;
0x55c78ff2ca4e60c8d1fbe3c55b15ecc28f86f30e893fbc001836cc0632c955d;
0x1b1ed198ea5aff5e8750e4fdd1b51c9e4db45a651b2d9e1b211acc3b124e31e;
0x680a0131921ff15b6f737ed1ef99bbf554e5c41ef4fd6e200bf771134512a94;
0x1c04574d4f435df24a38a6afd056c49edd61ce1dcbb160c69c6ab490716f4bd5;
0x1f79fb349db705a247e689a2db091244c30680dcbda765fbacf3f36fb7feba36;
0x1b6f45bdf0ed13a82c330a5d26eb992dbc9802f11bfc2669e3feef1c310baead;
0x1ce38cb2bbdd94c03869f6bd81e5b7a0c359a932b676c0ba6369fc4ee9271584;
0x2d918f60f8c7be29a0b6eb2d6c44c56f0cdd865fd8a19ed747f4c83a41a2d29f;
0x2b1e6bef26c3c2a5f7ec39c3be4de1c0a5bb8c1dc434570d1cf9811c71c1e2dc;
0x18231a4625a11e057412d2789b10144985ad15966fdb26809ab8091b06e3ce3c;
0x2ba1777ec04222a9f98dcaba3a5c2023e77a8071a279c726b35482d6347fece1;
0x183e2d6301b1e472e01e2360e02bc855b6f1a262a4d03517beca13ac2539fa50;
0x4e6c329b88633c6a45be6f77f5a9d0d54eda85a4e015ef7c368bb145c6978eb;
0x1f7d2b53a2456c0d398417386d87f4f760fb541cc225d0d84d9d000828b94fee;
0x1e7e8f07fc7bd7b462f36924ade2a783ed2ad47f6a7d4a5051b9774d61dc480b;
0x8ee6dc4b9baa362c6da82f6c3787aec48eee1f6ed33157d1a9bdff0cab20781;
0x1fedf46ce5f0967f0d259a7ae19e5b781a801467ab97ec9b8d50265832471e92;
0x610a62079b0c8c00ad3401ad0473fed44dcad28affdde92c74ca927a018403e;
0x2f8dcdd501988f6da1f3d80308531ea26ad2eb7017eae7d97e867ccf9e5010d7;
0x2bca9ade6aa068f60c0fd6a44e549bfd37df8499a589dbffb64b00d3c48fb730;
0x1a145fd2fdce8ce3fd02830d4c4c8a68e315fe92a38fdd0f5ff7a38d698c1c1d;
0x3874b554c5bc6c3988b1601616c70756a3f5f9de40edfbfbe0120631da540f0;
0x2eb0cb6d015c48ad9d3065a505fd42ad811fb70d9fdb5c2d537843f63b378e8e;
0x11454221dfba7bd389e8f03187a0723828428a6bb434c6d7bf20bfe5fd114b83;
0x2a10c14110838c69329a80b0b2613bd9943a3ffd25f6a1e951d0a90fed4ea8ff;
0x1e52a42d152b85d8a7807288f6f70e69634da7844d995b254f518724e4c3609c;
0x196b76cefdcc7f6a54c71d40114a0bb82694c936f1573ac7ac1ea3fcce1fe938;
0x2d54de07d84381601063b6e9bc507c93cded3cdab6cac3878cdc3c29720278b0;
0x2d8d4a2f762f3df73356ba6bede1b007449304d062b2267b388e058c30d321f;
0x109f39baaf3fc94e73d04fcc393a6b60af6c6e20d5953ee4a1b572857b4c0e76;
0x12d501a7112aeffcc039e330790ffb66ba390d1dde79ab5ffc723f9fbae2875a;
0x104a8ca53760ad5d9a630d85bf1d2880fc8e22a97c26864f6597b78ccda8e39a;
0x156bf185e618c82fd5622d81779e5538941258d1ea3d26923f59b002ae7f48c5;
0x177774923ca426cbb54827e2b0eea99d32c576101bac07394a15d89354e6eddf;
0x113a5bceb59274549fc1801d16c19742fc8fc2139fe584c52a7bbba2a329924e;
0xc6505ca747cb38e435eed24786617d5bf69034132a74f6464c6e802fa1fabd6;
0x118069d4c4bb4779a3c231b4f9bb10c9e51bd7bc57cfcd602ee7a6fc0e1abf95;
0x385980d35d14e90d64e9768701ebccc125891654fbb8d6b79a4ea17842a4975;
0x1916313365e0bfe0bb7bed5b5f7bd03db314de71ce80422065c503181bb61c2b;
0xbf8748279723ba405fc30c18b22b4d1c8bd2ee8a133b73c3e36170fbe2a04ba;
0x18e633e3f93f527805cc7bdfa61eab0efc189b556f7c549f1596eab99d2e0e6b;
0x152bc76d070352b5e3b4f350f4b07c8cefd23e9fa5c425a8b974d68aa3c07730;
0xd27de87e407d89aed983b9db0f81620c9dfe423d47d3de44cfe3b273bc2bf85;
0x2b50440572a0892b1c83bdb6fd2037c9ad720f13141798f8857283e01b1290e0;
0xb5b0d8f6278e41ff57cbe18be038e3467f1bcc255156a660cfd16aa2ea9ac6a;
0x1c4bbc69ba7ce83c1b223dddb0304428eb67dff461b719504d2a55c7bf380a4e;
0x224b7d772c7a5d6fde26f2ba95e000eaf6fbcfa50398579c0833093d6ab8d7e6;
0x130d060491a6bd90c3e5ee6bcff4181d9126f520c56d7d8233120e8449f0370f;
0x26e1f7aaa668655ac3e092b9c8899994ca9e596ba992fa8863b52b3137cda92a;
0xd910dfcde2f0b93948f265e861563afd9dd6326cde2a9c9489d22d62dbd3071;
0x1a92a6fba93268b439845332988535624c93b616d2e972656ffb15175455e542;
0xdb35e6ee7b9752c564e9132696f3052e39a46df1c4823fd05e246e928963d64;
0x190484fb8797efff338127ac69877789cb80eaa47f674cae2035e2d903b6dd4b;
0x281b15d146c4d56debf9f66bc0c8138b7c5be54cb206a9180987f1104347646c;
0x2fa46d89ce68066bf1ab4d304d8d9163c8203f14758eeecbaeec0725cd663813;
0x2f2ced28553cd93fd972e231deda1c8b53ec3300e9617dcaad0d2d25f2d61fa;
0x2aee5484616632c7511346d4ac900eb5de7a04994eb95b4343d3af1e388fa74b;
0x2bc085981337c2500fb80f2259d55e956963ef377ec1e2071c84639a19a581fb;
0x232d9177d238a7e2d92ff1260e60e1d1199365f4cd6f911dd08315297bb6c648;
0x196b76cefdcc7f6a54c71d40114a0bb82694c936f1573ac7ac1ea3fcce1fe938;
0x152e232aa2f0b5ce86a9bb8ec7c916a66ea7d3eced20c3119fa4b32227a44224;
0x2d541381556b2db0e934c244bd4f8ebbe198d35bcdfa56c77ad702ce2b4c0c5c;
0x2e3dc0bef8262414d80245ceb411511467439879f538701e9ee094f7c14e408;
0x16a011d07f05d6aa059d5c39ec295e27d697b94e0eb8ee80d090253627d54ce1;
0xf2e71fb8b1efa67f9de9fa1f2a089cf8f1a995bf2efa733b40cc406b6e25cce;
0x1231d7777e2dc2538a6a0c854cda59d734f0ce0a877b5271a1d38c67e682068e;
0x24d78b8526e7b1c0637f2797968911f101462535e1df4d7a4c151bc6ff2ce040;
0x22a988364a2deabc2ce747418dc02fef38ce6c811ee6074febd426aa59e135a4;
0x15de00a932e2679f01402db621f4226348b05436f9cf4b4d6d6419e7770d1565;
0x299e0373cd69ca5bad2e2ca004ff6dca193a9aa2e0e51de1c89770d2c260e229;
0x1f48db87438ef28954de5702992fc180e1204b139cd825af6631d8eb0a4c9bfe;
0x1bdff4383ad65036a6193cfd9f77601f48095adb5ffa44bb31a4acb8bf68b74c;
0x17644aa682a852335aa5b1532c6fda9a980fff5e94c2b6358ca83ab58a9a77ed;
0x1bfdd4600de694368af6447e16dc544f8565534d30f9581b5d81cc24a6503e26;
0x18c8230d4cad7c815b3b71d905826a94022a81cd18a26427fdba3236667b24ff;
0xe19493f16f0b05a6cbc8c6ee13f334f045868cb36c7e6013b5600e2eae2aefa;
0xd2f393e71214f36cfd6a8f7f4f02b164c0bf4116e97f7198440fb9122583e4f;
0xfee312ee60e18d3e7a6ba6bfa95e826f27a8ea0a865e3c7a7fb4e130d1c4c09;
0x22a056cd7db5815347a2d035ecefda073dcf753bffe9415afd254621fc370eab;
0xf5eabc9bc5fbb19864ef2113fc4c756e6b5f3d1dafb8abdedd3b04d0b80ae66;
0x7c235ac19bd9379c4cc01b454b43218af5b573522aed311148404f3a5c743d;
0x2d942aafd44c4635f7cc2f58e4b9314baa46e187ae91b69a70ce5ad08aae42b1;
0x18b7536ddf2baf318f7d95ceae7c059898a997099b0e006b14a9619734d101ad;
0x783549372d830804cccf9bfcadf1bb805df0cd74fdfd8a58ed78b2cd5493037;
0xd0ff56581899da5c5e06929f9211224abc1701cc590571e4243ac5380251d75;
0x10eb2ca01dbc69cf143a07d1ae33d465c21b004d93fd8ab3eccc330e8897a06d;
0x1caff794c32f783cee39dee2bf130ea89316a74d9bf6568e1d0be5a2362f4273;
0x26e43873787a976ee680508db2668f4e6c8ede06795ce54762ea9b7ca7654dba;
0x8d378aa3982d2aee08f51d4ccf75af2b06f52ab03864d95d56aba9bbfcce7e8;
0x2ff5d0d03b4b4f9d0b01d3e0db319dc28906e4dca3dfbbb4b37f99a85d1b38e2;
0x18520d1a0bea45e0d3d8bf43f25ba325c6f2fc2a854477dd7bebdd9ac94038c5;
0x48981c51b77cae321a249b580cb97b327075fbcc0e789b617e8d3694477e52;
0x196b76cefdcc7f6a54c71d40114a0bb82694c936f1573ac7ac1ea3fcce1fe938;
0x1487015218138ffaa0a59fa85396ac51e075d8925a724fd325424d928c654ac4;
0x158e7709256be5b46df08d1e1b0be1938aa6f4e5c70197431f5f2801cb81ce9a;
0x23ead31e3adb55af0de40f8ec4e5e40494192a137f36d6468cac8b9f8eba7888;
0xda52b842c39529943fbff3afa9c3a75d580025df3c708ca7e312396e7c7ba62;
0x20641a12ce32094370652c635921aee03831de2dbbe854b52d983dc669a0cfa4;
0xe854c479dbc2e4674a8fb297f33513eaca7d1705e71cd403b3bfda7d594d063;
0x22e3bb4d657720df9174b5bc721ec49ea213157e0a59d0fa2f2eefe9a8bd2376;
0x3f35d5ab9a8715db37918b791480b3190493266747e93b2b922f17c4a8d303b;
0x71d91869ac439a23c518effe61ce68bdd578204dc70878ea949b980e8ca5765;
0xa5afe6671b39a880f2953d521327679dfc02d2cfa739e10ec0ce898a7e606fc;
0x1a13161ee9c83cc5dad2019e320b65c9c0fb13afe6a473b03242fdf77e80607a;
0x3026cf4032ab73cad3fb5363647b3617179ff403dcb0738688848252d5b6f2e;
0x243e0c7d13dedc00a5a66e8ac3041de9cc0f107c69e38e0a5ac807fc57523424;
0x2a9fcc31d5ba75ce13add9a2fbdd4bf8478f3d286638267e8d9889236ab48999;
0x12355d3aaa77205407a218c67bf292f7389e48078ead3ad8b44a7f26b193a571;
0x2fa06fd721aac5819fb8d72118cfc36835a96a57466c5d9c7ded627ff5f0925c;
0x2009a1047f9adcaf5d077ebaa1d827ba73fff81d486a9bde79f66ddcf7b95670;
0x23afd3d3c0e2e875b2a847cd2a686c1fc3c5837f41935caffa4bc413af451491;
0x2726dd1f3fdfd05c33efe547ed972ad36a60674889b98d1786a505f73bcfe296;
0xa1f79f8deb6a176a4a20a89c2f3134f7f2288e5e698d8daf9662f79a7df7253;
0x233dbacfc9ba8c6e47588085cefa90f7ccf223ab050c4900ab2b262de8235c13;
0x24e7c1d18385735c7be8ed97b21065ad3446b3a44540e129605efcac8b1d27ed;
0x2218b114e6a493d7b5b767736aadd097ecad86b0f58972ac0efa546a5f1a4726;
0xfe60e24f84080950e79f2dd5dc8ef6dcc5eca3bc6cd608f91b9e05a4575db3b;
0x1d3ebedf3c91e56b3331c235edfab0c1de1b37c4fcc7506755a7e90b86a988ef;
0x5b18530d7ead1dfd0d305e24244c90f8e66be3ff5195efa2c7f9317db72f17e;
0xddd0529998868e7616a880793d4bfb9d9a25f7cbcf4f894d7c91443dd3a3e0f;
0x58611fb32de45f6b800200ab76e38d4d88152beb86ece1462c2129509732672;
0x2f4954ce179d833366a6cace0bb216235b5fc8331a0ef36ab40cf00881a1592f;
0x10dae4642d4de29143dd5ae8b72f56fb7800d664ee0c121c9990e88976ceb878;
0x9d1b3f83888c3b9a018f779ca69c7480aa60868a1dd1ae22d328df4667ac672;
0x1f8cb04b5c6155dd321920c129465f8033161f66a6629acbf67d0ce8609cf2f;
0x196b76cefdcc7f6a54c71d40114a0bb82694c936f1573ac7ac1ea3fcce1fe938;
0x697468fa48ffbef2def6f8859c1276f40ed8603b54f336a9f5bf6c986dc4472;
0x14845ae5256ccf9f52ef754d6e9f93df1320a86b1d085b642e9ac35fc8c659d4;
0x20a0e20ca969d47c57a6fbf1d7c7be6fa22100b7c59f0701d589dc3a150ee595;
0x1a54b1065df96a7fe52babdd1c8fc70975c19190d7e3f0cb6ff113eed0ac9601;
0x60a95bf72d45427efcf1df7d0374ce564d824bd9371afbf03b58a7c2b8257bd;
0xc6bae2f35f833cd1099626a254a8dfda1efb2aa199b74f9fa99777314688d8c;
0x2e075d54e2f7837c58a23049c4c5bc210731775ef5ca93689d8e411d3e25c05b;
0x7315b60ae704cd80a3649afc32608e8475c1b87ff88966d8e4bddd6bd5ca97;
0x1c5f8d20fda642dcd8db43e9361d4188a8f48dae9021b84073ca261ae50f32df;
0x13671823102cac626ae6c133fae6cc40e2a2e2d7f8a1191889988154b605a740;
0x10f3889ecee1bec4a5e6c7f0336f7d193acb1cd6cc1b5de815daea4b3b760f8d;
0x6290c4b1f8ce6ddc74050ca5d58142389edfcaaca0b3b23514e864e8aeade79;
0xc359d3a8e6913715c369908a57f93775b7efcc28d300317a9c80812d9915a1f;
0x1b7906c8c29ea1eaa52ea3073c80c666a686912cd52e0f8804d61087d3968f86;
0x140e7636bb9af6ca0bc1a25757a7ddf14325f99ac07e34c22fac95cc25b47d2a;
0x1a2ffb754f4df24371e274a2080def1f1eae921b272813446142b708219a4277;
0x8925574c3dd6d39347dcf0d188e603ba86c85d8ad8c7bb96b503be1a4b01fc0;
0xc4d557652fd1a40449b5245494f461ae0688771c6f4c6e287632ef3d9e19d86;
0x2e9c11f9d848f461f467311174d68af36dd75eaee8fdeb0938fef3412cd09e48;
0x198350eea49489bab667bac0f4c78b18f31c0d2fb615f3475ad0050bc0e99525;
0x1feaa21fb6aa40e6d3b99d464f0c9f21c0e6d29fc4733bbf6513a40ff15e4db;
0xbfe6c87d65833b8b7963d8c909b789d379c0a822c03e33591a77bde69936561;
0x9d31ad63366f19f5de31ca26fddf1223533cb9809ac773c664e86ef943a5c97;
0x2092b2bc145c4332074825b2deed1cf735a606687b4bd62d6b70147734da47f2;
0x2c650be19dcb6005092570c6981b6c6701c999aef85850dd7524c99b0eb50772;
0x1987da1e063088e505fe1c22279a2eee2ba492e2daedbf9bb7ff7fa0ea0c2244;
0x2d964e6c97f1ce9fe98ec13e03e39a1418f7b586ef6b624c9b14fa7a56d43e57;
0xe44e2dd16cd81347aa62325235cdbeac7496fb36bc98a405fb658891be8335d;
0x2b3f3be77f4eaf5ee65b1dc9420fb479926f707b6494e45c0c3456c9b1149ac1;
0x4510148cecaaa311e8815f62e0c11155a204b9e8419430708f270cc90369541;
0x121f5e52b5ed6d974d5d8b5e9d535eb69c207cdfa494e75a99a26aff13c9c3ae;
0x250897c08d5b8b109dfb0a60a31e2509ebfb5a453a57044cb4d1cee1cb36254a;
0x196b76cefdcc7f6a54c71d40114a0bb82694c936f1573ac7ac1ea3fcce1fe938;
0x170ded62e47a24d031e0d09a9739c181a05ffa6c072a0ae4476c8459026ac92f;
0x7a7d93f07720b729d0fc11ea7c60a819a915cf083fc5590c8034b3e299ba0c7;
0x2b38674819134ea743614550a13ff1e8c4ae2dca4c098dbae7179c8eca382411;
0x271289dc176782bc802a40e2b98935e1f0cd9cce1cf75187e8bdbfc5fdaddfa5;
0x50e0d49763f9965169c815ad6d976f2c1502d504427294ec650162b32d16249;
0x1e16a7619369f7223562609f8571294ff3134b6d2900818958abb801ed25a2a4;
0x55be327e8e9177db48e781385c7cb9fa1eaf7f944ad5806b8040d021328ff4c;
0x1e218f8a23818b358a930aaac6880250eaa814f4e5f4ab3720bcb53cdb1f06d7;
0x344ffbdf73e00c5ac9603bb8205edd7a75d44a8663da028fd643d4d6f4c2ba1;
0x127fe6bca0178af93f621d5cb8c0f000c81096f0b6d97dbdf51785ae1d35581a;
0x286df223607d95bb861a49f083b6dd9eac58b63dee9aea94b87f4a70e6e06e52;
0x8e3e56ff4056ea0cce72cac7f1ab3a3f039d5948bfe24c59667056ede70e1ff;
0x5530286c0e7eae0c6b693a0503fd0271785b1a9a8d159ead68b2777b07fb552;
0xe5a8dc54f4762a808e384f96b9af4ac56fe9a046a3ce354ce3f7b02fe5f8840;
0x12ae091a2d3ceb050262f732366d0461725681ef6a2c98e6cb2246e0821462f3;
0x1bb12b01d476fb2d879e3d80e38294091670654bba4f2cc2556bf47a7fa3e533;
0x183408f575aeeac085a605ea9934dd45294c7665bf3417c2ee55fed79fa3ff4e;
0x13ed068f2325d6098bf97f4201013c9cc366c2212817303a540fa21a530b2186;
0x86a1854cc12612ddc29d8130a224448fbb3f07faceef1c457b212865cbaf7f3;
0x28e0905fb2b0cda24805076055e7a974487c163f6e275de6f0a79c2953f42686;
0x13482a7e8bf17cbf0d729a877b9374b9bdc382818d0829df7785161c845df5a4;
0x411f1eba980a1c2246e9dbbfc95ed50786591e99706eea93b50fd4eb7732792;
0x2e4d2ef29fa7855a8479c385ee585e191afe05e4948d3afb261713ae3846944a;
0x14d0b018b332223d8d3a458536fd4bb2c8ab2765b35cfbd1b4f5af2bc7eebb85;
0x7ada6b05a15e228c703ea1deed0d89a090c888e04aeab93b903260d31fb63ab;
0x2bf8f1482d4178227da9ba8141f98d764d7d25723d12a474a0aaf2b6f500fdf;
0x1771ec5e8d202af9fbb5a6ccd92808069ff98a103ca38e60216f4c29bd138027;
0x1cc45818383e71faabb1f0947a7f2e2c6fdf84ce43bdaeb3108eb95c853b951c;
0x21ca4fbb38c5efb489a858ed9b5550cbe80765807ddeb5403956a91d3bea3921;
0xb264544c114744badd140a81312486c6ece15085107fe41743ffbc42457190b;
0x63f973d8f7955b230c3f623e86769a8f1fff6a2f16f542aa5d25450d77dfa26;
0xca567c8c6074baf8976cfb1c5d6f2d339dd69b91c3b86360bb72b6cddf2a05a;
0x196b76cefdcc7f6a54c71d40114a0bb82694c936f1573ac7ac1ea3fcce1fe938;
0xe84546d43156eca6ea9945a1f0bfe0d070c7b5f596a165d6f5b2db25d70c898;
0x255224468137fa5731f4a79531b0e41467fc167a73eff9a2f8606ea4b8854157;
0x5e444e0bfb3002592edf3b1a17b61aca96cc4f55369ea0b858d00a2429413b;
0x2c9547cc8c30279572f43f6c98e57d007a8d8e00afe3232f22c86d92cfb3302e;
0x128d1e7dd33b8a7eff38771210c3e2e32542927ab8a5bf70b304eac65a5e89a5;
0x117ea550387989a27267059d04eab27171d97ad177b4722b9076ac7850469259;
0x9c2d962801e81427424c3b82a3c2590f3d3a015f5d05dfae03f1646e85b83a8;
0x26d1151c34d444d61380f618137cd12d3856a5112c1a229087d5237fce352402;
0x71de2aa9593a6be60d825df98f433ccaff569e8f454b57a1a92a3a179419b40;
0x78af695ca1926d0211a0c74b15ca6a21b21530751b6c89f16a7653d7b749273;
0x10fac024afa92974f4f4b43777c31f0eaec838068e24173416e3e55f18f74229;
0x252a24164cb696970f2696824ed7ab40a422cd2f561c1add5a7b94d9c8788416;
0x2dc1cca380599b8d9c74524f5f370ecc41d22c4c792717a7ff91893c9e878bd2;
0xf1970c566c802ca51f328d7a61668732660b84701dbcdc7388dddb0d503d32b;
0x14410ae146ba19441bdfc99f88fd2425a30458ef81a97cb0757278de7c71b6e3;
0xea9dd39706c27da7b07438387714c8e986a37c6bcb9cfe0aa413edb1d426620;
0x12a0ec57214d783396e73e66cd8d163ae207afdea093f62ca08c1d03849eb81e;
0x15f6e3cd0868b4e3bdeed8670ccbd35b084b2ec7d9f70e1b0e1bf9179f4e7aa2;
0x273ffa3f96b6f990e5bac3da9121fead4c55e9a53a4cccded8ef7768777e04b7;
0x265c7d50300accd451f9d10a056a0a9c4b61960abc7ac07f405544d2be981cd3;
0x25704ec82bcf245817c0b0c38428f80e097d181fe4be674c56a431704b81220b;
0x2bc004a70f93825fc7dda4611642819d5667d0c84de02d108fa24e7553a8ed9e;
0x2c67b0e93decf3dd43ecf2affb6c8ec2681b530e89f028592649fb853ab6913d;
0x25d1957093005c4eddf0f50960ec66bb0a71e99dfe635f3882224ba50ea2a19c;
0xc05aad7df610539bee690ff338426700ee57012dfe44b456047c168d9f230f2;
0xa09feb45b441685f960784f20a9daa679ffed8343997e028fd527f1c9615f1c;
0xc3317b6e0f17024f3e8d48d7be78de51e60037b098935f715c5f7afeeee5559;
0x186002e006875015c7995b512ab297b9b6a2ace2f8b1f23384f545a47a09eb4d;
0x607f219a0a42d65871803946f468fe1a990978f7a7dc0a6565282240befe85d;
0x83054c73153f2594282f425afb21bc06076820a2a936ca2e88aa93d198ad89f;
0x1d279f18a4b248bbc61bf2647394bdced0fb95c8acee6dd036c0ede0c250049e;
0x2e9fde89ba2dcecf4a0d11815b6dd2a93ad007660b67c14e84e4845521b47755;
0x196b76cefdcc7f6a54c71d40114a0bb82694c936f1573ac7ac1ea3fcce1fe938;
0x66bfcf07a648bceaa19dec1031fabc57395c4dca3503000a98eba19c54fe970;
0x276ac7d1569f671ee8f23ea68b34b200488ba7f18d905e67ab0148bca152d25a;
0x2f20f2f426186af0ee321282b00a2a641ee2b251399734d15e19af27ecd42de3;
0x1c96a460e778f4af5015f52cd38cf2c41a6a9e85f6a30bb5f3435dbccb7b9e4e;
0x227da7c9930fdc00476ca6928729411b9e65bdcd361ad27b66ec4c4e5b529a57;
0x27b1127b1ce6f0686e0722d5c5a0cf8847ac68dd8eb498a1a2f6124a4e7d3eca;
0xa510ccb52f446c48a9d886d6b7a6705680356500e63b4adfc43608a30c0d5ad;
0x187297811a78c845dcc821d8193d2ae2ccc8be6fc0552f3e810ed9a2d044d7fa;
0x229793d98c198e355838ad9410d16930e88ff01e0a86b8074ff75336afff596f;
0x1214cf6c699c46ef88ff3713be9f3beec4ea27cafeed293326c7db4166b31ce9;
0x2099cfaccaaacb25e8c1730ff9d91c6f82fcf436589b18d1a092f61c766af9c2;
0x2322866854d0c03dbd891bca034f176e411dda04203b47ca04ca2c2a82aa5f23;
0xafe4184fb8af7ae9177ded93afb51dff550c90fd4ab624c95b9e0bdb275ffc5;
0x18981ec4e7b2dd5b75057171332150d62e2ebed5bc63ee632a6ccb4146745f94;
0x1fb6ac0886f9dafcda077d270effeb93aa074c26a62ea6cfd141b82324dff556;
0x2aeadacfa8410a4c07abda74bf85806b7034785279a95b17c6ec7a0ecbc4f72d;
0xe640d01e5ed243961bd4361e2d3b669bcc5bf35bbd30181e231503e0ea04329;
0x2e878ba571f0ae43c5d79cc04becc7c8e65316c9b6b83c0cd56124dd51966ffc;
0xe4671548304dc6301e30360016f37d8289e8570c4fdd1189cc7fadbc02f6719;
0x49f32a110437e1552ae6163e0890d534b044bbe2ff3839eb980ac72b15ca83d;
0x29be7fd214d5ac3a21e930773ea4404cad8e7b751b02e186711e07797362be6b;
0x6d4247fe770b6bf51c7b739fbecc3aa418f5920eef7624676835ac1ae061d66;
0x21c02a9eec894a1ac2eb56d27410ad620122e3a5adfb8a8f83ee617f9525cbd2;
0x232b4705581121f62cff2b79d0c8ea43db47514fadc741b3306a6900a0bb9021;
0x2a3137d0e0a9987d06f2fd2dc9f61c22e3df55d4929a2322242d6a6b36e6141;
0x12814250a734500401e41c65da8949663d7afe8c6868643a1dfd086389c29d15;
0x1d221587e6acdcd041bc0e164a9ca84970807de46a767383c44262cbfa1bf972;
0x115ec085da8a3839212ae49e93243a25f3b2f34c53b5786d5576e8a5e626319e;
0xcdd08d5c710e497a583166923360d16215ad9a3a1629daaab0587b45de950b9;
0x921c454f7b3d19a8c766875963305f4b4d6f7f8be1a2c4119315dff25c111a8;
0x1b87d132d08fe5a6478b2ce4f40d73b8d4522fe23a4b26e96b31c9bb6a3bed69;
0x22ae2be55bb3c7640477286be689776e1514c8872e1e0361ee36b13138d0f6fc;
0x196b76cefdcc7f6a54c71d40114a0bb82694c936f1573ac7ac1ea3fcce1fe938;
0x237ac6aaad2e2ade78bbbe46b6d53646c7404a2fba31795c331db8da4145e5ac;
0x2877189f4c0d9fe01baa33a2b820b84a4a3a8b92964ea9c7b2149e4a2547d527;
0x136a6e0031d277288d586824994cdd3da32221fc94bd9c961cbb4a371c6d16e4;
0x18a97e7a120e79f25dc87650a56a580604ad0fe99a7b5c93b295b7231fc13e35;
0x298a890330408d2eb3e6aa31347e4d68c1bb979a23d9c7266e63b47580fac913;
0x191d5d7b95a739bb75bf19d63f8e787dd14fe945408aa987c749ac01a4e5d476;
0x2449e2d526e2920627d993eed7cf4de57155a00e5f071f059b94eaed73645b35;
0x1a0364ee68cb9c8a7a0e801daae0ccc07d92b82686bf5bde72c074247f6767a;
0x1e88daef2272c0f1f9792a6d85f29b403deeb1f4f234522d28112c466790ce71;
0x2c4b0d1c66062af96f71c6b23ea770f5e53c39967f0d3b1a950df67c9766432e;
0x7ad869f9d13d9b270b37cf255b577346ca286f8979e546182c4b9139368d186;
0x2015d96937e823b49d8eb2f7bcf3be82a8b6ea9bf53b5fdb52a4bf72c4375a9e;
0x1ae82e2228f0080b37ac0d77083c3613fad8242b420de1a24fd6376cdc8d79f6;
0x27f0ebfa6e2ec9fed23a25c07cdf68a7dd8bec39ce045c15fa0e921b75df31dd;
0x1b129211eadf48d228e7a13a9bada042edd5164ea595d523503727419a5b6a5c;
0x1541b4e3bd42e9287b5e0bde5ad7c3ce76dd326a0e53418892067a6cfbbc1bf1;
0x3cb9cff50f4d9d174ffe46e382184d9a99306f350971156b859d76d13a4200e;
0x2191176d2fe6b3607227f17aecd711d31ace1a71987962dab59e2d4dbdfdca3f;
0x333a98f84a220a59b23b41a6eec5f1293aae65a9c1412fdbd05b6c730e7fe86;
0x1d3133dc479ed041791efd9f449ac6b7a2ab67089c2aeadc033b12389534c8ca;
0x11a957c8acc043e1dd0228a3bc3e2ca5054dad13c1c685d3fd1c7015dc541b88;
0x9ab1d5764d1ab372770e72a734f3234e944f231d55b4802feeea21ff00cffed;
0x2ab07fca009ae3784d9172cd0de7a03ab1b413207754249d54e0115671c61648;
0x2f26dcb5b014b72bf8a7df0100847754ec09bf69ab23050aa6ab45b8bd49a8b4;
0x12831914375fab4bf02d5923d4fb07f59ea7ec76fc424eada862287fac0121aa;
0xf01b766464df2a94717e0b5670db63546816d0ec951e74fabd2070364513e10;
0x1eec1596e07215f120c71f3b7fe2c872c0d1f0ecc2447cd0382ffc1b3d74ccb9;
0x13a9df3f6c9c0363c8e81bb2ec06ac0124cacc3aafbfcb99ce0d12b15c1d960f;
0x9941a17ae1ed8d69ce140125c49306cae9ea0a037563cd93dadcc09c1b8994a;
0x790fc3d447ed1058bd5eca57d37adba8d645d5c42e7441e5c508e6cb2a7d581;
0xe11f8951edc551adc073326138ef3493ec812ed643400c53da02d49033963c0;
0x1ef50d438e0fb3260e615f2044df40bcf70bfadc6b819481222ddc36e39cf1c2;
0x196b76cefdcc7f6a54c71d40114a0bb82694c936f1573ac7ac1ea3fcce1fe938;
0x19a6c9e51754a1ba0ac6f28381aa453e929951403794d3f57566adca54593cee;
0x2fe2b32027a048ab3c9fe57e0e0e63168c1beabe9cc3f5328bfc6e2620d1c0a8;
0x252a353865d1bf6df4e243baea612d8d67a58c9b91b68be6f6ab9fd6cfa6f052;
0x2445b945a65afd2c8c6d1e12224f0e1b5a7a4ea158a67dd4617f8d408239bd68;
0x2aedc3a83dc324a21fc06b06f1394d6a5636c2f191f252e9d927ccab3b8a47d2;
0x11ef3c2372ad8e0fedad2ada9740cf104fddfe5f26a74759e174eefa6f5aae49;
0x16540a4f6d867388866e79a4f327c50bc06c7abf88df4fab1af55b9693c0833d;
0x226a8cf3b4fd93fb027602a84e5c84e19fabdb3c6b0641903107238e7473f4d0;
0x15829949331aecf0006a9e8f46f028a13efb7754976721622d65b6f9cac5756f;
0x219a0633cbffa129b8be664c32a15d8c6f307fb00fa27267628de8a7cbd4da12;
0xdef3ce304e0b1f868a4036fb628bce381a92931de8dd658f9a4db69808c2c5c;
0x2bccbcda22270d6c62effb8e392bb7fb97637993bc102538c5cd58e88a228a4e;
0x188172fe781d7b1804c9875e732ae5ba92da30e3fe79193172a9b2ad266b912f;
0x1f30e5d70cc514c78a878299f52f298eaefbc73811fd69a8af04d6e1b235f8fc;
0x36dd7eb2d37c58f0064ef539c409ff1b2866f3e37995a0e6b63d2e12794a65d;
0x2943d171cc678d4b3e7bde9fba8cc6bec123fd9e18001704074c6b53b2d7fa55;
0x16d3bd98a136cc6ed17d71e7ed150e659bc21e304859d7e91db4a75311b12c17;
0x2cc46361954b156f22dea4b4e5836d017ad5e866df6f9179696836eb0b9ecde5;
0x2093732993458c1dc5075a90772eeb28239503ebd2aee0b0831f253b5795f431;
0x26fb0a33d8ba99f9d666fe22149b4b9c288f7a356f7d4d62ca019c426eae56f6;
0x2ca9e5344928b4c5f6f6d72ec4bbf9f331563b93f78c5b6c693f9ca05a03b9d7;
0xf86ace9eeacefd133e6f9e5b27e768d4dc41fa8a4b6d0b643d59a99b972b97e;
0x16aa6528c3e5ca07060d40caf2050fc7c1199f3ea08c4bd2841f8816f8ddbbb6;
0x1aaf0a3512751441abaf663b51bccc82b4aa9e031f95fc5ad831b6f5104b32e8;
0x1693d12dc33373065921094c6ffb59f1f0361b0c5ce1b20e8f3f4f1bae805df;
0x1a5b1eec5d855cc716abacd6b5ef79ad4813bc74fa3265e0f4966768088e24a5;
0x1a98219aa97845f039309ae314e1658caf33c72235d5a045a11231048dc85871;
0x27d38feb2f3ca73be6e78b2f51db9e904bd78d3f7ed495634b22c29b28847943;
0x27b21eb7516a84220bc79c6ba5a35fde0c5804d4dc2b469f034f93245cd58e64;
0x10882cc54c76c057e84e296d8568fd68a41a86bb595cfe644def5dee16e2b60c;
0x2a5a015eeff7cd48c5f9d66baee6647ebf41fe73f15999b85aa738249667f809;
0xbb55ca8ec263593081a7f140c88ff0eca81548ce6c2fc66d3c9041e7e61a52d;
0x196b76cefdcc7f6a54c71d40114a0bb82694c936f1573ac7ac1ea3fcce1fe938;
0x11a95faf7782644e66dd690770be8d58aff9b21c252a17353159e8e6a9cd2d04;
0x1809bc4f74f8da0e56320179b35cfccf08531a383f8f38f055567f54de408856;
0x29576ebe8b472aab3c418866b657b4bead5aebeb46731ac1686234f997c8064d;
0x15fdd752a74e076a3bacc425ac17ef974ab4ce00d98e3b766e4e9da506338bf;
0xa39afeb11772f20bd44212cc5274dbaaeb912c073ab120a0e3a5cff2f95321b;
0x1bd3c83976780db74f4bf261b609505ba17d4269a823fac360138142fb482bc2;
0x2455035975952299afab678e90178017ae59c02e88b66acbfd33a9a97e4053ec;
0xf54c6e582707940d37a81057e0331967328f0402b139f40a152a537050d4eea;
0xf3edf4b1021df9ee75bf77288e35c135bef2e641317adbff2cacd1cd63dfa68;
0x15a4b29ef2de3e66e4ecbd99b63fe784c3d163534087d6e752935e3a66a81061;
0x22de01c525edac04ce6418e44df62cfce81abc3238c0832a5721e81410124db;
0x2f75cfbb2d72a93661691b3c313d73cbf48e570aff4a8981565691dbe6e7244e;
0x176215e6dde458ba94fe6cd32886ab490c44d3f35708fb83ac032957477470e5;
0x125224651632beae2362689f3f298c3d1cdde20786b700cf154dadf04aea02b2;
0x25adc0480ab90662ace18ed71d4ec243b5d118bedf866880e5112278621657ea;
0xf1656323cf512ca13dd9d53b6fea48d0bc03b7a0a510a1d1c376d7c879c0a6d;
0x1f7fca35f19d9bc9a9c510bd904477a82a779df52b3d938a34ad370bcbe107a9;
0x1650f10d70200c4cf9188ae72b638a48efa885d0d57e4eef3bad1908117cae47;
0x2efa5eaf0d9848a2ba0426becb0edb4127f4afa0b9532f3cc8f63fdc6f9f14a3;
0xad402c14a8aefcb0dc67b5d3c1df188d1cece3de0f53cb313bd630594e20123;
0x9874e7aac804e0a72c21eff6800d99327636c1bd05752cd398c2e19210a92c2;
0x127d6e66dc4de7272bc0e6174ca40f48618e1c90ce71f173e0363278e6e26edb;
0x178b0d219dc9fb0d491fdca28d89d4f41d0e650c29d8097a6ef982a3d45686ee;
0x856563611627d9d176f629668c19a7195b0bef83a02011485596c0fb37595bc;
0x4f01e13e7e01f0fb607f39a334e5ac5a14649c65007df2e0125d2c07f165f4c;
0x2fdd1f6a4746ffc3721fe601b31335874a23c0353b217cc6a65f98b52c48c32c;
0x17732cc9a7ab756b3ed24f4b5cd348b27c476b0804a47e8e8024fca28b858022;
0x8f9e4a25ef65884dd6b159c396447f11f374cf781a8932b436e428d8407efb0;
0x185536364010888ec827263bd36282a0609556021920ad8349159c80d6895398;
0x1fd0879f9628b76eaf032db092bb6caf8a03c437a8e7cc0c81c9531213d61b8b;
0x122fc02a0d06dcaa8bc1ba52dc7905ca13f2766023a8e7811876071cb0bcbaf8;
0x8130052ffef7fbdc6d1bd38334212f34f3715f0bd1dfc1b36eb58331f5e9106;
0x196b76cefdcc7f6a54c71d40114a0bb82694c936f1573ac7ac1ea3fcce1fe938;
0x21c85453b5c8f53b3e43499159ccef5152fc9bc3b14cf1d67e4a80e49bd83b;
0x273d34ed60e945fe972b67c2c155653e1c5c38c4cdff7c5753de7c68d3bc3261;
0xed8f8c0b64423895664ee04c994ffbf1aed16eb8f6d2c05b46edf07a56d2777;
0x9dbc162c39375cf6247de315a85e1730c451e59671499b7bab9f73ec47c70c2;
0x2bcc328db7c571f892d3d934ae7c031792571d716f51494e8b10fad60b9f52af;
0xf2333e3ab2c7a3c13420d4380f2a8fc867538db7882a5fa6a8d899e4981889a;
0x1bebbd7c3e88b63ed37c373e359a741a38d1b8de608adcc050b051dff7b51580;
0x101b1cfce09e9afbcc995aee85711574de371ff76a293ecb26b4796a16bc57e9;
0x9866b876de53973d54aa01a3095719031e0a5ea78e26194422dfaa80c7e39b8;
0xd34bbeadd10a0556a40cb0e5f84ffd96baa82621d7d850260115312fef1a5ce;
0x1dcdcddcc0aa7ee28522e5b331b2805fb95a75d2e90f876940091c4c57345433;
0x222013e1cb04b56d232f806664f4b950bee1c8965d49dfe59c7d9a7f37be70a4;
0x140eb0a40f600989bc70937e2fb3db0e1cbf4ee953bb5dfb11c3ac257105acbf;
0x1c2a10c01046a2bd06eca1a7850d8815dba9dcb5002710d469763ee12ce733e;
0x4be5c9c1a16eaf24f0fd62603edfab2a731488c6f0066a29bdd96f8595f903f;
0x2aa1bd7546c15d05452c1ecec07be1a96d1a916f6306f11eaf52145be3efc41d;
0x1ea9d7108069582c4db4000fe9c999d50a6732feff50099ed5863996a0f4dfc2;
0x244b02346c1e7aa223e1cd73cc84de1c6a729e722410bcd9c6c21c10f81aca3;
0x818f382294f0d2ad1e50c908d6d58b0567eace452491c7e7e2ec8f02dcdf30f;
0x1a889d417861f076033045816bd9d152dc38a64344876435c43145551e938c57;
0x2a741e0f1842497fbf481fdb838af76f016c7c7f902d0f1cf91946d9b19b8f0;
0x6da5a57ba1e1f0e02b65254d7ba4170ad9f42f8c2e209dd3482d9d100dcb69c;
0x2b015d97e986c22f639d439958e5582192ae2a3c5e63a93876ee2cef01cc64aa;
0xe6fd84ece440532b1d2a84794a2c0905d14dedf21f1cb88ef011d6d40a44966;
0x180cc40f9b1a551d6f21a2616a31fb14ae3de6cd3f90905090112f08cd2a517f;
0x113bdae7dcdb55a5a29449e0196a7ca19785e8f406aaf81d74f7c658604d7b5a;
0xaea1a111b956238e2034bd82eb6566729d6b744738d0f907c24e91cf0e270d9;
0x2d877c0d3637dccbce6fced14de0db189ea37e2192595d31ef7be35042b49789;
0x64a1369e5439801597f5f4e2a95058e001cc3b7d449aa87f991c81219590592;
0x133405bb6e5e245a0ec3785cd300ed55706f465191cc6af05debfc09ff323eed;
0x228bca7f9390e0cfe1125af0b7ceb2b228fe7d373e3bfe077385682669dd6231;
0x90116384ea569082bdf437341c03094a1f388ee217c0e6aba3987a55cf62d3f;
0x196b76cefdcc7f6a54c71d40114a0bb82694c936f1573ac7ac1ea3fcce1fe938;
0x2dcedcc12959aba1b815150ec24051fb4dd8440208b0f4eef706f364709fd64e;
0x4aa0509e7a94554490885f0bc0055b4f23a003e14a2cdc51a8f1500b738512c;
0x1ad3b6634a63d1bd97d8d745888387e7030be2bd5219c84de5a4b21f6e6d5c9f;
0x2722ff91fab311d5cd493305ca2e581d23ab35103b7a31d7436fb4351e5167c2;
0x1756e34f7af0be32dc4312c914ac48b60ed892e0a941866b5990c475326a0a08;
0x1f9681a26d581ac87fc486d845382aa8afb31782fcdc16ae3e996bf79e8910da;
0x2c407593aa6fea946d0ec1289e59dc993dbc1d689a02efefd916c42b56d4e056;
0x12d5a1f35a3bee7be87beb690bef3b422d4db19f18f457345c5b13732213de41;
0x1e444d4510e2cb542a4bd1af5232ab8376e5998f69193243509b05648b59e317;
0x1c51186bd573f6d8e39dc9e5f85ad954ee64951ba2455dcd9f415b2ef44813ae;
0x24c84617d0f0266fcf18464eb08422f51633915380696b571dfcd52fdcab3825;
0x4894d26fbb969454287e1560c81f0bd33e93a0ff0e360f882f03621ffbb724;
0xd669e170c4428089bb490e8af37bf2b4885f61f49154eaf4bca6867321330cf;
0x54ead1e70a68a2a5bf0f9831c8b37e0c4692840a5eecce2f10842aa9ff4c77d;
0xaffcbcca6d353dc0060f6c0e87a7ed6926d6518e2e20181e76b0ebc3e55738b;
0x21fca621016a771a181efcaff53647cf8ac55c30813c7e1b7e0c54b1b14d4fe1;
0x12f2e46957b88910c30c9554fd01780e074870fb9df0252cb735dec70dfdd6df;
0x16baad45361a5052c6008a02803656108d8bcf1ab65f3d1ee9c866e2a04f1713;
0x202cfdc4cb85ce703b7ac41cbf904593481c951f9faa52e44594c3d0aff5f070;
0x2782837366366c2f9b943714e6a11097321394713577fe59dbe72a78f4d93741;
0xdd863bc6e9a0abd947b2684abe555a269da1eb7a491ea6c5d3c44e0cbdbc0d6;
0x2b1ab0a5b5516d7a4f31b68c93f21638a3bbb9ed321b9915412b422929e8d42d;
0x247c684cc872df52c2396d52f5c691e459e181546cd644fba41843beda35f07f;
0x17b09bebdffdacc6d3abdfd4fddeb0a1d04150563119def60d9ae9de6b13d0b9;
0x20377c6ac1d667eeaf88e001648da149ea26ecbaacaf079f0a089fd6ec42694d;
0x27baae8b9a93a09459ff4c88150b93e9fa3fdeb4d719d37e4fb03b29afde1b0f;
0xe105b04d1d6efb0def9dd3f43655181cbe4a1ea329e779cec335e27190d0840;
0x1684a9463b01286e5ddac76b990c6ae285c81fc4f7e7715b1ddc827e5caa82f4;
0x1a1171d2f0e3c131bab4ed613fa111bb85f3605028028f5c1337b4ab542af356;
0x228742f926c112c443bc2e362be8a44c49ed66e17038f7be297d51482c548ad4;
0x10bd84eea945febb47f7296e5bb833378ec26f61c36d954b87a5423754b0d1d1;
0x2d17cac96f225898038e5ec16560f6563f768a7e127bf10ff8ce1bba63d032f;
0x196b76cefdcc7f6a54c71d40114a0bb82694c936f1573ac7ac1ea3fcce1fe938;
0x23091d6274d72f0516c11e52c62a89e2c218acfcec269d8588246bc63dafd307;
0x9400b7e97812bf8321b96b3c4bb695dab509934e197ef9393d9921a320fdc5e;
0x1c9c8e269b7b5d2527e20b5d340f2978fe4f0b969e2b1f33b5ad8ace05931036;
0x29bcaf9978fe301ee64f032f3b6c5aee47fa89a118490ece975e4765a688e277;
0x2c43ee462e5eaa57409884a4bf82116fc74f060cd3ed87b249066bd753e57833;
0x1045ea9efdd2d37654f2f419bc1c1e07dffc13a78e78329d66a80e816b75e0f;
0xbdd990f09c0fbfcafb0ad5d2e7609fc639f4643262b9fe6064b1cd9f59fea9f;
0x1cc3aecb65d88c117e077773b2ac321f1e35552bb82ecfafc19a6d7f58cca0b5;
0x234ca75eda2b98da7aa4bcbdaf01b94a0ba116a7cd4def0864e27ba56623ac56;
0x1e5844a479ef874349416efe4ad14c691bbd4d60b6a069ff6fccf0b4268368a8;
0x15cf4b909eddcc0af84d45aa2a5ce40f004cea2337de82214b5b1b8bc25fafc7;
0x21fcbaa23db9816f459fe5dea6035f4416bfea9e46b1ab150335fc986a5d3454;
0x23096d193c542015f5ea72945e427601d8c5213652cc7bed15a26118408f3528;
0x11ef3930fae556e5688b2e5c5b646a9bcf2cc8c9ed84699798e380534da1ba1a;
0xb2804a0c39e0406220d23e5180ea34743b823259dc5c037e27fa14d97aa1236;
0x293618a713ae76e001654396f1e7ce9885f07515d1a52ae6188bb68411cde19;
0x2083bc523f48f2310fd04db4378e73b3e4a774c04c82721c347d841cd429c1ee;
0xaf7b362c84812df2052d0e04ad07d830100079327567a741f0e33b05f20a3af;
0x2f0a9bfa024571a9eaebb8b6c838ee153298f8d66282665b8d413e67fb9cfe75;
0x8e5f97cf239846c4bb22151c4fc6b54f6c078339d48834cb674108ebcd533d8;
0x2ad7be60b34c132d62758a699ee2b9b9902b5a66f4d0a1732957fa312693130b;
0x2bd813ea81fd2be04cf74361aa9ec03890ae9dc9f2c62e392aa0077bcef5c39f;
0x2e720551011b0b99d8a0265f870ec80f9b866a0a5f158a2baf5647f07ebe9982;
0x2bf18b6a692d4c64185b59523fd75a045a4844d8df2d931c739fa453740b3cc1;
0x1c166f7ccb69a59db6b374b355fb08d50eaf4df7760b2c3084b229e822d858d4;
0x79b610d77c02e9a71628bdb9524d75ae9822b98d32f5bc8624e3512fadac097;
0x1916de884fe9cac13806c4f7061488f0a57abd1ae403ab0257d21b48a0e411ee;
0xf107fa1c9d4a774cfc10bcbc3b38fd7078e0f374b5e9bdb38e1e04d26d3c383;
0x1b3ef1482c15923666e1cd5dadca82661bfec0a3a58f89e54fbe8fe2428669e9;
0xa27ba24a2a7ad35ec53a125a0447abffccc68a9158523ff88cfd738b0212802;
0x1a525ed62eff06bd139f3fa58d088c836c381a9ef859bf16d0c4ed2400463a4f;
0x822eb9645c965d4f6b677191294e0b5c757d448ce5266f76ae8ff8898b6d0df;
0x196b76cefdcc7f6a54c71d40114a0bb82694c936f1573ac7ac1ea3fcce1fe938;
0x1af46f08f6cf19a75e2deca250a062244a541413cca7183cdfb8ff3496283677;
0x1839ce61b8c72bdac116fb26e68db1136b21e762a80dc263434ceae93e71e226;
0x7bcd29e7a46c57bad325631b9dc70f779746e4e3e83b6149cf7d65224299cc1;
0xa58deb34a1aa7a97fbd6de55294ad6ed911731da0f1973bb30cc4e50f974633;
0xc189862d767c9d55128b55fbad2c53c3c7f09f3cc3805404bab81d881c1f79;
0x3f08f5db02c8c4197fbb743163fa98e215093b833ca0c1d709a30517f1bff67;
0x1bd997c5ae62f46a4fa08c71dd8281fa20da177c45a5b5e0ea4cbe42a9d768bc;
0x1dcdc615a1d29786c2a6b9d356e15f14b0516022da0c8237329d9ce31e6c9064;
0x2125c1065d8c42af0dbc0d44be29723de30316bb190e487fac79c6c65180c6da;
0x2a9dd846b9a9250303ea18da7dd2f67d8525074d4259656b9d0def7f2ee018d1;
0x2a1da460ab707f31653862ab6df0bfaf474d39cb909d7b84314482ad8015bcb8;
0x2f4620be83dd42a9810cef816801cd8a77d59146753fd9589a4437f43c44e295;
0x2390bc3ee228ab2dcae07fd77d2f2b82b39be4a3fa9d15a82678d487a4ced7e3;
0xa0245ae7c93aaba110979562f1bb38e2d6e47f8f58146c2e0af29a42a8f2225;
0x27e3d9f7c0d6c32a9db8c79a3fff7227825679bac449cc5567f21edc213d94a9;
0x2172e74151fc03eb201e3e300b2a085798e6d27426da9b9e2eceac40374c95b6;
0x246a685246a9403eb01cdb380b39b49b35d649136870954260afc23e51129460;
0x4f050f7043b183cf35f65e5590bd1ef9b1a88b9a1154e5a6b48b90367679ccf;
0x1ad58c70ac13714b721c7e1e43474983524bf5ed75ea0a375964c17eef897acd;
0x9d3719d52186421cbe870a8dc16ca12d479447bbc1b7209991d2ada9cdd0552;
0xb2d605b80d2d16b8bcc936be91a9b58bf372160c58214d5d05340268db293e7;
0x15efc1be172f0c1cf80c28816163d6281796fe3f767449dce700031a9809382e;
0x18a72ca7580618a6772dc37da2d0ec3721130a93ed2baf7ee8a458215351c5bd;
0x18495f1fa2b09573b0122a6f3bbc62dc8eda0c773c24cfec946631bd226a5222;
0x22835e515350739783c361cb745419032be6d7a16c27cde776cd9a43509d5027;
0xfbf1fa536a4d74e1eb517dcb715dbd57e9c879fdd1184956e1aea742c4b0c11;
0x1bfa4ad591bc024f156f69c1c6ce033e65507f6f2a1b50f9a370ea96dffb4fe1;
0xb48ee00c1a3b873da040822c8d84a7d413b07806c5ef6ee1670502a2797788d;
0x1b0c2c9ff1649fda06155af9c401957dad06ba11c9d6c284ac3d7f6b2e02196f;
0x11b9857c7ac1e55d6696b9323eacd2b75e8e64d863221f4c49b50c0af4ddc907;
0x4d2913e434864bcadcd0a0f187751dbcfee68f8d42eda00afdf9fcc254a9297;
0xd47a86ba4e4c33ab37f00aaefefacf692c1baf9b37db068097f619f44061fb1;
0x196b76cefdcc7f6a54c71d40114a0bb82694c936f1573ac7ac1ea3fcce1fe938;
0x2ee08c0e4d7f163fcd113539b4be76d5b8c6dcc306994016e2f50b4065ac0c65;
0x2e4ee3771e570cac361666fbb6230033f0d2e5df5a43207f4c8c4642fc9ca473;
0x22e78c9bd18311d225b9f88c117cb18e658747d500bbbf61c291fe7ebe2bed;
0x1b015cfa490fa705be3b9f5645d4daa23c2098cb0939f019d1697019b00a4435;
0x153d716532b1856b425b07c5cf73f7ec4bad3458ff9e031d6c191da0c5150f5a;
0x25ddff7645c1cdaabb52a3ae26931620a4186ed35cb914b0cb76bec51f7b561a;
0x21bdea71747a451c7e825e508ee4c40df40404c011cd5f7dd62ced05f3841437;
0x2feda62db255b655f3be96a4847d2f1691ce658456697ecc602589c3ff0674db;
0xd3187541007936963cd4bb6c93596b7cfa56d828df39d9f8ff05d934def0ffe;
0x26e633f970dbba038ffa30d735ff34541108e2f7bc0e58fb25b8d038eb574c1d;
0x23c8473f9504bc04266fa76bf7064d8980fac8454fbf44f68c5e93fc37bbfd9b;
0x187a7a328ebe30f3fef7620ec582ae3b457ed1d8dff8a30d60c518c1d3f8502a;
0x1072a4199dd532ae3d36f2c3f07359148be4d81ca1f1ec06bcec2c94b50030d5;
0x1d9c9c64cced19734c56f62f6adedccf54aadb170d499a91617c7bc34f0207a;
0x1b09945179822511bc0b3b20afb76f146b119051e2c6c8f5b9dde03cc761b170;
0x29d1379f40c09d9a8105f1814f9cf4cfa8419d5442c22575a0f9836ff6728216;
0x200809b6e7114084a23b259cc6dd8d4aa9beca3ee806557a250f98523363d583;
0x13169f87f4d5bcdc80277fd4bf931744a09d4b0332e4e54dc351ec16f256db24;
0x22486dcd2b50c5a6e8b08cdbe012907083817073b975a842751aaa497389a092;
0x986aed7b10fc9cff4a80d5e338f69eae4aa25b45d931499fbe7080fe13a841;
0x2a3346c974a7faa8f021c72b4b516dc527033dd96dd87a29013a54ff235069d0;
0x1ac08487b535338f18f39bbb2410e0c04feed1b023c2b31a69c42843b46c7b4e;
0x2db4eb2420d57123dc86f82c289788f4f5882143e70237ed7aed2b318f2f3f6a;
0x179e156f0f6229e6259dcb656daddb273efbdc57b78b1800b3fd492ad4e2ee85;
0x18f1ed42c2dca995ba6b2b418378159005da5fd6d46f31d424e404fdf85ecd0e;
0x12d1ddb3125c15c61e1a07709ecd1782cad928312bf4d32dabc0f3244b98c067;
0x19a555ee9a57b0f249f762e63f02fc9dc41421569e40146d27b805d6926dbd17;
0x22905039eb92f068da4da7f2bafe65b1743fc2ac15dbd1dfb50b6a8b890fc933;
0x2aad30b3fda588c43367320323c66ea6cf3137cdcf1306e93d173f1a5f5bab0a;
0x661d95dafea3da65844c73147d86b8a152a0c737c6550d2a590597b6be28986;
0x149f69bee6b12529d2a1332a22ff6cae413b864da5232181dce528343488fb9c;
0x2f40107da2eba4e1d816cf7cd488861863a460e5e00780c3c07f56c946096b24;
0x196b76cefdcc7f6a54c71d40114a0bb82694c936f1573ac7ac1ea3fcce1fe938;
0x89517399fdafcc090ffacbfa0f82b1a356c182a9b8bee5a125afa14416693a0;
0x1eb0320ce68e5c0a8b9b6c8ceedddf2eec4a8dffc775f43aa9545f4432f1597;
0x9b3b380291ed46dae5ec6779af517d4c8253ef609e78a3611e09a6a9ebcfb76;
0x2712ea45ea88a54e4899de133f9d02454004209aea0434ed07cd33c9305c0107;
0x13e4cec6c5fcb7a55d2c5c9e0dcab0ff3a3f7c26edb5c0c5f5bc00c036817e9d;
0x132f73f3a5a70fe12bd077c340752e6837ebebea4e7e8c06672c3e0c09aa2436;
0x24f5ae848c7765ed4cb20417114c602e8186fb02d209b22262ef6b2f9f4c2d4f;
0x1f3203e2946c3e784da190ea76628d98ce46cec50d7720c6289b9a10b029102b;
0x405b17b0927364ef8a190472cf69cc8fb91338ad0a037a6ccd6b71d3d8a5721;
0xd7be909c6d203f7ebbb26f688c104599e34edad7bd4fa7fc11c6be8d2005234;
0x23b843266076f360c24e39af50a5f74adf3ba002859b6bb7d503abf45cc9d338;
0x12ecdca40e7a5ab513a78862d77f90435ce4ca0835a966112e42457c93520039;
0x248096c473071c7c2d5c8dd84006c245c6152e0f86221d82f9d0b2ef68a0c1ea;
0x1200227f631558e2d83c5b6c386dbccd8c019b327190ae6c21f5e6ab44bfc644;
0x1d757abb199a6c84d960aab443cefeb6d6e433b5cebfeb198f803eee3effc0ae;
0x273c19ee6be35b4b8999349c7b7b83cb57aa165f0b302a2d852be61e83409d9d;
0x2d1ca26ca5d5dce1ea42db19426bd074157d35e28ac98e9d0e25cc710354ed88;
0x2ecbd2ea29341b707d79a20744740982390655279542f9837e77f89b127d4a6;
0x266a6643f4b1c323fd22d8bd34c4f9c431032f05b0c856e107d92c70d4bd5134;
0x1062e99d5dbee4ab0c047ac41ccb0121b492e604fe10e2db4ad43ddf677f4266;
0x15f2b18d006fb5f2bf5801f8973bb94ec3d4b03e8d656a59bc09954783ee2b6c;
0x72368c0d5eff7b59f5b07b27540e85ea042a1c80ef063554f53982bc581dddb;
0x17aa521645020d9a4914e5679bdc70c0772edabae0f82c0ec5ec29289e0cf286;
0x2f968cd2126db9260be98ac5a64250d6b1dc60db752ce86342dea9d7d6eee209;
0x1824ed09caa77169c3188a0a3287faa284ed7a51977826f1f64a1c2be32c909f;
0x2b8fbabf299d9da38fbd033dc61444ae2500c1205b785a5fab8996dd9fd2ce68;
0x1be598eea60828e10e0c4cbea95736584eb83c6ac8427320802d9083f5e6dd31;
0x463af34caf20c7b2cfc3ba540ac128fae440690c1fbf4bd815ea2b854183ea5;
0x2dbc1aa280bb43c06573fd90ab5f0530ad450b992bcec2797ce0adf60937ebef;
0x2aa7cd41625eeed2f8e460ce63d2bafd64329959d40cc2e6fe1d5c48be5c501;
0xe3c80439636f2b40b1ed8d33f792f2a5d2e602da651491913ba45df63e777de;
0x3ae4d78e90fa89f943dc0b4c56d32f5c846734071ea1bf6bafeed9e83f40f4;
0x196b76cefdcc7f6a54c71d40114a0bb82694c936f1573ac7ac1ea3fcce1fe938;
0x1f3ba6f2a0ace67807ff54fb3752a740b90d4098ff54718df07cf6b99b4a3611;
0x2b2d8688621a0b62968c64cab0db27f41a51b32a84980ef31760d2365d2c3c31;
0x27ecb287f3d9aaf1137d4058abd749febc280bdf70dfb7e5b61a7efbdb32371a;
0xda7a17691f64048331fdfa135dc56a636b1bb8e1c08ba7cb06e9bb1a8f5dc22;
0x228e87cff48ac1eecddd22fa3f50214fe0505cceb58e8aa515a9b21a22cde940;
0xbb1e094527421fde9a1229ff4878eef766152df2998fcfa44ac7b71906bdefb;
0x2162e5b127d7ea5fb675aa6be31013c2b9d9429324fab62ba9ce1ca21b3c5f2;
0x5e7c2a9c59abe90189615a15ad93e146c27642aadc29e4e40b8dd9cb735f4e7;
0x3b7e7cd0a61c8a953ce16bb6adf8f61f49b560e1991497ec3af678413535e12;
0x2b48a6d7de08553fae906852fc7fb1661e6f5036185a3f1a75c9a9abd0c784cf;
0x1451c962e6d5dd24e45dc7e078dc64fcf59634073c13cbdc5b8792a51ffb8e37;
0x22aba4d49ebc306f4b7b4e2bc7b7a1ff4411d89890f9fa5ba2408cfdfbfd18ae;
0x8edd76a666b9264c34b0069c62d2cb61bbeee55882ea1625d3e178544cae4a3;
0x1cfa9bda9fe33f9db0b1d190eea07fb0dc6855b74ef166743abf80aaa1504fbb;
0x21825a8220bc43bf14b06dbd2b92424547a3fcd0e8b0d7ac7543f56382f98732;
0x22a03c9f4361294621f902a43008812d5bfacad871172c3004b7b58126690dc0;
0x2c4d459fcf7b58e7d7308af04d943530955cede00e37d3ed491b86f05c49beae;
0xe099659a946824830b1fc5e17d4d60343f2879ef488fa45a9e3b3af3e80a143;
0x3b256a5437fa8edaf6d7bf9a7b2e695f06dcbe80aebdca4f30e28c8c4a49882;
0x473c1deeb016648a6d5f3d0fa4bf31d1d4b9b6ceb0c7f4a76051515104a617d;
0xa21735e2b1040d8dfc4685c5c5a42ed07a02c216465ccdd3134c157361995d3;
0x1a0b96ee186897808d9130525778e13d2259a406282456b2edf84434e081716;
0x110d5d3866aa52ac620b233dc0d892c39f9e376307a7310c994c8aeac1233f4d;
0x1fa9ce9d08bc9ef43200929b5512236852d4fdfb607f5ef24ccb666dbdf053c4;
0x8b8fb57cdb79ddadf41dd3da20efbdcd502e89c8e21323ec99f0aa99b27dfea;
0x20e451f487bf7f30afe6895258df980c732440567ef2be720f683b4d9bce93e4;
0x18934ccd6b94d3d27af8fcd8f02b3b2aebe21465b9259c7def51799f1d971901;
0x2502b2fcb6acfdf7bfdda3e968afc622b949e55d567100c4007fa0b9405936e1;
0x1e22a9af8fdfe9185346e22a28e4fa435f64c8e0f382ef20f27c0f19df51e520;
0x1bacd78770219cde479b8dee99d460c73a22f674ed0066ecc55d2344c72a0fed;
0x1c5dcc7784cb1a230304a6905b05621618b89498a827ea77293b96d8fad9fe3;
0x1514f7a6184d2f5de98511d358572d7d89d33bb2c6d27a5fdd768178af4d7789;
0x196b76cefdcc7f6a54c71d40114a0bb82694c936f1573ac7ac1ea3fcce1fe938;
0x2871dab4aed8cf27bf0e9a2f02f0e7f9c46057ea80fa64d358c4acd2bfbf35ca;
0x16b48bc071b2d9d75c6715e959788a5c2c634a7ee951f61c6c252f9f4c96e139;
0x2423991e2cecb8c7d0cbf1f6c75a96fdd9cc3e1d3404891054070888cf58c027;
0xaf6489dcffa0471166ddb75d46bcbae57d239e90051d360100acad86309bb34;
0xa8fb4c80f28764fb489926f032e0f6bd6bb878ab5632b94e6f960e841780072;
0x2ab3c31cf9ddab37f0742aaee26190292952ba391eb6764ed69434d0553085e1;
0x128a537033583b876442e4b5274483d0e766a01ee4ab310839f6d8a66c052ba4;
0xec7bfaa62f8146ef2bb13af733cea64631b21106cd47d456823b3da92e41530;
0x1d26f27900c3cf2629a540caa3f2fe0896977782cebec4a7c5fc610aaf9f288e;
0xcd7296fc0086a3895770b3d0a7e27302c80383a017e432b69fe2503001d14d5;
0x5efb5ee8e22ccf78945ddddeb3f6ab0ccdd2980aeed476369011dd2017d2cdc;
0x2fd3058e8276c3e1044102e37c8bac9f9ceca3d4898dec5227152bdac4876063;
0x3041d0de272cc4007331a1217ba0462b41f9396a251407964e90f77d20d2be54;
0x22b44b6dc784db7a40c2e670800e462758b5249d78921516293fe1a51866ebeb;
0x1472f9c6b744713482cf7c9f2c82edb0cdcb81f238ddb5305a14e164909a963;
0x11cc50e647086a21c18d924e5cb407e0895d44337b760d95fc1254b690b857a8;
0x1f6870318a97b3458482c2b2e8f4896d1bbfab317d95478653847bfe27f73a56;
0x527b77967bb4404a5a78d8e449466ea5dd85d36d29792fcae4ae26f30c39253;
0x114776906608a453804a6ab3ca1fb1357ef1e68772ce78d4fa53c219b47c4ecb;
0x227cabf1187a8e8c8b983e4452b407d3ad0820e9cc000ea38d2298cebaf5ed10;
0x2cdb16e7154d3366e88217ff94382b8a7dc86b47ecd50620b65ecd5f98aafd89;
0xbba92a567cd15cd0923cb79ec491f17595d6af80463e9b7e2b2c9c6e662fe41;
0x1621a037774eb85fbb2ae136893924aae5ec0394764f2bd204e6e3c2cd053e66;
0x1b2f4b4974fe9c4d2f6ba8f3b51084b886a115dada554e313910e6a0a2a736be;
0x17f058954543b8005d9e5cf0393b669790076e523dbb5bce473d67d98b4660a1;
0x2a131d0e2c1938f53bfad52e5fb33120eb12d9412dfa7c2c79b20a4a9e618a96;
0x1e1f17b82c8ec06747b63629d99e72f5f3cbebe8bded20c0bd7fcd7ff8422321;
0xf92dae5b5070535247aa7062d15dff0dcd533f7ef798556b1f704acc72a1a91;
0x1e26cb1e67c4ca4884975a5dbd44df8c05f6a7a813d9c3267fa7f735cc144db3;
0x278e469316bcd00829620e438af377734719124f83c509d48472294be9910f9b;
0x2d931e21c6bd70dd337a21eb006cccc570c8e248358e256655d4eb409db88256;
0x1f3aae749c86c139151590615fceb9b55d78b0436d6846e4ab2c30abeed628a6;
0x196b76cefdcc7f6a54c71d40114a0bb82694c936f1573ac7ac1ea3fcce1fe938;
0x164cecda3aec3963de5deaa919a419e7c3e7ed67b00ed3fe37c941bd3aceec41;
0x1ae5c087043dc196e76f2c1fcd004f07bf7622f91480c2f43dff37466824e28a;
0x206d121a5d5c0e50c6696a4f6a3ce23d86e842db48b98006111cdf9eb6501362;
0x273853516d030f966503bed07d9bb25e9a78daaaa8a16dd46ce4ead8b0ceb92b;
0x2a473b17daa8052023496f81ff3471c76bae27ed780b23b659056288f9c80e8d;
0x126700ad12b26c87c8f7c90e8a6edcc613530f09d04258d1d0ecf0732d143cf0;
0x70f6900e211a2d3ed359a44c1949447264d51580679fa84dace529a0de19d42;
0x1d196536166aafe99006756cbbb15e621903ccfb19346cd45ab951b01348abd1;
0x16a6413bfd363eee8d28cedff00c8c86e15745dee50b2ae15d45f4d796213d15;
0x14fe39f6bc1fb0e0a41f9cdb142b86ff95f1003519cb3a77a05e96a30153132c;
0x2f3719862194ed2deca377a1f1b58eca9aa0b726d3d82859ac5acb5513159f08;
0x2ca365f66b59cc38857d65e1ab5a841574d5bfbcd0f9c2607b704232d7d85a02;
0x1823d36e1b33841eb34a4601668596fe20e08c28f8772ca3958fce53be2c6c20;
0x15d27279b7f1b7514d007345f4702852507d07b64a2f1665718efe5b74578898;
0x11b3efafbd53f96ed7d09373534f299562335045a51e43cb1aedf4002b7d6bb2;
0x12a0a91a6025546911068e6f50fdd1c6e368a52afc769952c4fbd9734f5004b8;
0xa9d7fc64fc90b912b49748faa4a4dcaeac8f3e15df09fc92f7066b55904538;
0x15371b75e8adea4894822544c8d7cb6b670741aeb1f1c465e35786fc9c645df8;
0x25fb2eaddcde34519e511e656d51a90db8518b6375646ff92caa4a914007d517;
0x2dfbb6f1e212006c39bd89dd4a6543eb0fcf94882febc1c958eb81012f17cc53;
0x29593bb7f971b987c1efaaf91cd3d70478b3b8f519e210d109413adc4de72807;
0x134ce1956a848bec4ecf9b6033710c655b425fe7a2e42a9143d989c876e07b6e;
0x232e589b327424a374dcc64152ec03029cbc6b1e6935e1878c89f7daca2fb8c3;
0x2ac4f4d9d1ed520e21fbfde98b4e9169aad8f701b95f7aa6e1a2799d72b599b;
0x13843ac1a48019a500ac2aa8313a9143b045dd338120bfc4b4e91c1750b27bb5;
0x123366fe683fee8c58bfedfa072912dc1bf50c906115880d4954763e648a7c92;
0x147bc77d1f7ef7f0604a669c3bbfa3aa535711a43a8ebc25f786db8c951dd7a9;
0x2bb5eb86f2837f69911dc3afe716c5fc897ed54a1ca84c7e473a92012394166f;
0x25e9535591df883d7704dbcd8ee87be36f7a40fa9d360b8dfb5a38892936d47d;
0xcf22a6787e93e4af1d585205f039fe30280460e02c64b4aa6a0fd361fa09210;
0x15daa89536023119f4f32836140088bce9082cd32db18edc2a4b963ed61665b8;
0x26a41abc8b0969da23c9f511b4a47a978406ed147fb0687d146ff73f0a3f2908;
0x196b76cefdcc7f6a54c71d40114a0bb82694c936f1573ac7ac1ea3fcce1fe938;
0x24603e3d523263ba69d2161f7bd3c01b990b96aa479b47d8e7bfda5779b31a70;
0x6f06827f0a52b2434751f1bd23bef70edc803704890114a33bc1b173cd3fa16;
0x18821acd1d1a183b3974714b4c15b9aa338da2999ab219a65ef04d6538c9e681;
0x25d1c75c19bd34c31e5dead0dbbabecb70a1952af3b9acc945e6bbb7af79ab85;
0x2d16cd48d5eb9d3884782960fc5f27529562190c5c9203f1b0b220b07ebe2251;
0x1bb2eb154cea451a7591bc895cf9cb65658133c6f63533a7b45362197d883e67;
0x2c1c099ec563345fddf03a6c54e2915f1a7c890b6554cc496856553d2b2173c8;
0x14de7c8a6f75d5c098439608aefd9d3f2224fd7ff2d301c62ae728c13cedcb56;
0x2a12b1666687a8f3a14e61590ab004587a058e42c5f45840bcf0c7a03487f34c;
0x124f681268028f4ebb6678e070951caa96bcaf09350bff4f72c093c2973d16ae;
0xc61ee197e59676973cb1b0dccda3d618981b93d24285440f223146a7aed3f8c;
0x1d6a13345c16963d0fc372a33a3ccb9d7113e42b8336ce4a0cf68c6c1c3bc24f;
0xe90fe044265e093e82a00cb140c9ec848c3807ca216ae5ca0608b360547e72e;
0x28a0106ab648b3fb1963e8b51f6a26cce8ab62d75ab26214c389e0c719737002;
0x1903a3f14cccc405351a0a3ba23106102830c134d14c378226d3a6599e75527e;
0xe69b6a45f98dc94d36e7f80045e56fa8927416f96bf9b2b603c32c6d0026730;
0x24028083240f0415ae27d250b5e9d2611c5baf6b83ca01c5fa08b2c3984ba37b;
0x10b97d7b32b7541cddf569d3fa3ba4fc792f67fb4bc8abf142bb9765ab3fbbc6;
0x18514e6b6663e92d0b702f6830542f841872a9865e8116b68bf03d55352ed948;
0x7e84a91c22df5f22e465c35f665c6a56c7d41e6f20f3d63589aba4a168981a0;
0x24c67c3debacff4c75f5ab6011d39a6ba905a78980603f9b520dc5f07826d2cf;
0x2302d72a48f7284aa9dd46013f218acf1551249c22d8331dfe48c181a06ca28e;
0x1332fb9ed5a5a86c5f70cfdb899cd053af1cfb9557af1a5137be1e727e3169;
0xecd3e7955fa603af46e69fcd1699d5d57db5eac3b9095c0c7e0b6d24dc7f542;
0xb7012f95446a6e56b35ba5feabc8183ef882ab5e99b48dda6a00aa4b5282ef4;
0x2d9a9de40201e8aedb6c83aa64d6801af749b464ca23db2a743bb6df13c72986;
0x29bd4a19c267732d1f213a478c9c677a47804a525df520ae995bab6c79f0c375;
0x1462f5ae05431a649833f4d33d7199c6af0a27a33c6aa74514d706bc5facb110;
0x291f96083043911e45b87995cee2d52a0c4c1f1a2537b6e890d293b1fbfc05da;
0x411cba90e608a51a8d3635d7e842ff58c4137db7eeef0ef16422402b588766f;
0xf7b5ea5565816bbb8c16bfa946c6145d607e773ec10b74844511161469baf60;
0x338cdfab4ce8fdc9f081c77f3b7a58f5331d3220cf548229c8bdc9f5e49baae;
0x196b76cefdcc7f6a54c71d40114a0bb82694c936f1573ac7ac1ea3fcce1fe938;
0x124f60ff00a0e62ddc0a356926a83b8892a7fb8602d5d3b955f41f9134953107;
0x7ec673039830a0f06701ad707de762e97de268ad8218f4e771ccfef70fcaad6;
0x740e5d063abce69067b719fb33e30e4b3da7b6c66f26bd2d7b5320a04dce396;
0x7808acd3ea0c249f88efc1360f1c6e539561f31208e860921311b1c29b598a;
0x112bf7f10ea174a939adcf38e91511c7c00990bf176d3478ba5c5bcf9c46d89f;
0x197b19b25c2afe93631a78cfcbefee4d7ec4f7a5e9c87f5aa30861aa5f441049;
0x1ee3070e40c0e0e740a67449c3789b6b1f5b64047b9adc4a1a7f9194a7ed7c62;
0x2ea7f970eaef265df0ba7d65c20bf474925bbd7eff4c9af087c38b5bda5c8a40;
0x87e362b638c1e17cd837e14f954fc02cc1a020c62e416bcf5106c0e84a42e4e;
0x66c70edf98939e555fdc29bc6c8db703afd5f7317a97ec805c1aa28758081bf;
0xb7cd01813db20a6c56bee471eb16719fad273719aacdba7c475b9cd9fd6ed2e;
0x1baef4e284700ad99e75947e51988f8b21b306e85552c9586159cd2fa62d6208;
0x2d70435bb7b0d2242b1bf4cfa9bd48cefa4f4949305956f07c6ce9f40a4f63cb;
0x2c9f4b07125840d0a8db29b2c8f723da914abd2357de2d0bdfc761ed1d2cb190;
0x1a68c6eecf6121045900f2d146f6e0dc1ffa95afca0130f4023ecc854ac90979;
0x2bde9b2172e01e033c899e7dcb6910441e0b26ba61885817c19257c67a704459;
0x196364688be6c007d5caf7f0aa60dde7a9d4df5a72201a010866f51d5b8e44d1;
0x5e25bdeb203c4c1c10272422c44f883df61bd873a1181005937ac6897b820c1;
0xf9392975fb3baceecec89ce8dde33d612f7b51809c70c79560e5aec4ea0f97e;
0xb3a94a0d7fa6808d540ea7c94ac84329500fc61c1c921f6e1a02be72e0552e5;
0x57f2f77f6f39fcc309ce2227ac987f88020c1156a521d8b4a6298ea3bec1f95;
0x287141748ee5782d46d91412095b8ae8a817341797734ceed2fdf000f7bd2ca6;
0x1d457716f5e27115f1b3bd602743ddb625242575ce407e78cec5c033380fea0b;
0x1393304221b7afe064f39562a25a21c896a65c27cd93ed89f500e9eb5b39b2d7;
0x1000b0acd83b8b51113119fd1783d3043017da2eb32954456b6c61faaa2ae29e;
0x19c9c7938f860731025bd2bb1cd4add4ad7389433683ec7fd1c2c0a40840400b;
0x218bd78be9fe83b8814a959ef810968be0cd8f20ca7778496f52251b1a5703ba;
0x2724bc9c179c6b663419051e901b45a3c36d9f59d63f41dddccc120dfc3abbc7;
0x1e9130d0ad5daa81b807d86cb977eefe449b9081cdfba59bf8e1b43bba4c1077;
0x2d75c84b8825bad22720289707f2709c595d7a5ff8df9b2190359400d2e925e1;
0x27628d274cbc76c2bbf5005702ad14bd8b44ab8cdecc65c2f323f232db788557;
0x2a39cb3d3633cdbddcd0b7cc3744e46aff3450524dd573b8f67a3c7e3b9c7a09;
0x196b76cefdcc7f6a54c71d40114a0bb82694c936f1573ac7ac1ea3fcce1fe938;
0xa09afb1c54f1db4544f6c0073aa43c0fe17ddede4eb2e965a0020b3734b3e40;
0x18c1bc97aac4cd9735588413be17348e71d1a7d14a7bf175c8a48b5b85e9b54;
0x1a3730dc03e7f844e8876edce2a2d00135702da038a3263faed39d048af8e466;
0x25176e26f891655e4ecb9a383846a2aa15bb49936c1fb568519615a0d10327c;
0x1190921ca2c2054af278beb8ae7e902f2f9fc032f1ee2e661fc045dd643569a;
0x27301f456233aa2eaa5e58ca623471400a5885e066556edac068e8187bd53fc;
0x14df7b40c8531784271338eb6101a7c565297bb9fd160f5633d1fe8a24f22b0f;
0x201b7bcedc3f893285dd6a8d70641086091db277c47d721fda35ade3354d3756;
0xd7ec7dce868dee03f3cc914c35bd061c8c075ab2b3a24d63514e43e61137f25;
0x1f4366fbd21731723a6377369cafc1ead066d0e96336a6c0cdf44437ac6999f8;
0xd4f720bd1b1d8dd2da533015643abbe2569c2142b3827f769bd4c8fad9eb7e3;
0x2555325b985eb37f57ade931b07684d313c5fd72badc53f218cdf3637e28ac20;
0x19577c98ebc619f92a0ff099cf5c3c78b18f4e5230eae7db5e2f88a18148bb4b;
0xaab15d18bc399969878f0303b29e85aa3ed5b5f0d302efa97073d0580bcee54;
0x15a5b74d5f80efff02db1df507fb260724238371f9da217db249b80650fc2ab;
0x7863677bac12d9c8acb8e235fed719eca74497e0c85f1191132e72f877b4594;
0x4622dd48eab686a6312f00bac77e56ac609832c1a3710062e2d19fa13b25059;
0x1bfd373a0dfca60070a9cd0c5f70106366eafac34d74cad65149841c31e57659;
0x12c3c104d455c723c30a2582a9fed0478089ecdd6256a6a14d5dd3a73e57e58b;
0x1db62d5a9783dd6e3721980161c8e9f40b29066471ec2bb395b4de71521c9337;
0xa1338e33d0d79c8c1143c1e94407be350de016aa190237e0fdf6aad194ec3db;
0x230cd81310a9978fac2828de4ac38c19fe35aab2179f1e83a3127745dc709846;
0x1d46545374f8b8117fe6aafbf40c162cfa3b13f7439191c43572ff8ca713d874;
0x2f0bb6daff69ccbe41e11635d1a451816c1a39e3baa7359493754111c0d453d1;
0x29329695f168370e3b3156e3ae2824a662edb778c2a23eb016d135caf72cd9d;
0x1b9f8f4a4d8cf0878c3b5b57e82096972b7d773a197b6cd412956d9994f42393;
0x1150ca485896d1fa88445f18deff9e46639579453dc8bd952deb10c53fc69025;
0xeffc5e98f228858e49ca15bb98312385cd06a57a898b82a561f6fd9b5af1170;
0x76a9c5ece422164d7689f5863a3752ad3681a28385e022c66dba35b8c87df7;
0x1ea44dc1364ca5d1a9c217488e96b1138da5eaccfa62a3418d687da1308199a0;
0x22390e0fb5c982881d62f7af9255b2c677559b525e70e1e993120e39cb386fd7;
0x283880c9af3c5ee2ad175b97a9110e904ea6f1172b0abedd8726a1942bd21baf;
0x196b76cefdcc7f6a54c71d40114a0bb82694c936f1573ac7ac1ea3fcce1fe938;
0xeb1b0ece2af5cde42043430b9c70ed679c2bae1000903072551ecada6dc0a6f;
0x2da6e90774ac9bf5a07971085698cdff633c28eb52f2f57935b712c406e37066;
0xa8125b935e8da1db2d1ad9a841efb10fab0966b438e0a6dac204ccc832ba951;
0xd4e3b2440602bc4d019da80f29ee2ce86a44f098e32e6a47c512fa73173eb0c;
0xca753aa57fa52ba572587eaa47c18ad91aa498048483d9a019457d014ca08e2;
0xf9ea814187bc6dba58c6f7c1ecb3dbf62ab2ea29d075afb40fa75fafda6ccdd;
0x1625e36facb0ba7558f4163e2f69b482cff1002b6e63a0297dd035b51126e214;
0x1a8f5986c3af479a950f2f78c1cfb9e6eefc693568db3215ba3da8b95cf59997;
0x2092ce2830d91cebd97e69ad4aacbf5947c8edd9e809d33aadff0a9c44c60dd2;
0x2c34396dea567e1a3b6bbf21518b8b78bd08527d955ec8c3f71c153351975a48;
0x27ef5d907c12b2473a024ef1ce2bf3770bb767118ab957911608ab99f5011e3d;
0x1f290b20bef457eebf0ccce00bbc39ea19ea4c2625e54e0dccfe3db112e067d1;
0x1db57788c30f2f18fff3908ce919ea10ac851b862b505246e81d61bdb51e0f70;
0x2b041dbcf7846c4e72de5a0e5d201fa5306c8e797bc0c43702dee216497eba23;
0x22a31ea557261176a10f8036c7f9aa32d7392a33e64ed90dae1fa3d9800f0077;
0x2eced0082a7ac90051bfd190d97319e34021bd571d994f4fb633c299759876bf;
0x171f3f295c67c80f97bb0678ad05c216e6df17c46995c7c8f801811b47f75db9;
0x26de076f9b9cd4cd8e7f4373b3569c9c2ed867b182be695528c71e1dfc34553;
0x18684d0ad8f841fc32151dc50ef602e4560b286339d9a299e6451d535596f41d;
0x17baf0b6d89621ea69420282c32f94ad3a52db7394baaacc2a1ca3032656b834;
0x19bad38eaa92c43ee1bf9289e9e66e32a2856a141ef2e36868975617765c0a13;
0x52eda69d77234815d76a5a9b04e8f7245b9457541c4145d00fd263bcf9ac56f;
0x2de5e640d8c2fc3acf28e99df17fd56dfb91fc1091d304773638a453037b17b2;
0x7b075e004bfea80e69fbe1c460586a50b260289becc26cc92ea6ee18ad5c897;
0x24ebb38197057bbdc006a2ed6d1c280e500539f98dc53f83c2b58503bafa8ca6;
0x1ce51573e24a435d75b654a1bb80df8ec38f12bf9660d2abad366ec89770c3f8;
0xff21e9bcae93244b09bdee7feb1841219d14b6d9e8ce6c5aa07915b5d81903d;
0x9f7f1cb180b8111b6a3b22458cf94dcb289ef8addc4adcba913d99567bc43f;
0x228a30bb9161835a3ca58ead6b9752d0332fd78608b1412a402fc045ef430f;
0x15e9b1e05851c96b3bd7f09459669d852e65623f1b68f9f597ab7a0dda5e208b;
0x196b3d652ca59d59663696ef17988ba14ada02ec506cb7e4caf2706001953bec;
0x1c8749855c159f2b4cf83932f39f2676dc56258d3cbfde31d526b4b5ae3eeba0;
0x196b76cefdcc7f6a54c71d40114a0bb82694c936f1573ac7ac1ea3fcce1fe938;
0x221dd8a7d495ade1dfe6a6e119845add28d4fca1736fea74f367acb2f0c2c6b6;
0x4b42317716dca3c5d82adef996100935cf38279042de9b6bf50b29f6a202f34;
0x475894cb64dbaa6fa6a2ddb74816670bde6ed2bb1f535a9d5f86348369494c6;
0x1c3946b391ed069e274939cee866a5f3d4d7dcd44bd28c59bceaa7953ba45dd;
0x1825b793fd2ed840af6848d88c10fad3c14234a7dd3834121965a11926c5ce5e;
0x282ec6f6215907e0cbece72ec50a5a90a2f17c3f514d85986b9983bb68f73cb7;
0xd8f7801683a6488f5d54d9289e6cf33631007771a3580746446e05d48ebb741;
0x1855412ba202a2a97b4bc4d141fbd547a4019f23cda4da726fd1aac4d409f48;
0x1798f1c6901076abd77d7c40b401c93bd711d58af1b975106de72a6f6e2b250b;
0x2edd97865d7faa4649469ad96a5e0542c35628e903e2be373a0ab7f1ca5a207d;
0x13676cd7961ec25b87f7ab8b623d2cfad86cb66236386cce469386fd7998d956;
0x16c0a91e9e9c2769401f26728c935e467693afac35f6476d7f45c3593496a4bc;
0x29553d069f113822ab939a807c89614214d5866a2fc17e32d21c786ee26cd91e;
0xcb66808581fe375cd41bb5410977379265c20dfe402d5400bc93ac24b4b03f3;
0x243dff648c9f0c7654669b0628882c9309e5bc28587cc2b239bae21dbfaf03ee;
0x2e171191951cef52833064fd4d4067816f2e9c892d7ec9595fcf15286fc58306;
0x2bdb95923550209fa7cba2a746f0c2681195b0eccc5e6c253227b62c657e662;
0x85aa13a52f4b623dd516a6a478fcd88e30c39642c22f7dfc0e4723e31fd0d5e;
0x15f5dfb2f22e20cf08c1bf8ca7fe18ee12607615c5c3c1a7c2c9fe740bb9990b;
0xfc58949bd8a136c38c706991c5288511da276d6fab95ef315c7ad3043f5f619;
0x284e9569fc8ba77b4045b856dbff1c29eec71e850bed17e1533028e2d07cdd8d;
0x5fb97885d94f32e89b37ed816cfe79118ab5f70784b3a546a50c32c52c5d7ca;
0x1588f5edd5db73e9e42e1038f3e6817fecff001a704d18fbe96ed57022d6853b;
0x16814981024fdcea5abca513e5674e7ef7573813b650daaebf34430a930d06ec;
0x1b0b7c044e5a9cc60631dfadd62bf75f7976460d0a1ddd54c91f5ac00461ba9b;
0x17d68098ed44b6a6c42a6e7e6f9fe2da0ac7059d1ecf0b26eae01afa117931be;
0x6a32a1b358cb5288830b273671306d6e1af65718c3b4ef1a3c2c6ddf0ebf48;
0x124899206ef866ee3d3253024894741166f53f48ef7f86c2955184d993cb6d98;
0x282d1b8005e7c5e21adf146bbc3a80a41207d1ff7ee7b3bd2c3e6bdd5bf3121c;
0x2ba860b0e392214dbee6ff237989665c30944617abb4b31d64b2ad85f397e33c;
0x8dee425c9230a537b33445ffd0f032a8cd335bb0a6c95591e1bc641cfb5dac3;
0x13e1f729e82032ae05a37e3eccdf95591b61a016f5cdfde65b9d61c84e0f0a09;
0x196b76cefdcc7f6a54c71d40114a0bb82694c936f1573ac7ac1ea3fcce1fe938;
0x234c770889eec5a24bc88f5a31d56e761f7487199276c8a6eee5b1a68997812a;
0x245bfff7477831205a76d0aa1e9c55d24bc04143b3bf5dec9010569f945991a0;
0x8f4069c0b10875a6c5a474a6632faa9ca5a971d207ed0895fb92f8ab363771f;
0x837729d4fc85301d6b047a6dc71d2ed7ba33ee5e25cef22aeeca59f015ea9dc;
0x294ef20f328ae6852d7f878918cfdce9ed950be58925d997ac533c91d5b6afd5;
0x1f62b4ba6e7650e883f9c53c12adb7ac418d3d48a7514f183218c8d8c9f2e881;
0x88e62ee0805a12f7512c58ebbbe7925c8d94d13ccae933af8ce5ad1d9c11fc9;
0x2a15acb799a36536698c1471b93d206320f2721c13a32df2d30f40fb9b1fcf4d;
0x2255ef233b2e051eb8fe5fbb4f03d5d0450ab225f926cc2ddf4e0f0d9de599f5;
0xb3324f75f50fba89249228c37f2c9a3263a1ba03c624ff6b41d1c0eea4f6f7a;
0x267abb876cf130e5ec0e545b41cb614e6b0dfb5eb2b668ca6ade5220de6d269e;
0x19040678722dac94cc568ff3c0b9edd72deeb3cfce3f3d9fc81af7d49554afdf;
0x9015509267d3d74355f8b8cb583ec4d4c41b01774fbb745ca58b2ee3cfed608;
0x25792587eee7e693a2dfb7ed5fd429f501a3eeb917e6c17614fd3cd80b7356fe;
0x2588230455c1640eef883b2650dea4b74fa7c0b2675869b3680a867f3f9983fe;
0xa5d8e426e8a8633cb0dafabd4f32d946ee6b1c9d80e0172d2a9952e0f85ec56;
0x2f47894426cb6983d71c100a0326090c8ec978454b359a02d618adb71fad8282;
0x23bda45e45e20fb6c274f9a99c7083fa4ec596ec283a78d1b3682bc44c532383;
0x6428e25941cf84268604cac47b8986bf3068257d3be89c3d6dac8f57093a650;
0x199d93b935756b0e6f1ea60c72667b0e5686eb1b12d6cd88dad5f5d44d9bf6fa;
0x171ce4623f0a49ff1f0b33205fbda2909f9c189b275cd7a717f4a38a5abda910;
0xe6db378ce7e1de03348d3f7b7b17264be5adf0995de8e0273c39aad38229a;
0x17b2b86cd66a73a60e46511acd7dec0fb3a32d6cb8bfaefcf4479b7d358fce81;
0xd2ce771ec4979abb30c8a281fbfbe701aae7112066a813393de44e56161207d;
0x86998aa35a19fb86ad35a9116c272887a26c95743d8214f1f2a1fc75050f867;
0x5be1134da0692b8f92545cb326deb862136255794fa8383e1d3f266f3162243;
0x1bcb6b8de9f866a39768466d15f521cf1e75e1e9ddbc30c05a45b53acb5f58e9;
0x1b9e926867ec402e4fb4bfd240a82f240eda7df61c9b5ea3af1984f74089a93b;
0xf408ecd2413f30c5794e777b8a0bde7dd69ee0e24a918253e9cefbc7d98913;
0x2d7f052ebbb9bf5270016f796759f98056b8928efc35c09fe9e1aa26f18010e7;
0x2da951984f4f03171413e1739831201e7346a45bbe9af89d3b23ffa2d615a952;
0xb557ec46a7bfb8a0bc21bcaa56edb6e1c0be152d88b57fb5750cda2851c6231;
0x196b76cefdcc7f6a54c71d40114a0bb82694c936f1573ac7ac1ea3fcce1fe938;
0x13d3fef3eaff9b9563a1827637ad00789268d2b55a1fb6681f8b052d049a3fb3;
0x2bc1cc959099f62eda527d7385cead603b637a28c9a223e817c9848fd78f4754;
0xdaac8774332e509986178344e8caf8a91c6d01a275b9a1df469e5b735bd5082;
0x27773f22500cdf92fec80f154847189a3f75f85e8cde35ce9171225d3cd8b676;
0x79c499e130ed874a1383b978dd3c00fd5b6d0c18bf3b491cfd63787230cb9f;
0x1ebfdb369fc74d1469c6e461f64206e4907b6f5b51b02496368aef1c54198cb7;
0xca9e23d1f4071112543d4e8c1b303865a4064ed4e4110eea113130292d1e299;
0x2357dfbdcbc869ea8068bb2ce056854f7a0a765a217af4a0a317888b08ae0af9;
0x2c9e7d1ad79c49b37dfd93ff2d4aa43c8532fcc606927e975b21564a9c1070f2;
0x837ff288c0aa9cfb3fa7cd38312ca6b83b9b2a3ff4dec506aca1af1176a4248;
0x23d8de04d32b88a1b5102863416318011b412b11f1e609386c5d8d87da878e54;
0xe2564431ced9aaddde433e7cacee42a04d09d3026f3ca1dd0ee3fb3085adbd9;
0x61caeaaba163fef7965cb665f0cf305deeef1642cb63e122d845c5f6b095be1;
0x23356942ef4d25d2b3542f5dcb54a77cf17d8fa64ba060462a3b71cb3b73d50e;
0x1866373902a9a953c0768646f37941c805658c31f761dd39e6b4d292c8cbcd;
0x86bb5bb78cb1149afeb670e1ef3470c5634f10b18eaa25450e87c5a9bf35146;
0x2451e0f1a7bade779aaf54dd8a628b92d9cc8a7b7c0074076f860f87be2f8fba;
0x84bf3740a546012b610a5bc78ae897973b85c2be04afb32fae0e39d0c085255;
0xdef7e0528ea820d70cc9fab7935d6cb5b3f47fc8b5aba924bb237b7077f0275;
0x1b7af60a579f6d6f9625a8b0f7c4fdb2a6af598daf08501f155665ab376f7ec6;
0x4f92ee3832d8c4253278f77e9ed900be186f8c182a39662f59e4700213c98dc;
0x147b948eeb385d71922becc54ba12130ff5643e49f71b7327c323ff0e2571c95;
0x367fa68c919ef8c6a24c79f6bba07e7e839c9512b92a690d1a646bce08388ba;
0xaadb8ffaf6b02a6a4f42e97afacf2b4d49b5d4201becf3a013dfabfa068b5a0;
0x1f29fbe41d336788cf666a4378b1c82d5819c08e27115762277637235b9084ad;
0x94397da30fa8ee480cc4cbc0cb3383218cef9602ccd1eb4655071c7bdcf3001;
0x16a091b9a5cd952667b2f11309cc4e39f2c6c3ac2eb43465d99b409ab07711fb;
0x1625cf4e2fbb6f7a25536a24bfe679c793e3bc01574d8af123d61d6b98ddb0cf;
0x17f1ddf6108819ad72aa91411e08264c5a0756eef3101351abd131e8332e8276;
0x272ac6af8670ef04eac5d621949f3c4ec7edbb65a38c4bd7d5ff440cab1f7a15;
0x2ac81ebdf838c893a74deb1a575c929da0a6e12d2e6e1b0729bf0457cd7e134d;
0x28198a6a7de09abe545ed428f83f9ca95a7bc9f91186305adc80d9a561045ddf;
0x196b76cefdcc7f6a54c71d40114a0bb82694c936f1573ac7ac1ea3fcce1fe938;
0x21c8f5212e43a884a0729986fc11af75bb7d2cecdf007a7175d000aad1c89e21;
0x12e4a961e1801660228bb592204fc98865260be10e1e0288460f42b527c486d8;
0x9ac00881ffcb7ff45a4f4530d1bf63af3de4c3eb7e8982f354d119d099b20c2;
0x22b92591debead5bf556dfd040688701939a2dc72264c1b74c0e7b89b4557670;
0x2388a2dfce036d5c898a465ab3c88fbde3fcdf8810c87e639f7abebec9decf80;
0x9e2df6b54d923dd12bc44406c247281240924567a7a993e41a6eb027e959601;
0xb05fccc0674af8deeab7d73646e2a28df0f4d76803a8b6fe7a2a5f9f444037e;
0x148c72c32e02a21dbd3c4859046062f7a0a3a0a9c5425a5291beac5f3f54361d;
0xcc72447af3608c9090af67a3a683e8d989688f2239bce43734d5808de3c048b;
0xd923c01448dd3098d10140067ab3f5eaedb0a5b73fd6f29f28cb1f33a1615f7;
0x9145690a8426952481e9c5f53c587aad25faba2f2af7a38d464c6c86e889c80;
0xca36fff3a1b4bed7f8769fd50195c1ccff723fb1bec0db30767e922ed5c5bba;
0x151f1a9546c4380ac89496bdc078ab54ec09e1ce303bcf99f5f7237cc7b150e9;
0x16c046d8404c441eb03e5c0846fb9582414123eaf996781ee0b7268eb4b20682;
0x251c3f386e8e92cd6ecbaf2cc2ad9d910f94135d41466698610f072e718ca410;
0x1475e6349fbe26512b79202c02555f0fc6b0df8c74f12a1cf459fabdf4ec982c;
0x2b4c00677708322d7af2ed6b2aec44c4926456b2d3829b3517f4064933e85bca;
0x8c06b592eaeb2fad227fddcd082cbc40359d7ac8e01bf16f8c907e64c170ca5;
0x211e364e0eeca2dcde7b7e5e45e21931fec7898963f20579ee0acc0711d66052;
0xcd7ab2a448e03f55844c4bfb6b169790a0c8d70638d7ddc4b5e72375970a738;
0x1930ac2e4e2ab703874dae8d6d84cb6de266b11470aceb681dc619889e61e454;
0x1efe3fc036da6b22a66529ea8f04651ba88c4a88512711a32f4dcba84952bdff;
0x1fc575f7be1400b0d7f57217a0993649494f6fd4dc81af8ff4f469ee25f4d3ca;
0xf599eeafe4afe752ab67bc943a63bbd559b10d6d7340b19c5a48feacebedb2e;
0x13161ff12c338e5fea3eab7086ea1b5c9e074e8c4343f5978dcaa9fe77d23bfb;
0x19e8ce8bccf4d36548905830ccc2f9f13c6e0d997fb57c89415dccef20298d94;
0xbad7770ce2057b3cc20f21c93a69b44be7b95403e6d4ccd373d8d855f42d48e;
0xd68c25929eb71425958c7bb308245d86a52c4dd57af1f03ec17d73bd14a7b15;
0x1a20f6c97cd59c0339e095236fb2955b50356fa59244f6173f1caf18deac4c08;
0x13fbd61eec52c83d2dfc6b62cb1d1cb40e71c63fce17265ae9d631de6d683f17;
0xc5c24fe6a6fce7831b9c8b2dbc30bd9dc8352c78d4431f5afec5d94a18f2522;
0xe6f63bed21f2cb9b2886da97bb0d8f0e155f008c1e5039c2ed7080d6be70431;
0x196b76cefdcc7f6a54c71d40114a0bb82694c936f1573ac7ac1ea3fcce1fe938;
0x13b9e4a669c3fabe0c43f333992a5f698e08a9abbaad77cd400b2912f5ef7e8;
0x2b0cbb582146576933f01c91c0dd2b095a2da43cf528f2273131788f1a6987cb;
0x2e30fb85d199dca95475521b50700b699c50f1d7aae5b2de4e9b990780ce29d6;
0x4ff7ca87e268b4a23af154c1102c8b705ec4682f08ace1273fabb3a865cafc6;
0x23b371ac3c5e45d6d930df789f60ad510b784afe9ee4e82876081ec0ca7ef7e5;
0x28c5fc831601998b96cccab01c028d613c200eff1d0e2caa7098eea165c119a0;
0x1a649a762e15c9e33b6dd3a4c5daaed08ac2e5a7845df289d2c7ddfdc3771f97;
0x1b76809608b2ca5793d346c52426aaf7228b7e4a09083c2b551bce8fc3022a0d;
0x249de6f6cd65afa7bf206ac6a1fc864898a5135d0b0efaad0f4c86774a153d9d;
0x162c8b3b5f7256af0a7bd83ba37d258ad7d4ab4f29d248bdd00ad36e612f6055;
0x3a8b1979dfb950c0451ebba4e9137d78943d9eaf889becd291a669031680d1f;
0x1fb9ae665dc60fd17dd0b4284b2eeab0845e6d4a5d6fb81b77e9f7c6b43d170a;
0xe61edb12a4174e48a7b47b660e8175f42aa7926ff438c90692e43bc396bc6fd;
0x2a21ad8241436a75ee8a90867aade180589a8c9c63b05253be876f192641b1fa;
0x166620895a93525094f8bece65ae6fb9e14951d4bf7cf10a2169ce5cbd8b4cb8;
0x22f7441fb0e816935c8813854ed5fd6ccce5e7b6a85d91d2b5a3a7a5c8a4ccf0;
0x2523733ae5275aa5fb89c74de7ec80091727f495e729ea9bc557516b25e2cdfb;
0x150f2ac4f573f5f9eda0d8e65fe866581f1bc11e46acd399cea41dc1ee3b4082;
0x2e2c6a081127c11a80d60de162c1d5bd70c9e1b1312fd31f974d419d74e72a45;
0x288f5e4a35d6a88e411113e8324d2af60b07aabb48650d27261f9e0172c063f9;
0x1e94c48d6ccec07a6aec467ce9db1c7cf2f48f20406483bb873f696cb6139c7c;
0x2317555099ef118ac1a6703493335db895aeab6cb1d7cb1e46caaa0e9d74ecf1;
0x112b653324919b4300a6e9caa08f3a36c372d86bfdd4bcf10526ef3c2e8c8665;
0x10d64d9dbfee84b7d8e426404f4f6302cd2f507c9536559f0050b2b77a15b85e;
0xce3409a692acee5372266c97c47c2564d3268f5124fd3094ffb35d252efcd1d;
0x1976232c6b5bc6ff77e7c6d266ea390c5fbd4fb3cad9ece623ced56ac860996a;
0x85fe99053d3f947a665495f68291ade2c706600e56dae991b62833e75d21c5f;
0x253875f4394f5962fe07f784c7fcae1df6d36d1840eaeb0e7c236e3d6786effa;
0x811ef3bdcd3c837aa541d0df32d447ec54391911911e3e0739b7ffd4aeffcdc;
0xbee1c554f9fc98cfc6b2f986fdf207859d78e2757d199e9a92b1501ef92ca06;
0x2e46dc3b30b54925c313731501c5f003aa8d1490b16cfe28bbda33fcd0b9b0a8;
0x29a557272646a8b096b2d1e8aec172491852af8f055779779043e048ed8edc6b;
0x196b76cefdcc7f6a54c71d40114a0bb82694c936f1573ac7ac1ea3fcce1fe938;
0x2cf567daf1e32b7e212860583eaa1783d871a1aacc61b1e17274d29d43c3d42b;
0xde4e81211f6698cf1b5513963530b7b9d0b8ecc11435e75e1f8d3743dbedb1c;
0x2441c69e3451809da5aea5422d4e21637469b4384372f06c5d6d9c14c6680981;
0x2aeab770ed2acb63ce4026c9fb0bdea02bcd6d0e45b1c89854c2c827f09f8743;
0x18086bea417322d173d3b67f0bbea727011d58a1307664d208687d50018c0849;
0x1a5554a104ff43a6e64b7db4766e1ce6df735dd7d5d15bc04b224a81453b5a60;
0x2372bbb558acc8f0a26eddb623338755aea1b2793d7e1130190fe2c6ec6393a2;
0x10c33d11fbe22b97736174eaae79eba40bccf31bc846d8d0a8b44470c2af8cb1;
0x3426163d8365dc4847d5bbf779c5577352e34ff6badab833597ddee1bae3f54;
0x1c63281e368936ba2046f4c7f0b4279dbfc02ae7af0224d4bb03d847e157773e;
0x2192bccee71b6b955f146efcc1a1781c1e1c5ce24dd9a55d2658f054614751ee;
0x465383b8ca4136095399e23c44aa9fb454a47ce6590eaaae8517b97e476c396;
0x57e4c25881806bd449481ec352088627fba202db4cd4b93dbd1409efcc8036c;
0x9075ad76e6eb195188a775ab16ab65a001ac6eed2fb1455282cbfed80a0594;
0xbe868e7bfdfa88434281a12e1753cd13b44df13b9e4f31ade7108de24a409e9;
0x2e510e83757137479bf6a77478344c10bb07faba1f97da9c0537da9be515c5e3;
0xda0ea6a6106068ef55cda415d30f30ac0e30877e2e03abf618ea2d79d980820;
0x2452c916a252ad3c7c27a5257f4c8328d9027d66534d98ccc9a43421d70d83b2;
0xf9c77bb51cac4d5ae3a97243b5b967a65f647598197721b487afdf40a7f68f7;
0x1f9e045050fa171e0ee29df6cd436b6bf42a576b4ff50c2c913aeebc084f9115;
0x2e7d45b66ed46a7205c8af1b5343d1d3fe32f2270741c450069783a4c5be0dd3;
0x2516935ea1d2480e4350f961e778d72f56e02b57a98e892b0bad80ff8eebd7a6;
0x105de12e7429ec594b85708128893f8ff201f6fa6b6e58a2f85403e04b3e3852;
0x1fc9f7ca915a6cb6b67ef53d985021ec23469970c5eaf180b0deb0dece3bebad;
0x2811b669db5b1a371c847093244ca2f8d653537d382f16c072df917cd59cddd2;
0x117cbfbcfdcd7181ea2b182bdc6a43f72a78bc9a6b1c27d5a4d4f073b525f86b;
0x1e8a05c84e5252cb9f3f4c81da5c5419ced59382540f32cf949b442f67512f78;
0x24337a6b1cba32ffe53d724439c4554a2430c42da902997c096c26e7a3e88c8;
0x2f90aa6e654fcb74227af9060991e0a68d47d8021f7968d384404b9d4476724f;
0xb181fc79032f8437c5bf21425b264aa28adc4e92ab14a1e57964c79f150215b;
0x99da6058ed7f95fe4cc85f3bd708620f371c9b32c18e235c44b415f4c12bf30;
0x9212f04d8281e62b36d022532df405b8e5dbd81c15f00dd094130d43009b4cf;
0x196b76cefdcc7f6a54c71d40114a0bb82694c936f1573ac7ac1ea3fcce1fe938;
0x1107d939e735721d6dbf79d5f3060247a39316ea524ab8c0ec617b2ec201a26b;
0x2f1c347523299d959fc1590f33534fc2a0e5adfc5de0fce0fa0eddaf5564cb21;
0x149ef73788c5149f643a0d35623cfa246b6b83f3883475060ee613f74aec616d;
0x2a8fd18e8e3ded0ad1e39b5e159e9b1298bda05646ac66dddb50e64280889670;
0x47dbcd211f6c7ca6e60ad171965e1dd49d07b055b8468d33eb7c162b3627565;
0x23ca2270b14221c76b77a1f919764a9399db0dec3db5bd28feb2d363e45de608;
0xae18b193b1142e262a16d0d122154e48849d5cd821b8852a2cc2a2e7401e996;
0x1857d1b6def0af45ef7d3d24dc7529d2826ffb00bc7c7c7aae74c740caba3caf;
0xf3cc84626c45ab94e0b872c3779dfe3f41597c39094884678de39d8c1961891;
0xe820957878be6285a630109dd71d5ab98ecf1c1e341c7f05be144a6808961e9;
0x1dddf5d71605db9aab02d71866bcaa3f304707010eb12963e30f54270684f686;
0x22cb55eb86c682ccce666ec7fdd5167af98a04c5731477cee41401f70bf05c89;
0x2285685b32e30facba36b7813a94ae1486502f7c550c49b865cec83f46c2918b;
0x89eb80349c3dcb0f5b5624debfba7da90f041de9bbcb5f0dd5e915c92377197;
0x1ae6a640e952299c2aed2ffdfeeab32732e9c5e2dc95314d217f0642816be3a7;
0x2ee58c48db87e8787a65b7adda68a844aa2dce2ebb95b85a0372219d5469934d;
0x18e425f1816a3fd2371717b0210df14a186a184c14811245b0d2fb38e34da7f8;
0x2d0b4c00ef039859dca8f5ec2242dee07eb08b40c134813ddd20f1e49cb46003;
0x1bbf1b9e8426a43da69f0b718a93348b33ab7bfb49f32792d0b40a1df5791f2a;
0x2bca73de43111cc97e7c860ff86c75c29b66c5cafd04f36a0673d0be35fbb343;
0x1a77d34364e2186eda96a4c0576a632ca53a8579ea24ba17291eb71dc932e5e5;
0x12757dbdd1ec1b481648041f49b600350ed839580fe4c022810e1f9ecae80b12;
0x2491a75bb6c3231b90483b0f37596f07926a746aa6884f087f1b7694d191b51d;
0x998ab89c76bd9f620abd41cff82b3d34203f4e6af0ee0f32e7f72f88e4209ce;
0x2271c33914091a7b0760c2752a12ff2fccd4f512175ffdd949bdefe9b5444486;
0x2b76d998c8fb9fd7a192e5bf3ad5948439cc061182456f9ecb60fcec97d69ef1;
0xba089d24faa83dd9d34426596f4305119c2baac05c4f727363cc07dc37ce00e;
0x168be56f3c38107ab39578355ad8f49ac0a80661977c3a758c29a08a3a7733ae;
0x2cdd0f5feb4447b5120e670adba86c12d71e5f9860ec4b3eae28524825ca6e3a;
0x36af5faba2b1777abb199b35334d12a4a01a92485d53fd6e9211949c43309b7;
0x2c1dcb685cc47c1dbe9db43d809ed56ed6f5f9ac92d76bfb271c10b66b62fc77;
0x24633d05c06303617624fc379b46a788b0d69bde4057dfc36eb3359055118bff;
0x196b76cefdcc7f6a54c71d40114a0bb82694c936f1573ac7ac1ea3fcce1fe938;
0x2224f3583f007840f77ac63371ade2a22805ffb999a54fd0feabba444ccebe18;
0x26714311d757b433c90cbbef69da79f27493dd48c26aa00892a69f49412d71e1;
0x2fcc716f7f57adc4e9cf765fa7d0d6f85b2e71b7d495d12d41657da92d50b402;
0x294a3f5ca5239bb5a7b165470474ab58b5a07e2b3da2b4543d2cff4e1f0a1624;
0x14b4beb63d909345cfc2891d52be18275fd436dfe64def3ee9a056da6df31674;
0x84460af87c46a4276cfd2a1ceafadc83ae5e917669e8393ece9d52102d44ca0;
0x141bc6edfd3d6ab0d76ccd6452f746e1e2a04d7dbea197c2ca2a6d498585de6c;
0x1e757acda92690643a370b9c69cfeac5f2cbddc70fe984afafa7d8eb1519846f;
0x9e92da83e2a6b8bae2a65c80e94f8ad0dd5aadd9374f9b666e5292b1c43edc7;
0x28b539f7cf1b63612fe0e3f019dd8055760540cd2a998b70bdf5c755554a61ed;
0x4f1315a1e31ab3f8eed8312a43dbd1b4b72362ccd637ed4dfebad3d350f2467;
0x106aa158cdedbb22ce5caa3df644bde2d9763b32012a5fb391dfa3a761e2e33;
0x205bcd60e27251d356cee0c9fbfe5cec10606aadcddf7dee7b6d50429248cf29;
0x1fa4539519ef1cc1bc573c8af5bab6df0ef869778770109f8de349b606bbca41;
0x17cab2199c1a13dd4608a9e1e4b3bc4965622d8b574ca6533a252aec9395ab05;
0x2c34d65810a7e5a4b851f02a66ac4d1ad54ead2ab633ffdd88c95dd364b16420;
0x128745a9a55f406ff9327e97690ef8137648a8ac585b1d483e87be00fb1e8866;
0xd797eb05630c87b72ac57dabfd5e897f0679bcf0798652a327bb6a02bfcebce;
0x2d49ac3f9e3ac8b8c0b37442e804c4487249047cd6a6ba32282c55ee72b9f4bd;
0x2447bb4feec91d4b048bffde8de39dfdf87c8a9a3623cb563ff9d6203c6da1d1;
0x790cd64d983c721f883cbb6f4aa15ea76aaa19dc39b1f44c4dba993bc9010cf;
0x163a3b62e1a26e8604fab78ff1be0a3699a6b08d329feea137062fdac214b0b1;
0x64d9003fc12c06923f798fbc0f49b33a6250e352180eedd7fd846b7f9593dd7;
0x1f0d94af29f162d084ad70c2b138a6532db8d967573418a3ee82cb31cc8daa26;
0xc30c7df8956774687f81e3881acce5c551fa89eaa5ff7369d2c9b68cf97a283;
0x1814723bc7c2396b80b93f41ae3773543a232b0fcc80d78f92d48c908cecc77a;
0x1efd30a08cf062ea109229b3bc2dfce564232dc6b181030d2c03ee486bca6d35;
0x14e923cc919ce767c8d0c308031f1546740d512c6805a48b81ce2bd7e95cd9d5;
0x21d74be8e343e93f759588cd7d29cd64a3afa4ebb48e1204a3d573ad1d56f4da;
0x1b8e0086de4de522d5c81eb0a996955ea7004aa6e90d3dc9f37b3bf834b08430;
0x17e5a80ec135e0c932f063972d785d9f89eb45ffe44dda9a8ffc11468081645;
0x1a5caf74532f2c590fee8503a13bb0ee8e931b6cb92e8f1e52c337f3c7e188f5;
0x196b76cefdcc7f6a54c71d40114a0bb82694c936f1573ac7ac1ea3fcce1fe938;
0x1ac42d7b0a6e8b8f0a097d11d8651798aa5f2676574418f23b7fe6168f28257b;
0x1ec67557d1bf0e6f851c89835c29d2334967383b9677c71e10f12ceda3593e41;
0x2f47ab58a58e52340df845a782d6ce983366fa669f4d9373f849c0e3cfbca272;
0x8f212a5650c4b2f68a8b7a14789198ad2c224facc562e07360904f0adb8efd3;
0x2592c7276c9fb4e962b8f7f5bbb95018d17303a6e8a5b513b2f3ef87b66d5135;
0x28eee34c1029e6eea0cc12e202dc1f4b50e73865acd6a7b69302a1b45f2c1907;
0x11bd9407f0c9e1b9ebe379342b2a426ea14d87335522e8aaa880236f5129fd0;
0x169f293f396fd012d20b323f9b3eb45362e5d272d2342696ddf1e3efed03c069;
0x1e1f46890d389a50ac16e5422f79d449a6011c5be9e53c266285afcc7f5b2608;
0x128da78e60b0758189982ebda43acd77c51eb6455d720455955ff631a922633a;
0x1069251fcb9d2fdff50a041154e6ccc7579a360ceab1c360d20404630de5565;
0x1ed383a4d6c433c6801b6853b5c40f67cc4fef27c2610aac9540d5355c6cdb88;
0x6e9b3357bd837d1a5b8c7598412c78216daa02bbb25970182e089872cea4e1d;
0x2fb62dd173e44023b3e784ae457bfc93adde1e08e98f3631c6e01bc6343c5bc;
0x204797d9b16d45b093bb34c6ef5e27304af9ac7ca7c4a252134d3b61b6954b4d;
0x2fa8b35e4e9405e7ef4f2d80820396ca8f026f3e330775368850d423394b2301;
0x10c38e859ea854e2c6bbfe3acd613ed59d70053772c6fd7497ed2d4d99b2907e;
0x1f44270853132e2b71724021bfd741e39c3414e8c63f7b148371a921355b5085;
0x2eb4d6a5f16de3e5b2c2c33801421c2dee87a222374f4cb2c2fca1fee4fb1ce8;
0x71e2443b4b9018d2a7ca057b35e2050e59409c688fdca9289c96444378486ac;
0x1423a5126a2789082bcfc21a6901111b6b5299c4f76d341c8b0c2e9dc4712726;
0x26e1e7b62d89a75f94630821b5385e6c48a97b8c5c5ae1b3b1f114444e8a10b8;
0x14fd3ede10aa7bb382991a1128340eb1e6ce0a8d573f643bd8add5a2d8e8a45b;
0x2aaa9048ecdf21e06da241868551cf548f683880615368a6a2cf87554d893b11;
0x2e083ac42fa88939d480a976e73c6773d26c4583074073d6c2a9f90071bc830d;
0x12cc2a0dc5c021316bc97e26a35a9f5b062087b78224526541f528acbde2d1c4;
0x22adb7b0e9d4c335e55c7aff8bca2048a59c0101099e8ab99b79e64be46ecc7e;
0x158cbe94e139620090b700f9fdef637d70081aafdf1aff2eddbb5e2f6bc02dd8;
0xcb42f4bca1dca294e7e897d0a0b9e6cc72531cbc872789265fa904aac00252b;
0x63156236d87d3673e07b739e18d79a22a6f1c99c2a4c3de4b982b5765c4de49;
0xb7f0818b640763c1268912be50230493391a86d9de957810fb2d1548397a088;
0x2aaeda58e831430d69a57059f933fa5deb7fd04fbedbb016a919bf5f4d8857c5;
0x196b76cefdcc7f6a54c71d40114a0bb82694c936f1573ac7ac1ea3fcce1fe938;
0x1d3a013444e777bc4e816c6f9194646b6009d5ed09931bd8011f5d3bbb01378e;
0x18e4924f258930420b1fc45cfaa31fae7ebed37f375a17f1b8ec6e97675403f1;
0x27c63021eb05577b17d50676669a6d590535b6114f74d6c14abb3efd3589781b;
0x159d12a40b8694d9dcda1149dc98bc3228eedeb19040682a2c5254723a60bc61;
0x1c04115e802bd71622e1b1425496f939414737bca8dcba1f070d8a44f6da2d21;
0x4d0a06d0ce3dc2ac28ee5f7774898d7910714459b385b5874ac46dde92d79d6;
0x30128d834fa6bd28116aa6cc19453b6f731a0970df12416c8c4e7830ef3f6f37;
0x1ab7eaaaf3e533054595ab5a16d37af4b028bb6612017235432179802e34ae67;
0x2a30c413b8cd102148977b0fd1f51d4cdd2684995eb899156438afb7bb4fdf9b;
0x1eb6795f1e63f8933ed48dce55d257dbf972298f9186c56d0880ae76fe562730;
0x21d1ef33916e6a7ebe055233c5e38e388ef6e2bfbac5530ec587719182cc0b40;
0x9e2af7ab3d9206c3f54ded28a08f8b78396cba9de3d7696964d2529a0517c59;
0x24564fb0247a0a53e81946f9f0365c5d45257ecef288d6d67d0bdc91055a80d6;
0x1b9ded9f11fe5b6dd79066bd0e16b9253935e8d0bc2bfc130db23a8215d0de13;
0x192711d3f80d452839ecbfff6dae32c92bde74d051a75bc14170bc690e69f9c2;
0x1b3af1fa25c32da1a5467fef1dffb9cca1b7b92c4d50e3f7ad0548ff2c4da1c5;
0x22bcbbbe6b9a39e310a03a9bf0e491451698d4d874aa192b828c1a4fcb86f3bb;
0x3a947c69e09d64be68d7bf2316f4cdc647c912a6bc4a936232cb2b6d320af52;
0x2d21f4596d98ac3b62dd919550859a7592e504009d268bb7f5bea0f38d4aaa46;
0x2b2708b2cafc826207f80189733e6c53d6ec1ebb3c54656689c10a8526967bb2;
0x13e69bc7a5decd620276116f40f9743e487cc219df1dc1d769b1aab8eb74316a;
0x118aaa8f364cff4865df9535488935c34afa1943b1e28aa08d440a7a7d72d80a;
0x11ad3bfa094695c23a74b1f23d9cf7808e7916b9f0eba90ec571e06e4f310106;
0x2f4b6c06d0b996fac689e922707ad815b411539f857871cd1a6b9aa34386f108;
0xa6288360ee10c1b02a2a6a6d34052b13ce79fa1ca91f8ddbed485dba92eeb9;
0x25ddb8ea60be41e7e99c97b6b5a7822f071027932936673c02900ebddddaa88f;
0x24c8c87f88b21ea24ac03cf1a498d64157a8bfe27ee0df70187f6d11eb856d2c;
0x2f958a89827eb535aab871af8f3e1fda9e0b6dd0541d7c9830321202d467410a;
0x2d2b3221d9d7539c627315e2422ae26dab5ae103cd8a8bd19d895ce97e19f866;
0x13bddf23791d0989c17fd99bd435437bd8bcf676c689ca0595a0d04afd9c2603;
0x2c15a1ae35281bd2fe7a611523dd767be99c5a32a8501ca19b1a8940e1062826;
0xcec5e18e50beb5ab2c7f5c9eada9fe3f3e8689b0901afac80992dda3bbf8803;
0x196b76cefdcc7f6a54c71d40114a0bb82694c936f1573ac7ac1ea3fcce1fe938;
0x1d23ff4f22dbb142a5d4465aee8fcd2fbdd8e450d1cf6f29182445d4496a2e5e;
0x172ee58685e83a795c76191742ce9df18765ec6f1e9d1233bf73ee4fbc53276d;
0x352cf61f75587d4a82226e28ed9a38863d7e3fe6647117cd28c736cb2893b5a;
0x1e571b53f1260a7fd4ed79e03d32e23b2627804ea5c038618a239b2873961fdd;
0x150d7efd3ec4cb7eaa6703bb78913527c77b07e38c93a800841a123ebf3edebc;
0x13cdaeb00438b5c6a40c0d8a039a8117269e15f580b8044214e5638f2e87a37b;
0x9d76e8da13f87545b74c5f505af00e204eb2414a186b54e6dc3b7b8c24e27f0;
0xb6ec96b7f761247ebbc27f64fb4275f1128472e7ed11e8a712a206cb9e16477;
0x1e066da048cf035bcc17fbc4fae18348f4bb1140d9519f1bce81144da499a536;
0x426afeba63d285758165a95db5df2aa86932ba9f50314c5f7ca4408bc3eaa86;
0x2ce68ba3f40fa50262f137219ffa5e343650976b2d5d2d1e80b687e40e426d1a;
0x1e1dbc3eccd20a0a96846877182b08ebdba8bcb16492fcdb60acaa42317ef8eb;
0x282ae2fa425f91419dcdedfbe6800a0122a5211345524b9c320cf776a201b467;
0x14bde086cfb19372690c53b0e04ad0ecaa78a8babbe21de8a47a796ae9730e5;
0x114e76d2755ba6fbf01851955b051cb5e7d677db3fda594d6658ad4fc099236;
0x2796ec5da2337effa6fc65cb8536ea82b5e60b14f10b005b07308b52d3011d2e;
0x252c6e37471afd938b2c840b2818ed18eb7900adbe9209e038939f883a236f21;
0x2b6e07212cf2e4304a307acfd16edc984c170d96e7953460d1cacd3e84dc9e75;
0x2adaa99cc0a5150cfdd4e17ff6390c973f2491d4e2723918d35ac55b5deefb49;
0x17759cb89386f9365fa875620b6f6e7cb6b5cee2d77f0b7355d9c33ba0e6a460;
0x111bb071c2ca17121de11f36ba7cf79f699960dd76e09295610a136afd200e61;
0xf394cb8fbdaabd31e43d4baeb5523945e29df4f720d026fe115bd1693a88818;
0x241d58e1cf3ed5d94bdaf9f0c463fb645b65fa19c52c193ad67f1d38fcb343fc;
0x16713a7b5d8cf3ed4c25d780a7968a80f70c566e6ba208859e6cd69801995242;
0x19909ba7fd3b8fcb03b6f810f246f384563ebc5896fd61496737f65b5362dd02;
0x2a9dfd2dd3048b0347dd42aef6561a277adf3d86fe83203df1778536e6c24aca;
0x18532ee14e86e608555da020892086f155c685561272111e7f4b6c91781864d0;
0x2509cd9ebd96c0d7cd88a3bab280b42068691da92e03f6de5930ae67ffe04f51;
0x11c0877290f334877a26326ce2e6ca7a96dd732288d273efcabbc0294e2daf09;
0x26009dbe4fefea6739e28a0a6fb1dffb35d8516e06914862db8738bbbafbfd1b;
0xe9f75fd533fa509a499945055cfdd603dd9930a50634e41a935098d571012a8;
0x1f3592557428f40b9e6582536aed2b7264c9166093b76df3ed68ff033c7ff93a;
0x196b76cefdcc7f6a54c71d40114a0bb82694c936f1573ac7ac1ea3fcce1fe938;
0x1befd6dac2acbea83cbc882c661e80b50b85af2021c7ce770cbd4e4cd48f69c;
0x2ddb55369f02ada084136f4092258eff0be8e170cca9eeb6e2b65311edacdf9f;
0x12dd67091b9f1d7101cb2cef74fd216fbf49d4cf33548e6d8310446e562cb7a9;
0x1e824766a37cb1d1c7e75e3f9c261f4aefaaf65080f870e972b14132e7aa6cd7;
0x4af8f03823d37cedd40c1791ac745b768c735234f5756d638b200e1c134bb1d;
0x1b65a271d787e78382a9ee5a1715c9aa23e3570e92dacd75004aed46b5e4f778;
0x1b239d4ebb80ce098356e864632edbe6affc3e5a34d92fb9518ab89f16ca4f22;
0xa9f23337f4d86a82c5dd9a9216cc182a5a6b6eb6fc5e42797df022e276846ca;
0x86e0f2ecc21e30809e1f2697cd036bbd6241d68668b26efcba5a63bfaf84037;
0x29bdb60350b498b5e1ff14f7360deee6aa03cca4dee1a94c4181a28f0fd2a9f7;
0x2ed66c1da1c54cb685c48a32d650d24c17162a3c758eb19aeb9779fd35ce5499;
0x23731d564560385b611877a371f26ef53a64244728a8e8c5fb7af1d793e0c7c6;
0x5d2071dddbfe020a1d54d3be85485fda55e94634c3c7f92b6a0e7df8c54cb47;
0xf43e2482200419e7d6bd3242598add21ca3c7a6f1297401a48aeeeddf8c42c9;
0x147a84a37131c4e46e9f9ca597b984d7b4a4239425a12ce32f8fd114874a8cb4;
0x6acec506161a2536df8657ccae9de73d400b734124368cc4da6fd86ef670a19;
0x23ca187dab655ca80e1af85d71cb254f05d27b6f8000e366443afbe83c4cc725;
0x2f8a17922cd86c60691695f93bf0f432f1ef9f05e2e63e9532ab277fa47c0297;
0x1846b9769a8f327eddc2fa52e235b3c54833f35db8c7989f4342d667ddf2caf2;
0x243270c2e4a32bbc19d2bd52271b9a8da3f760251ae2f2d783d2854d749d0ab2;
0x29e4f01c0da1655d98887dc01ea2faa33baf934660f2c934187ea6902f5e0dba;
0x3e46dd55965a70ac8d048f6ef72742efe897a8a5cac24a0a323452a738a4271;
0x3032ada92a06e725cfd5cf71879293c3b862c706221b604bf004900182588e87;
0x9aa6962258ba57549d5496104be1d44d36adad0118ce7780f470655e7a79b9e;
0x24f4c3f9b2fb7dde23f455ab4a5e76ac60617e46bb7900dd97769420911b59cb;
0x10e408cfdce8d6f9b7b710d2cc93937cdb43d86d59580ff5417160745c80b7fd;
0xc7e1f9439ed6f97010e5539ecf56bf151a2955f8ee20b2ec89879d81cd24a16;
0x20bf7ddb42d4c9d7c8bc1e1b110f065665dbe466145402ba3a3febce0fbfb3d9;
0x485724e08555b73d84eaafda9702a639baf4de0046875d1f0cf609a1270d720;
0x2e67be03421ab1f822047861a72a6d08494e65bbfd13c3f7fe6ff48cb863749b;
0xf79509c03da0c16557c73fb11286f9fddd8f86d235071eaa7aa71a85f547133;
0x1df1ee0ab120c8673cd3cc8c6ef2e15d74810a03809c61e16e8bab3f20a296cf;
0x196b76cefdcc7f6a54c71d40114a0bb82694c936f1573ac7ac1ea3fcce1fe938;
0x214e36f5e05f24b3cff586c96031ae938f81cb8624b76697a7e1e79986f1cb94;
0x26e5f56af93c25c1c66a64447449b0256433d47d6413c0b2fcf6210ee5f138c;
0xb31a4ad9ec066989d7421b0f1cb06d7683bf5a64e0c3067e0b1a3bca5a64a2a;
0x8561474777e7f179341123ab782afad4ff632de09860eff6ebe29e4fb1a0c36;
0xffb57365252bbf56569562327f8db32f337001a18e56fceb006741a0de303ed;
0x186989821e7ba7588a8634d87210552eec88f846e3701bb336a5b7f0507d01bb;
0x2b68655758f842d0aa6dacaccd461eafddb981b75166e55dc1ee2c208308e5f3;
0x2d399f586c89c60556a7651f9409b01aab8f7d9d9322ecaedc93c590d9cd0fc0;
0x2da5bf9c9e9da4c394519580405b41e6545886063a830437dec32d7f1bdade47;
0x2b65554e892585688e54d5bb49e321f507bc305fe56fb780e41d816dd9158369;
0x2ba41319cdf6a416c9e11bca8441cc610c6e7e45c2108dae471840f71deac714;
0x240f23cf9066f8f5308a2cb0f33e1b40cf634980a9f76bb6ff07e28730868f54;
0x231ff9a1222347ab20a05faa8d43bf8cb62f0ff9df561f7af015c73d191ffe98;
0x482fa25dc024367c8dd5429b56e7a0736c866fe84ea1afffc3f5d0f421fe651;
0x2923732da6b8bf6ee5c73ce34d3ac60f9660eda207235d1d5af9784103f0fb3b;
0x1753f96bcf7911bc332bcffd151e9e82248a44517474204b3e9888738e58c5f8;
0x15e1d217ad8bcccb9a7b3009f26c09576e9a83a00f3751fd4ae4b396667be084;
0x18e3a1c74fd50b4cf58f3096ed129eff1e129302507e6efdcc44c577ff23403;
0x2ba6780071d6646fbda80d23fabebbaf0272a953fba3249e3af0b56f22ce8120;
0x1f7f5e238b103729627d5c22c78d92ede19a56995972ca46a317efdc27fc70e0;
0x2ea1bdf6dc4bb3ba6c3d068e085a361ec8676c6fe2ce66e842885b830315378c;
0xa6fca77ea6f6437fc2bfa7f2beb768dd908dbbbe87aa75ad303c62790b34d17;
0x6ce49d6e3d7f46d2175ae9a176153bfd3a3b8f93237a5e45ca9c4ee04ebc5da;
0xa01cdcd06c3f24187bef0d4a83b8e21a54746f27f0f0d919e08b7cf0d241776;
0x13c68e6f75234dd86b9568ea56dd98bce6c1b8d64fa4bde97dcd7562d0a9844b;
0xa162dbfe59de052c7f1bfd5a6a0ed87c5d6120d538c40a537ecd0f3ac12d88b;
0x2af4c78dae7b20fd7e337e83afb1feae26c555a544d8ca8fc5c9555423fe1c1d;
0x2f6c75f43301c4a5bdc3d32fc1d66fdaaa4f3b04236427ede87ebcdcb6c7fe59;
0x2a4aa9b8b9464b6ab6c584645c872959c9f68ba65c057c235b7e2fde8160e42d;
0x2d8dcc78c6658c1188d60d080fb3cd8b34ee5fd1adccc8a47d499e62ca725b05;
0x14d6380547e6c54a017d04ca2b2cbe305a4638b32b4163195b459db073fa9872;
0x478b43d35f78cb355796e0ea0e8e9f5a8b8d6c59cd2cf58df4dbac1a55defef;
0x196b76cefdcc7f6a54c71d40114a0bb82694c936f1573ac7ac1ea3fcce1fe938;
0x1ef96c51c2b7b30f1e2c59a13e9e76f079c907a4718b3b1827228823b9d8172e;
0x29321a97121f289220eb66f5382ef63c56ab3d289391c4db61c9dacd44a823a;
0x1481bf24e7b45de9670afe57fdea41b8beeecfb23422e83c83de9f6845ea9576;
0x1ef847d3c1b94f7d5dff4319c81691a1354f76fc73dbc600638472570c8c465;
0xc266666de2f8bbbaa20aca7b4af2de342cf1930552784c300342f3896703b9e;
0x149bb0f5b9d904cdef7c045ee236bc38a33dab8fab24381bbd14aac30b12ebc1;
0x2ee176ae76a9196262b1d9b78ce2247cf2133e707cccd952e37d92fd71d88d9a;
0x1376c5573ebb7265f70acb843f749ffab6f69d346c01e8fa59a1c61091e53f03;
0x1098a7920a98fb50caa3540c5efc8f6db3dffe9b2c806aeb20501cd0e09a5b45;
0xb01cc70e8b9fd48f7093dcc2ba65898771cb4302388e39d95095b446fbf6bc6;
0x1b0e1d5d686b5c6879413df5c510fb672a6d6622bee86008f32c0c32d237b94;
0x1f74ab5e561a3606ff3b9b334dce7c65d772ca2c1d8ab0e2591d7b8dbbd7870d;
0x20de7f8e6a491ab79a1d638f7ab760fc5c27285e90c87ad512e86a1bff3b247f;
0x2e48491edee5daef9ee63ac52cb1734aa69e15b68d8c9e0da68ad718858397d2;
0xebddc875be02613b22701dadc5f3ad1020a797469a02c064545adfdfb73daff;
0x171d043f251b701475bf87b388ee12b5a469cf0b5f4c120b34b7b8df3a50b898;
0x11c7c2bb7facd8c4d0e37f220026818496ad96f0009975cade5a85dd0b319d3a;
0x2b86058c080559f84c11d33ce0dd77e8f4aceff8644a1ccf78907b6f02f2a2e;
0x1bd631d67d9ac357a1dfdde1c92a62b0c7fcfddc06376746b45231878b83da75;
0x2cbdd86f5eaaeda63428d4a39c788df7e08cbe62027d423d3060f7a04fe40d13;
0x120e0960c012805f36743a540c3b89f519e39fa631ba17d2542d13ef27469cb8;
0x8e188acf6db761e26d65404bbfd7a0b5537d4e05d85f819de8bb08b1f9e6dd;
0x2da3a719e3b97734dec894cdff62842dbcaf8ffc37040bdd3f2249d32df42e65;
0x176acedbe2dc8cdbad093b2a591292b231289939391991be3b9ebf27276879d1;
0x15964189dfb203bd5cb0a49c9d0fe330bc82a66e62b4bf29cf9a878b74133c92;
0x7e6833725a1a694e290a34cf6d725401b7ba6c1b0b740226bfd38b66acd1b02;
0xe4fa44c437c0b7871d7db91fee425aef4dec5461c08cb8f7e8990ab8aa30724;
0x2e3f0bedffebdd3509be6b792530f2041b04171e729ddc9718a2caf15af84b38;
0x1504dc8d0dcecc34da56ea5522a2bc7960d0dd2e0ea24466b84f59aa5db015a7;
0x178c9a3999106b047952fb93395c214125f988fb1cebfffecdef4278a076e3b2;
0x1af7832596eef3c4cc8630615883a143b7b6993e90b4332e66f36cdf167bc838;
0x2822dceeeceb7a2e1cf3f25a018f8ebdfcfc720a39e370c67d4333e515ddc724;
0x196b76cefdcc7f6a54c71d40114a0bb82694c936f1573ac7ac1ea3fcce1fe938;
0x25ce0d19840e800b798a9033269b14f1726a4fd660cbd3b6dc3cb39c07f27f53;
0x175f82195ac38e9f11db0773887a93338ee07d2852587fb4226f11d9422b8328;
0x2017bd7838d0bfa3ea272ff2e883a80e63c7288a4433997b18b4c5f0da5f7e3;
0x1818b2d93a4d80ce0068fd9ce46ddbd200b6040399f4355194edc9f2c55b5ac4;
0x17c59d81c21e6f83f8972fe07e0ca9b352d04ef730fb76dd72931925c9a78427;
0x13694ae68e1c55dd02a5b8c1915f878edfbddaf12b45fbe9fa27a2954b213a9;
0x120221d8a84571726473bfc84ad47f1b04ff70e7a8d8e9c1e91e1165e9b4f18f;
0x14d65cb6f3b2e4bae5ae5ed1cafb3e68ea86144d27fa8f33aeaba929cfef4d80;
0x1a6104dae9627992b627b87d84e656009bb69a3a7a9bfee98aa80dbf21bb6ca6;
0x1e3af87bd45255572d1d14ccba0d7b2f8dfd79b79068c6f3883ca9fee52830a7;
0xf3d0df45aa7bd62a9768cd20f8466c37b7ec5661968b2cd18abd57367319079;
0x13b8af0004234bf35f20a7cc7b9fccc999d0d8e4f5ff6f26c237835a1fe042fc;
0x16e0bf0c9a24d467e38c3778c76b2e2250fb1c06fd4659fffa3093f493a9eca2;
0x26d28c3453b3d7eca08e87a6c46bf8a698385ff358e23edbb1e174efe5c233c5;
0x26fcf8eeebb1ea7b1754c047bac9ad888edbece428440fe2102d46969daae640;
0x2731ccbaf234079c1038e6ab182efe0f1dba3c47effc3e21d2e195e3f0319503;
0xc785f0fe165d5d26f6b5f2a0ffb7ded4408eb4a92f3eb3d13947eb094290d97;
0x2581c7faa23de18b2596cfc15ff01dbc84bea0fa4806c7d1a0abc43e76ee0f3c;
0x27e3f76b7335ff9fccffc865fffb83b368995521e989bd4dd6a86cf595d4a17e;
0x13234d0fe49f03c4a28ed5ec2b8044e9c7dd20cb831e541b7c540db6c1800637;
0x11a6eaf2aa5518374eea4199c11f3d937a426494ba614ddbc6ac6ea1dc804ff3;
0x1fcc367b6de0eac68cb524cf8008e6adbd783e8c13821889031f886647664a0c;
0x1458038bfbc93c12974f7474afe5bdc94cbd539c913100169cccbdd143151a2c;
0xf24afffaaa9f04e88599ed696dbd4eae28447c2f05b997194ec832189cdfe25;
0x7c8e157325437ae945c3c67c4c757493076bae3ae720b00d0c35c36453f6826;
0x11198181950b4a2475dc01088b72115a94285ffec4c2a5ca614d13b1a14fb319;
0xed57c8d4abec5e290ca22be70bc5e754e135771d5348f7d711d7383617ecf36;
0xcec6b37e0709d4c9d5a8ce252840ada6dd5fb95603720af648319370941bfc3;
0x192f0b18cf17855bfe94214aa47604eecc598f8df429d9c7a9f0c807a467511c;
0x10323d6e384414dda110f50d67bd06633361960a357f9c6de63f837553cb58b5;
0xadd901bde5b672bead23855ffaa43194e666b932d604f47000f08d1d2640511;
0x16dd65f412cf9f1325a3cf4e9a8f02c27371b2c3d90888e7d4ee82713dbebaaf;
0x196b76cefdcc7f6a54c71d40114a0bb82694c936f1573ac7ac1ea3fcce1fe938;
0xc86afa39353edb39b52bbff89c5c1a2bfbe2b4100df0895fa7c82d8e77c482e;
0xc46613d67d66e8ae31191ad6e5bbae2539169134c5311d25c06ca54e9f3ab77;
0x395678f2449c3e1a76b5b9df068e5dabe76e15ba8589e0703efa3fc1244184a;
0x19cdd035008146af2718d7c2ea72fa725be2d10efb070b303c809b861b788b51;
0x1a047c51c9647354891ea4acb582296dfb90bc65c97e8889f1d075fcf217cb48;
0xc6cdfe9a0d4271a15018a2e3f2d80dfb7468e216397e85e138d20be790b2307;
0xbc59105470408a58ed2e8816aaed1c29dd3af469e2e7eaf3e1ac366d40d312;
0x2bd71a360bc27ecd0f2ceddb797ffc5a662dc96cc64cf15e03e2e63a19aa0453;
0x45e127feeab8d5df95789dfd96426ae84c34723fc735865f80d98ee53eadd5d;
0x153dfcb519caee780dbcf85d14af1fd03d6888a8f8f35e0f5d16fede2fc3be20;
0x14e6a09539291352d800dcc6d07e0d0a15b544460b6a00c00b236fe5befec431;
0x2eb026a3350a6d92b399aafa7e52a5e1730d63b9212e6431473dec34b227eb63;
0x1641bb238c520d7b2da80d743f6325b013f7f2af04f83162314ca4554e4c034a;
0x2e2b3857032c8659c4533fdbd59d3e118d810ef879943988e6239fa808bafb4d;
0x2c37d689e22b1f332dc12fcb8490ec1b679a5e15b1f4b9b5edcc16507adbfd92;
0x3025a60ca5e0d56b9507310cc9a8a7a6dac7bf6e942883c6f73356f8a0c2afb7;
0x7f9e146e6c775ceee72b28edabe0f4735ac136ef900a6147570f0ea6de0782a;
0x318bc71cb7dc9d5f8b099c165d26545fe0bbf112167860825c84c180493c6bf;
0x2c6fe3f7e18010025df5e6b84648d0669067a473d849b4e181c3f4e03d42b128;
0x2bfa2ee15d1c06192533994513500e6386bd767c78391160dc4ed7ec323e57a9;
0x12f7e0085d724c9e28547f4fb7583a6b0fd4685f1fa9d8c012baf4701786270b;
0x58f27cb9e4bb8bc4df8b66ea9b5a5f8b90cdc72b345c4b0a300b1ecb6e2aa63;
0x1f34ca32f956eb4e099ab646d95af278ad8db5cd00ddb1c8a44593ea2fef03ec;
0xc73343dbd1d62046a2df0d555812babf2ee35b1fc103bf6938d783ad0b44499;
0x18e5fde3115a19d207ac2b687e135e438d915cb495c74a0069fda3370f46083;
0x120fde4dcc6a7447775ff4e871e321ebdfea69a589ac90714ea4f9a9608e1e23;
0x2d4601dddfecfe13175df8d48155e9aff8fcf449dafa39a245b8d6cb1706f490;
0x173632b4f61f2083cbb3e04853acb5bafeec8c75dc4407123e2133c060905ed5;
0x26b288e1ff854948e38cff794996597108b335f67b1fa2598c5ab2691a927730;
0x2a688ae162bad939c6de4d889910df138d1f7dcc8989d48caf72e1e22b956422;
0x160f4b8f49b226f36e72359509e3dac329b1372a7fb63f055d7f9b004d5734a;
0xddb062d06f99f34542ed03bcaf07a59a456201d26f15d45b8f122e9565d4044;
0x196b76cefdcc7f6a54c71d40114a0bb82694c936f1573ac7ac1ea3fcce1fe938;
0x13785c4968bb97c8c769257653ae58a73b94a24553fae0e00988b29f47ab549c;
0xec91cce07b1e9b778fdac5cb9ff8d8e6438292781351bedc3dda454afee474a;
0x22ad585fe3ddddb3233f390ec3cf43a570cc4f56076ed366a63a50b493a6d655;
0x11f51cd707f519aa4d0f07de79bd18a1f7b65d2b96b6023d18a87459396cffd6;
0x16d2290bff342fae3e0f6366c4a3ccb44c611797e77ebc27d7f5ac31fdc6cb51;
0x16d4e47f82ee3b3d81d48a335be28f4521f90a935641a451097b8298daf0a26c;
0x269e6a80d58dbc19ef71e682b1faa7dc7394636fc15c747d04ac950496f6e118;
0x2c1684229f0eae24af14f894023cebcab0e384703e71ad56199c4c8c70e2dd06;
0x2d9ede2e8993c45794928190781b626fcc406ac3a977235f9d6e50267ef18fb0;
0x11d67805271cb5d86a927303acd7fc45218098ab99eeef9756e62135bf77da70;
0x170206f9a4e4e0d7ef55c5cd644aacce231f7727c7f98d97417b720bc37c7881;
0x14a30c6b5536c74f98f7fc57d004129d4f887cf18ba9f869bd5630d66d341324;
0x25804cc693b0e118e811f3a191a9d6e47a537cb64129293c947206d9290e7d10;
0x1a7a17b400934be92901d4e91ad3cfc98231aa841e09627cce975bab7c15f2db;
0x2c0632973f605ced6998435a7d0cad76c8c9c223c280080fb6a8c922ad09dae5;
0x3044b16721e5ed81d39f2abd29d5f0a761c13fe26bb4f53d09d5a05620997fc1;
0xe2cb4e18b26e4ea445c704748bc7682bc2834cef35ce6bdc043beee286025d2;
0x1c033ddc1a9720312cc3541e886cb227d2d37eac1cf86c4588e98203692941f1;
0x1ef28ce82fab806a49fa311c6f4e8d0423d051e0a3500db978ff731a9378bee2;
0x51d7d3785234a09db1939ae4ceaaf14a46928189efc8ea0fa1889e5ad0d1224;
0x462c9e533e4745c52df23623b0b72f3c9eb8e3a9f2a22a71b5ce6ca41927425;
0x26a33280331d48e2aa9c5f8f63c4423a6dc8019b9633f49aebbdb6a55ea5cc93;
0x8ed8b1b9618a2db7e4746115d96cc25ec51411bcb07985e9529b6111039e90f;
0x18fe5d991dea77a7b18f1bd5c183a377cb9e5c9c2591867eb2f8e876c40c41f;
0x25a3f5cf66d0e82be05ea92e3a982a6b3289d9a8e51618f9b21ea0e39a30e5b6;
0x6182fd61e1b35b6f008e9909fe99904bfaef6519618e435130155d28d1dea2e;
0x1af6ad164424b6c90ca4241382ca0cd2660ca388775973b08e6728570a22d844;
0x6b534601619e55889aaa855c063a2ced889c6b4ba4190da327c8a612c255544;
0x50555bc03cbfafbaaa38191f0cde54e8dcf4fde1ccafb5af5c7e00c316d655c;
0x579cf40adfc069a0b3cac02a495fbaab0175fe948dc97ac85f7699ec9be97a4;
0x1d9670b720e7af8fcf67b3c832d43a0e9b36c1ce11b679554086d3ebd3743815;
0xb9f1b4372ddf2b552fb55e7d029267a0ed4f09c4f95d1b99a08c1d6585a6e74;
0x196b76cefdcc7f6a54c71d40114a0bb82694c936f1573ac7ac1ea3fcce1fe938;
0x80610bf8946c2cc782c83ec3eaea36684a2cb66366a9a801b63fad3332e8ec1;
0x2837c8ba7f104dbc7503abda031731b4a7a1dee3ee8fdc708651a7385e56fc72;
0xe4348619aa405bdc4f9fd965dac265ae73dcdfc0f71bfa3a943cf98965610fd;
0x199e9e250ce12b1667cb730f801334157f29044410b1d98b2d6f2a261a2f7768;
0xa0409a4aedc8480df4a99f9bd0bdb0151e5ec3cbb6707a594d8aad6334d4c75;
0x2719d9f1e85015ea06b50d406af582c36d5e937522c974727b1e7a4eeaefdbf3;
0x1066a17fec5e6cd2202792015dae55345167ea35b6a65ab7a7f2af91da59ca1f;
0xe4b0a49c371457ba0eda6cd95fdc3cb81264ad715202e43e2dec5699fbe4d82;
0x24b58a924ae3bf6ac96fc11ffab9221a2283830e95377deb2e5002c2bdd1323;
0x259c8606be0c6467b6ef056c6a4192776c6c3536ffa82c89f038c856862af24c;
0x21d6c0a2a54c5ae9ef9dd5f2aa73764f38df1e923aafd242e5f523b5332bbd05;
0x3c099cdc3f61caaa2e49d484abb2b30e969416f4e1a5678bb025318e416678d;
0x1d4d4b8c552ef0d318a9a8edd80a2f363c1c0a1dcdab35880dcc6bf3c548262f;
0x7e4cf648e92c276185c416d6ce6f5b0c0e7cbc2eef1e250555699afdfec0a0;
0x2992b02301dd18e00482a9940d59a69068127f06aaa50a32322dfa2af211f3d9;
0x16871531e6fe81173d8082d8059270e70ac4125d0951616ff37e4b4aa6975598;
0x221c08a0b7dc5aca357a52f0127797f9e9e01eb05d73655f6c779ff43f295f1e;
0x2756a3d44e88bd6547d02fa4460c09a2e982a4d505a3421625b9bca2604bd862;
0x2923fde3bde5751d8eac7a9a156d2444db92b629185e01e5600c4fb5a2ea53ac;
0x179ebe0d2b17128a67f8fce5fc42ee26c654d2a892c4eb3c6577448d5fd556ba;
0xa1814edd4f8466f7221dd98f8ef29107a18c66320825acdddd8de64feb0275b;
0x1cf03d03226c78b2369f79beef10f08fde37c150d4e7aa197978365ad0bd316c;
0x2fd3e923ee39fabc387d2170ea6b9a629b0a7e28296c84ba8843f8f03ec3bbc2;
0x12c6bd4f25c2d042e4d0ed3a1e5cc01247c78ae90e49ae722d32a584286e1b4d;
0x11b78a0b243bd45aaa4f3cdb1c79ab206e95c4011289c44ed4d8ca99686c9b9e;
0x8945308107ba56486011898e6bb26a99ec0f0b9071ad9ce0af820d2727f459d;
0x2172f85afc450cd67c1efebd6becbc01114bc8b3b62b4081e4cca3418693b323;
0x2db81bcc85e548bef5059b2595b4f06b55386b9aeba12f483f49978ec6a9cfbd;
0xef5d0ab806be48c7d0b46a2cec1766083eef4ba4373a16abb2226803305207d;
0x17caf822e96f4cb68325943442e65736c0f1e01b845aa970824a3b193ccf8b30;
0x2315b8f0ee989b11b9835d8ad7adb67e035f85c24835a4d53cc7d7b59ff15041;
0x1f5c7dea1a88280a88e2a57c1015af5c5d4e84da900bb30de5fb8c5258b46794;
0x196b76cefdcc7f6a54c71d40114a0bb82694c936f1573ac7ac1ea3fcce1fe938;
0x92a67467c379af9424ffdcd9a81657b04289992027e3a841bfe322924e000b1;
0x8c70f58f02446463906891b2604d2faf312cac00e6c254f30ae85874c112546;
0xf4af67e5395b62af989d01c1fa9fbd219ad1aa4aa2be4624460940bc0c12a3c;
0x17f7da080a7159316a1994a87177f0a4676e249247a2a577c3fc54ea8cf7fb27;
0x1591bba9c620f87132b8ceea1de4c4c5f09872714fe1d63259e0ef80b5f333a8;
0xcc30f15280abea47abe01145e5f35bd877550b79ae4262f61be65a5ed0cb24d;
0x1fc9cb670a57f842d47bb906223b02a9ab6352ba622804ffa51ee99da3edaac3;
0x8e8b798ab602d16910a34edf3f093333041aed6704a66d782d7a319dcda091;
0x1548714c734096e2cadef4ae88dde9c8886029e21e9ff5696971f11dce6ca6e2;
0xa133a39d296d427598f8acf721bdc057f2cd639a3317bfef3eed1bf38c610dd;
0xa4190ed0b3c966b6d7d0bf0bfe4d586e77b84cd55bbf322dd62c4ce7a262914;
0x26447ee04686542296d06c8f53902672e79514770b3d6490735ee9f5df35859e;
0x2d1d51cdb7a8fdb0cd7da5fdc33db94bdd8d5128123693ab1f4aa3e78e177870;
0x17b204236b11bd5c5c48edfde61d817b73d7cf2f5a32a888144c7b088d3ffdd9;
0x1915106b66fdf208607ed6888d503f44723c87a5c5aec9eed658514f3692828f;
0x1c171f06ea82d218b24213479856d66394e160dbe0b27e659a7294e07faa69c;
0x2a4c40c22e17c0bc9f509eb1e30acebedd18ebdda1825e391523a74d4ab23f50;
0x20515a5d86581b02f9176d72bec69e785a77c41a16fac68e1beb2ad41ee21f12;
0xc401945dd3d8dbcca89faf8e58b0469e7e7520f2e8982214a4dc244dcca5cd1;
0x28bf080eaf7736338ce614a62cbb2805eea22b0bfaeac1d0cd2cdeb2830ae0df;
0x20ed87ececd54dc49ce955a83fd4db61891865b24bd09c3eac85037bd69c52c3;
0x2baf7d6e7863aa68555f8bfd7648d1b4426f6c39fed82bac197368b3d22eaff6;
0x1fcf69944cc889569269c5031cc1fe8a1efb0b1953ec7f9573bf63671ec7a947;
0x980bdeb30e0498f3c45ed4e17a4ae4c8c3bee91095a6340207b69b4ddabb83a;
0x2455522726c3c95dc14e7fcb5fc1c008b5736e569f80505e71454f8aaacfaac5;
0x23541590ac6650296ea9c3b935009e79c446280d9bf1010b8e66cdda9f8970d9;
0x1d14af4f4b54f0c9398e051d2a223193c78997d591a639109818b8cdd02f556c;
0x22a747877bd35dcb97520a0f4a812c7b78702bad181237c01a05fee842840e4d;
0x2eafe1740ca67f80d8ae595e84c17039a0560bcb9628b084a97d9ff4afaf6b2;
0x1dba84e994a54a21666def22befb81abf49fec76c43c3f20da9043c9874ef2d8;
0x137b47cf2f3d3afc02f3469e9d165e49a212ac255691a1bd3565bce046fcf153;
0x1eeb1a0edc33a3e69b8445581ee8f0ddf84748fd901547d49440c863ca10caea;
0x196b76cefdcc7f6a54c71d40114a0bb82694c936f1573ac7ac1ea3fcce1fe938;
0x3e5726f2b2c60906deb00a314337a9c6e4eee70497a4a953ea206d200db8d69;
0x528d0374310dd042d5f80b2e720b61c4200539fd1e1a23ee1f8f347041af0db;
0x1da41de720a61ccf6e3b9b97ca36d7439da12c92549a11d238475e05f9037a03;
0x21c1d92ba962ab12631e4f710fc9b066c369ef4aed709fd5f6992f57be251b99;
0x2ebcb6f494b7d06a34d2d097c0f46ef929646c529f6efca0edeae7e733b0278d;
0x26ba18bcbe43ee1a2ae6e1b4dd89151ec17e1341839b94e4b2bfbd70761aaf49;
0xf05d9b39c0b9b3ca177ee5a8b12de457d00643d5a668a8fb30d6cba0266ae31;
0xdbb12012ec467271d189184d086eacb530c1bc906895850bc80af72eb6e49a4;
0x1e3d63755488479f0502c34e097c74fed1926b613e979d53a5353ea959ee6c9f;
0x2939fe43f4690de6ecc251b7cbfffca082fdf3c841d5ec1aa77de64016d23c0d;
0x29b304c4af9503a5a1ed74cfb37c9e98235404a851e915f9b476f96cf97208e9;
0x17f58faffdddb92894ca7cdad4cd379da8c174076a250c3a69441d649ce04bc6;
0x191456fee87886a7ae3d41901a05e755d8a3cc2a2519cc011a80724d430e918a;
0x4301fbb26093e59eb5818971467c137eb7633a00e8d1f51856f2e38596f3d2f;
0x127fe9f3329bc33759114950d8afe484a98e33011da6e40a41dc1f4ca2ce87a6;
0x201ad991da475d146d85daa85c5ca3d2d9ca48ff7886b06e37dbacfb7ef69664;
0x24a3d85006e0ccdd3d6fc62623fc5b36b1827ad57f7511a9677cc36327cebe65;
0x273193d9b2986767b8934849938c7d1157ebc32578efcc7528d9a6a18a354953;
0x2bb64a3b825a61f6c8b577993aa63ac00659221cafe92405be881026da729676;
0xf656e73593dd090547fb5b3b8361d172c93f94a334e5feddc059fd03890690e;
0x2889c18fa2eb572d474b6eee810b750942586f2792b146f455a023b89542d353;
0x10ed5f7f60bab5b473285acbd59f0e3dd299f6d2d1e6412322ebf9378f4aa031;
0x94d0f2d2dac4b549a1ac6b1e112ecb6e9eb337c0086cb2c39c5b98a180391cc;
0x1b6950296c9a98930d2acc173d41e4788e70e42e3f568a97daa0fb7ad8d2eeb9;
0x227c2f6979d9ca34ed1716207f3d70e78b9b76b1fdbf3ea97ae4b54826190e21;
0x33ee70ee09fc264ff1cfa9060778cf77b725d24c55967846f6aeb468189f68e;
0x103ab98622a6dd1bd90094a3b69b635873a4bfb0b1645964b8d03390192a264a;
0x46f5bb0ba2b9a8cc19af50bd1fe9d3e73e4df3036ee569beef19fb47bba174e;
0x1955685f6f6f936a887f4892fd66ae962f38fec2286788bd246f7eca45b5d7f3;
0x7eaa9de669ef1442dc6d616ec080d6c921f95e73b87b7c3752782d7846d5a16;
0x1103c98bc60cb276ac254178b668e743b6793de46309ff72291767e697516522;
0x14e1141e0163ad2a79522578c5025149d4ad0b484ea0837c427ffd798b5c211c;
0x196b76cefdcc7f6a54c71d40114a0bb82694c936f1573ac7ac1ea3fcce1fe938;
0x4b913e824903a4b78ffbfa9043117402f816d24b695be147d26fb633ace8fb6;
0x11b959c95a4da45d9da05602f07e696b8ac0ce6781702a1368d807d21eaab72f;
0x1fbfc86fc58e1fa4032309165184ac8b6dc81dc1f81c09ff100758347243f289;
0xfa7865327aef8246f45ac73dba9666a853fa8e71e1edc2409647207922a9041;
0x3020170de7b6e86b2b0fcd04439ebdaaa8ce01089600b801945dded0c906d83d;
0x10e72d8e4629ac7c8fffddca3f8374759040f8f61e1b2419cf266255d68496d3;
0x5e90f1892363b99161345ab49317e3792eb9a536f473e85fa47480b90dd2a86;
0x240e190d0b92f9aa7cd7bce008719c3f8d5fff587df3958c85f5a1286288f63;
0x16e841b2ee682513db27e23b983f5fabbe6ad3a3d44303962910302eaf30840f;
0x8a397b575fb86fad288ceb48f43315d70399c8bd9cf4af25faead935d02277a;
0x2edad52145b10b3d0bcbd0216574b52cc2b442f9308ab528a018a78ae97067f1;
0x1caca2ec3c3d6617fefbe6901c4252ec01ec7cdda757bdbd5f9cc62e911cda61;
0x157303e9fe11497049ecf530db42fea5c87d7b14cc153120babb743935f30de0;
0x20d93803a35f06d76ab5daeec28e4591d0066271d84edf26660e0350d30a9049;
0x970dae33627a299a9cbf049505d94ce6cd1256c80a6322ad47479448bc808a2;
0x178b6678bfc5c1d9fad6fa7aea247cb6b4facffbd49fd846c64f1411b2c2f6b0;
0x6503b98a6cc525bd286b56e7ec81ab36835c969d4101ac249d3dd65834fd99c;
0x21218ec0a783dc924ae7d9f38260750f0a0e039a4004cc095d5bb88e1f9be771;
0xc0289c9220673997f0393267b29ab048761034a16f6b6e076b063ec6031846d;
0x1984f03779ff4d9b4ccfd87d23700f204b38c3a606b0279327ca81ff9560b48d;
0x17aa6042676f383383262058e28ab7c70d3d19b4f8ad4f54a43869e037470258;
0x2ee1b009aa9a1ba5894110394a79e739754d9f2356ccf9293b2d851ddb6a6c52;
0x22a586eb8ef3b8257479bca2d919afc56fd0846dbff4f3a9db9e42e4334b8727;
0x643b1de630b4b9a250b0eb1857c4323bce1701afdb02ff2c6537a04847ac5b4;
0x125bab28f5eb5c15dc0b3e9ce2b1e6bb246ebc56c44fe9943dc1ea4915830033;
0x1bc10af70f7125d85f34ad4ef6e7347eeba2a11321da19894c5f826880d770ad;
0xf6baa6289cf76db86d915ac19af0535773157e39b5423b43b1f3d0df2a4ef5c;
0x2e80ef76053f6d815f5a779fba74e9b03bf8dbb8a19d40550c519a35f391301c;
0x31efdb5d245fd16283ceaab1fb5d4ac1cd08918c0c22265f7f114a9ef22058a;
0x25efb8eac91f3ab3d77ea8ef523c86fa555516d32798397a6ad00622095b9b0;
0x14cdcee9150e86793e59fd2690a2aa102c2ec7f78d1da286826a37068c8859b5;
0x101320abf4ad5bfdd7bf37fd1b5e5afa8f1b472c02e062a7058780fc215396c4;
0x196b76cefdcc7f6a54c71d40114a0bb82694c936f1573ac7ac1ea3fcce1fe938;
0x4d0659feee688cc4dbaaea4f05b259f7614cf5a5d970087016cb2f2eb343bf4;
0x291dcb25510a3655066e860ade461e23fa4f89bc26f523b65b88aad5a753623c;
0x1c40b5589a51a5bc3e746f93c18ee86f51331e8da3a246909b6a3063393a1b6e;
0x50535d58a6b20676d9dde187a15c9676781eb6c1e46159f9e63d7db750c6410;
0x1532765d3af5aad33c7cae523592894cf354ad9890479d662ce3cd51721178c1;
0x8a6818b3d448d43c1b5ef357488c00883e342690a21d3fed21f7d62142dd589;
0x17db4c5c59ff1ade79c01c45dbc7b6134c929ca5292cd7893a016573e7696756;
0x2a7e1f2d365ce9b5abd3eeaf983c6f6434cdba5ea59222f6bd3a5d3ecd763f5a;
0x6261e5b4d7188ac9e84d341f1152a4518f88d3e701ed5bfd7110577ce1dfa8f;
0x199c5a8f0703767fe32daa280419f8c6793bb0888ecdfcbb4eb16332fbc028a9;
0x13388d9d87929845924e078243a8d7e2476d77ccf84f1c05f7fb7c7da371bdee;
0x7d044bf7a4fd698a6757c186c08d7c39c2083c8cbc5be29964e481592ee6684;
0x283cd95f4743d216af04c17591b192367280dd2440ef47349a8f384f63887cd8;
0x1356391f7516db1ad0481ebffa73034416caa2362bd2612a9f42034e35e93e27;
0x26fd7e1f6d657b1bd8333e3f9b548f54941b9d13830bc88b8210e5b359b00f68;
0x27ec948ca2028850a977addd6a9cccc697404d4d4b47eaadb54558c57435f916;
0x27529d815efdab4fa4f21829ba3103982ab79e6052fa863044394fb5fc8d5dc7;
0x1dce3f61f34639eefa0a344fea750a5751da0695e577434f20a38658cee96f09;
0x917c97d46d5b4ff89b5cce4bd785c4b68f38c53beae9cec7e8ce31f7b11ab5e;
0x1f389f75cde06c7ca3105a2b5769cf3915292ebb44e5819229fe3f33ff11d03a;
0x2d9aac1c72b0a36a067ec7776c0ce2138eed3e90c3c381d13b28c43f297ff300;
0xb8f7a8e4c0d2d5757c501e44a51e5f5160a01440281ebd4479b858614cfc09d;
0xaa15536df2ec5905877e2ebf9d07d3763a3f94e9b4deb5c6639bd89efb86aca;
0xb03dd77a7424fa8d945440f077f848e4137323442e11e1b4a2efe97df3214ae;
0x70898a71952afad3ef0062e8420e92d94fa7bddc55beb355dcd1d3526f538d2;
0x29d5413ba2416a2db49c14b165cb247362821494d738b57897a0bbe6cb53a287;
0x7f3f807872bb8ec72dd2ccb223407a19c5b64e086cdb0c38a7b92458c5f7c8d;
0x2f69330924f5ca89e8ea41b0334796a9961df24ad0abaef5106d89963a038f0a;
0x2abdcf1940bf24e67ab4c8c0942df7d3440d04359da428541b0f128f6f53184e;
0x209de37635d57f9ff0ea8a6be7cec5c70d701156bb34e25c0948c7090b319ec1;
0x79b485de26ad58268a3b1bd5cdf3a1dbce291e7e30a1d645a7268d340a8f1f;
0x2da731b7942de735663698b5d20570402d266df448d8a80110557643a906ba3f;
0x196b76cefdcc7f6a54c71d40114a0bb82694c936f1573ac7ac1ea3fcce1fe938;
0x2c8f848a56c338afe1290f12b67b57d00ff8e974e804ac53b174ea42c9970efd;
0x2d02f17717bf0db48ac36ad0a19e621cbf73b049364d945ad2a962d481001430;
0x2150b09c7e10ab5208e632f8dfd30bc323807c5c6b122a6783b9fe5458a859c8;
0x5b10ef00e618a270ddc6f313e86197af2bb111ec623f2964518938e4d1ab8ce;
0x813aef08c1ab8116f2ed8caa7eac00762afad0fcf0fed79077845b2b81888a3;
0x217798429df3f4efe0b8010a3305f618cfa40b31226a7f01aacf05750f85e308;
0x13dddd98f07da3c85a8a7e584a541a3d1c30131e58fd19a79d3583e1eab08db9;
0x200c75e95d154cd5d9f42b940fd7090764594e0179db56e462c80da1b57e0826;
0x24c60aa77eec80da564202803e367806e84056ea84571e7702e708eff20350bc;
0x2008060f910cd57bd018a7fe79edc508e11897199106323a04369c0b2f110193;
0x154b1730e35711d6b5e0596a7e9fdf40a369c96e9889573772e35153780d06a5;
0x20b48f4a5019ab0f0229c8613c44f40d6ca7ff80ebc6bd6f4f595947c9e3e9a6;
0x8da6678cb4513c79e70618c7f6a247376292a28f4b8a26d7b22cfe89262422f;
0x1e32944ecb0c8e538be8b702f45748cbd910c621ba8c0462a03a6d536e8f3cf8;
0x130383065e342214003bef6cd7ac224dfc22a799b13a089cefed9c8872c056c4;
0x2bb1e946f9019e0f0a3a6f31c54d13d900e95b92657fb49a0bb1d8b085aa7bdc;
0x12c6706724626b4a2511d5ef4cdc22e569da5743363f598b0985da3f74ebcc66;
0x105f4876b371512fdd868e75e02332cb49f228f7f6c3ce9012fca57b9587fda7;
0x1ecdf6fcce9eea60179494be5317b761a337f5c1eea7d4bd7b36c4b136ba893c;
0x9cd2ef6d45dbbca0dc657384ddb563f367042010debc24bf026a4b9c59f0da7;
0x254ac6855d05046745889295c485aa0d141421c2e7e46907c6ae60a50ee2f8ba;
0xa99c054b9a38bbe19930906e64c1126c9f0aaeb16ab6c33d1e0e29418edcca4;
0x220b4016fade57782896ac3ac88e5c69dca5e58f1d6ebe25f7caee67371b85a4;
0xb1979da1c048f6ef5e0232ef793f134dbb2a9e2c8f83a710944e1ccbdb08da5;
0x2eef2d924b88414b5f89ffa9dfd4b62047a12d0e08118d0d39a1a1fa99dd91e5;
0x126ae3d2dcacca892ec8b9b2338953d3bd2a0b341b7ed5986138dae14b6bab77;
0x19e7c32cf6e235f95e2ff6e9537b23f8fb2ef50b5a1f734eb757352a74eaf498;
0x2f9bcb5e0cd5660350ea6151e4a514ac84dc6064adac393e9bc4daa628297fc6;
0x1aa496f96372589a74cdb1523691b1fd072bd35560d30b8c48109d86c7776b75;
0x2ea5a8d0da13d3a0051a7f1b186b35d6f0eb986a2769aee850d3945ee2409439;
0xa633c25ff6bbbd07e365ee018c76dc3be74b40619892f106cdecf3cc4ff8372;
0xf412148158955c69a302b9b42e5fedb330d5ab4a6cf31b25d4fd1d8135c9900;
0x196b76cefdcc7f6a54c71d40114a0bb82694c936f1573ac7ac1ea3fcce1fe938;
0x2f2ed1486990b9431be8fc1485b6eac869fef5cd8fd2a94c7d4d5da7e496db12;
0xd5140886c23f2671e698c3733a296be1f4ecb97f7520b027d906189fd755860;
0xd1b9427080a9865543b6fbe5502899198b228d02f2ee9287bd1bc1b71680370;
0x25f14784419e0d86eba62a9cf2cb22f063caeca529be18af1fa084c73287c3fd;
0x1cdf7679aeb1784cd81e69e41807377671163372ca50143e5b30eef5a31abea9;
0x7abd6f3a4c53c8d3aefe49b257b3e7c0aace886107a6168a9f93e33733c1224;
0x198e8dde62e4b800e4a5081cc43fffce5ba02ddb349795a9ba8d2ca36eaeceff;
0x2a10fcbbc185ff7ae275115f56640a9ab88dfee8d2f371e21fade31ff9e7d249;
0x3f74e702559a149c3ccb5dd839b3f80ce100c26671929236a4d703c6e53d53b;
0x1e9cd241f96559366079809b034d98dc345a4814a7e947e17b41a19b4a119b75;
0x7640b3b48b2cec9061c87ce4740d281ccaea62d865d0b3da726ffcd67d2d426;
0xf224f2a3eeb002452e25fa54b360804dc9dd1a065655a31230e91a1f7896eda;
0x296b25652ffb82041356634b505aec0d11bc8ffeab06b6ee76f97d3e90e11316;
0x24b1e852a6168ca05bfe0e823f4a984b3b99ed9bf3f651cdd3ca31a2d93a21e9;
0x1170380f35b0c131ca5d2ea71f42fed8b3caefc4ae2ddb42ffce4c72df975521;
0x2a21146458a9b5cd2232544ec84b9c2e3c07b75cbc4a2e27f1458995a5cf7665;
0x2cf40c380da1e84026e58bca73fc8821a6956f7866bbc6591330c7b0876d1e48;
0xa4e5a8c25c79291e6e7906a8bb9897dbd91567061abbe4eb2b80f7e591abad5;
0x219cccac1ff828ee50d9413629c80b870ed290d5b2197a0b9db61960913eb29e;
0x18a4a743a05448844b46abe129001953306236ecccce1b8c885e712084ae40d9;
0x23f5c0a65d6d3f4b017a68d513413e702ab2195a12d3007589a7ad4230792a99;
0x248649d22bbd35db3c317fb6f1e20944adf80720fd085394e606fe58c93b227e;
0x1da45cba740db4b50fc4b2571e40590ad20c725af7393d2e2096f782ca8451b0;
0x59c9894d39a728ce35f569c8b59acff2a98903a73d6935236ac6ab8bb65e7d7;
0x137afc1da2a1dd16e4049c3e23951f23e5324e12fe046652beb4cda449a21cd3;
0x1c67f00b6836091d6642592a40c27b9b875f51cc9eb804221130d3f883d29765;
0xbeacd79129b9b6c793b29450ce6458c86475951ca6f0941ffaaa73622709bc;
0x1d7194f0b9970b103e3d4bd5a46b5054ab45bd42f537324cb6fec3c672cd5f0a;
0x38c741f8607a78f328725ad18d2baf8642c005429c53f5b7f9b8be51c8a507b;
0x1d32ee86d0a10d113b8400a3301ee9df0b4f9666c4c962073bab7f02f0c55e7;
0xec78e82ba602f4ab67e987ff3eb4562b0818c481c6e8febf4a4a157ecea15a;
0x2e0de6aecd184a6d47a6a7ae42b76346f15f98bc4f0f68ee1a55929939a7842a;
0x196b76cefdcc7f6a54c71d40114a0bb82694c936f1573ac7ac1ea3fcce1fe938;
0x93d13cd9b043a5b6a5acb2de0bc54de68b71c88e8d61c2c3c3bd52febfab688;
0x80fab4e2e36da9276e4610197b32d28ecff28dcf155f5db596037e41a2888ae;
0x7d2d245764c856372297c49ff64365a99137acfa81041932b4324877e33d9b6;
0xab6a369f3d47ab68ba9add80b46b610d39531e22a75a30df3f32f4bede18a73;
0x7a683cd3c4e68622283858eff121cf3a5ec2cb48763c290a4984f7e75a86139;
0x1fd44c84d9e254b1c6e60cb8c1682f5e78a5c9f9cc88e53b8bd1d8e9bf20638f;
0x2ac2bdddae01ecad6c097ec139f7d442b7a5c48c491c0a83a006e9dd1c44c9b9;
0x24a03800df78ab8dac3b172aba870efde663176598e2489fe1371f1b8fd9ce09;
0x12e453652194ddc8ff5f249f04214d2e0571ae46eda251ed66c9de6f412e08bf;
0x592a798f42fe58f27f503f2ac512286fc9a0271edbbb43d263358697b731668;
0xa92a96d55b5e02c8fe846f8cfef92f2243cbd535b6b3c0e44d3c6fcafc01963;
0x2f43e2c6e8af0638e163e2f4d34aadf2debdb3a5df531296ee2bc5dfd2aa8d41;
0x3117e986130d1c25eed39ddb3e1e4afef783e031d60bc17e0681288f2d910ca;
0x25cafbb434aee06df5f90241702018c6fe677ba0bfac46f6b5b8314ef8f5d407;
0x28b797a499c2b1082b6a674ac02ef5cc2440d6eee1ea1be1ed5a527a6e5ccc95;
0x23bf393a579394003e64cc399506807aa684314a29992e3bbb3b67fee7f50e24;
0x28656564d677d58df440de43115089a1790d1aa95183b390349688e8c8aa3e32;
0x241a69500f5e134c993252fe1052c9cd7e235d501b3b2343ee0e4857e2d0209;
0x3744e02ce85e599147162a48b8095c61ef582bd1b4027649a4b706e9d99f355;
0x59b7a17e1c0e884def789033664d88ba112980ee5d7ce4320f4b59092a493ea;
0x2a6efd68e5dabc912ec2b5f7814e6e1b7b8893acd10e93d8e88af5cece9e433f;
0x20826fe980809fbe57d7af7d60262abd566278d70e03c7dbd24798c9c991ce5b;
0x181e562d37922bad979ac96f562011311f09187613e196398d3cea64e7fcc7ca;
0x1c4e70fbd4c9e09d3b341e1a9ff87d088e6bc4d88a5cb20bc39a2216e9a2e78b;
0x170c6ee37a8fae5a940388717c1ed8237f9c2c51e0771fe1c5114f020720b1c2;
0x68712f00eae99b3109162c3a1c8a6b836031f7b3fea61477d274fc39cf53b53;
0x1937a02e7c8e39d7f3a88a82c38dc1b2b6a7f4326ceaf7aca3f8a2fd163f1388;
0x8b99b6b338adaaec87f0f4e4106e1a76938bdcb0b55d66b9af257f46da5c6de;
0x136d1108a8d4bcea80090baee33556f59dcf26a8365b6f657a6625029b73f354;
0x2d8a56738cf6dc4785fdbc68f440fa3b2d4de0d5ab6d2d7c6c11649ec2e4da65;
0x27f16feaf6fe1525cd67eef458297d1696dc45bf5f8f1ea18e17801399f3ca4f;
0x340f8d664a1afe4fbd06793842133cd43ee4e0b2173405efa10445f43a1836a;
0x196b76cefdcc7f6a54c71d40114a0bb82694c936f1573ac7ac1ea3fcce1fe938;
0x14ad435cf9a9f41fbfaa62698ea2b01d778fa6ad3e6d75d628e535cec66f6183;
0x229f1484514708285cb6c866fab78878bbc39aec362b9db5e258c101a7382806;
0x55104ec0dfbeb910aa081864bd59497cfe65acc2091c2cc675ebb7c7b2a318f;
0xd75b1f18144371f5a0de32dc9124230448f17584ef93ed84300270b6ef3d4cf;
0xa1da3a581de2337e823d10c00af64ed8152a3375abc7c8e038592893e02f879;
0x15ce644c9c753f2b508595d24c0905b3712411f8bd78c1dddb60a61e3574f50a;
0x249251029b3a7d83a4442ef27a2f3bca3edbdfca88c33095f557cececa23fa7;
0x2190e0657b7f4592ed17884e486aa0983f96d05d497f12d9bb08fcba65e146a2;
0x18e7e7d031ea4b865475eca9cfa2f156d2bebd8f57c6c66630f2b3e9bdf3aa1b;
0xc23dd68ce397790fa9d48e22108072ad02df0f80f684926ffa4b66e8871b1ee;
0x1346be394582712818b12e409e1a2f80f258be08e8f5273e4223048a6ec68596;
0x227413a36ae6153e431c4dc592eeb597ad18b0a119f1c644d8741c5d1302bf5d;
0xb0ae3714255eb9abec3c60d3e9d3852c33db950e87bc17818ff0242955aa594;
0x1f65fc46116912553c6c9bde179a09288bc29ab001fa7f58b2b36e10049da7a1;
0x1c35284edba1cd391d618754b17f642eebed4127382b82f7c28b2e70a8f70d40;
0x1080a3fde0e42ad7dd86de041cab7fdd025951641942374c1abcf62626f48a3;
0x1428eb2a1f2d91707f546af2e0a14fd6f11eee2ca12eff4d36634a08a2501d8b;
0x33503c434487731d754e92d6e8ce327ceecbae661711045060e165ed284fd29;
0x137a5d67d8c2d7d92f83451a20d0698f3ec69d9bedca8fdf23e4cc761c30895c;
0x33ff54a0543a859d10d23919d9353eb1c7df8c37cf77d71c033427f8785ef7f;
0x2ef45d95ea7a2a6ebf7cd42d1bb3eede45cceeb3c13124fe3e4bf9bd43919aef;
0x1503cc2c9f6869e97c3f356fc0888cee11b122576b7ac19e53e22e64541b864c;
0x13b7e00bb153de07cecadd2525f0400ec81c7f3f01b2f8c0d4d923626f5074db;
0x1560e82a44438c75cbe5e7bf4242e9b318e84d0f70c247b4941214a54e2ecbdd;
0x16e6cbda059ea98cd388bc97b407a150d03cbc54db44314acd2fdcb856ed59ea;
0x224e1109c1eb450d665db9aa5a324754e9de0f3645c36a4f42c06525a6a02f17;
0x1fae1e95cc145b1b611ae98352921e5621563019bcec54ef9aa0a006c5ca9c0f;
0x29c2c9268343afc2448493205d8efe3ca12ff4ba45195e125b1a585b3c15362c;
0x1745aa01a6decfbf4742ca4eb4fb46936c593a8fbb1753e4b1bd8ac26107dcb6;
0x2b8e149f0ad40ad21c74ba35026dddbf89dce7c2227dfcfc94a55130b282348d;
0x21eb20b36f906d2693f37e6b25f10a251dae88ee9e5bed97d0bfea9d95eb6155;
0x2e2d367ebd03ab9e863a272a0cb40240222f32d1ef3f7a79de99160236cde439;
0x196b76cefdcc7f6a54c71d40114a0bb82694c936f1573ac7ac1ea3fcce1fe938;
0x2e142d51bb3c63e11687bea27b03d2c1f47ff4617dcf1784fcb06139718bdc;
0x2f9a0d8d22bb17dc91fb40146ab611c24fd7aff2721139eebc67f103abaa8abe;
0x1cd3446fe74bd3cf4e8790869ca502315e2cb5e61bfd569b79e4bceba7dd18c5;
0x4882cdf369a6b624cdcdf140521e2f5d4f056d5be8938eafdab02b2b6b28365;
0xdaabd96d080089cc09b753a113f03c79cddb879fcd4fe92f64086af355320af;
0x11fada765d840371159d393d9383846a758452164778b156ad07d2f97b1c81d5;
0xf1bb77c65687d588f3afdd2e81ed31b0b14e7a6b34b3f194013310a430e72ff;
0x1b6cbbda2504b6c7157070cab18a64cfa67b25174430ae34f88f41d06a5df61c;
0x2caadb9815edd0b00891c8952f439654bff61c480d34304a559b2ee106e8555b;
0x29d647c2ff17d90d8ac500cd862bc7cf3bcd63cae45d13ba2b2f5bd819cdf00a;
0xf9577281c0113be755056c5a200c03b651cd175ef4c1c51526a262db78b6012;
0x1c7a4104b1eb344a9d10ae34fe9f0d9b944b1f27b9ad60e78d076f14b1579dd1;
0x28833764307c07236b8d64f1e872a15f26b93cbaa63062c5728b6a6126a2b3d8;
0x245ff91d36df9a9301cc998a11ea027605aea0dac30a20a32fc5b9546ff5f22d;
0x9c3b8ddc3c8a83b3dbc098cf547b51d197fa16571ca6ce1bfa603f23474188b;
0x23123b0f1690f3c61a3d7877f26f33c4c26feb8579966b878f9313f2a7bb0724;
0x2f42ef2f174748c44f63767b95d5e66b2554f75a164e00833336a9d990fe4279;
0x1d8000747e03e93c37fe21b889bdbefdc234baa290a68aba51d3517a260e6944;
0x103f779b0899d4250da3fc25d27e0444a18498ffc0bf0ce7ad7fb106ba311a18;
0x7f4c9eacabf180b840cc30448d4926692e4a4d4b6c970e0e818c5e11d7a984b;
0x17e5e03ecf01408a520c1c5bb8e1a4477b011178aec18404e414554fd78da779;
0x116cd1a5deb317ac2200d91721cb4c794fd1bdb9e04c80d222b2ae77cdfe0412;
0x259847fcd69413a8b787a452950cb9970981ce86ace933112f205b18b20af1ac;
0x7244b4174980899193f70318c4c09239a011431b1f0bd3f5c79e8e36347e52c;
0x27a6122c5882996b8b87923a9b66a2a4970c9844cd3034e847fecd91d6b13fcc;
0x2c0bef6885d9a4d76f43a29ddde616fa8174cd24ab58d4dc707ba5f924739c41;
0x2d0cd48e3952f4d64e4f37477e2c0ac65fcb78682dcd8fa4c4e9d744c1205af9;
0x8d8edc9e81dfba6cd7305c1bfe73f42d7252dbb19889e125c5c9aef137804c7;
0x20860a731c157ac1b7ad854b3b851d0c739f111995a8122aaa7147ce61355a1b;
0x2b242cf51e3fc841f925153bac6ae94b84c0e4839da70c3639ae554a2ffb538b;
0x71642f8fb008ca366c562ce0755bd0edc2cb3b1851d91871f7c217c6c17b812;
0x10628390eb8c9489dd00520c4d1f3bcb7917ee849eaec5d03d662192e40e4c05;
0x196b76cefdcc7f6a54c71d40114a0bb82694c936f1573ac7ac1ea3fcce1fe938;
0x2c657cf556552ac00d3c6a312f941c21752d80f6fb971f6f237b9f067f55ef50;
0x2274e5afd41f484d4bb846c23f4d15eec892ed12abfc57aadc71c431dec0ec94;
0x21e3eead8292384cd4e9ab89698674acf899b310c4fb1474a50ed68ab15ee79b;
0x275b0e09088d1a143b3834ed09babfca45694301eb39680c7e01456918596140;
0x129eae0d0efd6629f2846e2659d11190f995e7f7976dba6706d5275f8ae42e2b;
0x23c3296abead985b298d2f7359d6fc6b66428469efef7f33cce72f7d261e200e;
0x120eb3949a1bc6dadb99eb797c5089f6c81b8489e8d2fdb648759f9b7d950c92;
0x277b28338565bebe62ad1128dfd277e71dcc0f5cbf15884f3f4431aaa022ae2c;
0x4f36e389ff9ebb3bcd6810d8b233c0cccd2d0a9a86f0c6eced01bccdf453a94;
0x2548fa65475658066e282e043fb7e3a2e5916ad635f27977d292b0ad3ef3e4e5;
0x4565577c55373eed95c9aaf5c9d202c270ce37dc1a1a2232c856f88dff9364f;
0x233e72784c11da8ade7b9f172935e44a748c8cb94959122f9da6c7ed65a6cf10;
0x158b72f3087e0267336e27fc3921ee3a3a534b925fecb827ca25f7dc77523334;
0x15c260f3c32020be493ac81d6969ece9c8e8aab39cb11ad8c69bd97516886522;
0x2396362d574b22bf4f2b162ddb6879ae4aee803609c5af81b0cc96e1dd77fb69;
0x2d0bdfbd9147195907ed3568ae8309feb349fdff397c36b567099ae14a3770ff;
0x2cd487c6239575748dce9a1b1e9cbaaaa9df4bdbbfa64f68ab6ed9f9685898ec;
0x1e73a3297684b098cfd3e270ec4299fc88d970a924596014e9a7f602ee9b081b;
0x248862b26667bf9e71255c8473c4d4f498bf02d6fe6c554e9d6a8194b443c7b1;
0x12daded6502d15cc7ccfd3998e01c39851611629fd9a6562f628ef83c7910b8d;
0x15e998f00cc4dd24ff559089cd43bec5566f2505b8136c5ab74d9a426d875c75;
0x217fa23d5b14a9ffa837fcc744c4a64fd13e6fe162777fc834bf119df306c8c7;
0xcadcf98c06aba7c6f354cd05bb28857f3798b83111652ddda6e2f8fad6a0518;
0x1c5c0906f02d4a6e3fe315f26891dae1132436b3cfd048f897a2988abb14e005;
0x8452c4131a7a4f5730e877519de1b927a02260f56ab0e7cf23dd41010093ced;
0x72e4518998bb2aa7df1a094e4a1032a4f1651403a006aff7d8d3f8e0431b39a;
0xab9888d29232bea4dcd77c9627693a4f292375d6ab81482eb0cd718adcc4752;
0xfc2e5df60bb4a189253e73f07025b34dac9f8f6c215a26c53fa5b3b1482e105;
0x50e82e90a419f91e690625c51ad3da156afca51ed13531b0e67a3b89385273b;
0x2f88a4415d7e88cfd3cdf0a5b4bbc26b243319e20d0e4ce861a2f2a5042e93cb;
0x1e10e776d5e15e0786cd5d0ef96d1ab332eb05773833ea20cd5a19891df8da96;
0x17de64722cd216df23ac5fc20f4298bc5c23f17de82c80d361a1cc10c3f3b7a3;
0x196b76cefdcc7f6a54c71d40114a0bb82694c936f1573ac7ac1ea3fcce1fe938;
0x1b9c2c4eebbe7516481522714ccefbcf9f46b1d9acd32a7074f6e247ad6cc86c;
0x1b40c39dbad124c570125eb0b2586ec99e260411e0dd871cff7869ec3864df9;
0x33cd9b171a83f21a643c9db6174fdb0a12ed70e96e4dbcd7cd13888c4b3eb55;
0x19cb8e0c054400347facfff66eacd97d794bd61b59323af411ad0fbe2f380942;
0x26c218511f870b55f305e1787e4b19e1ab682b8c823153abf87d6b93d808e4d9;
0x29e12c794848bfe525ab81ce659d2cf1111feb3fd7118f94e22a86b6f88b53cf;
0x3a6658a834c4e3616dc5f917fa062d251c8ba4cccd09532eca0d77981b0170;
0x168adabd67838fadbbf46c9d9716f71494ab077f42cacf9c45e489d342a3e15a;
0x11742863039a6788df3464d2644c239b1929c3f16f43efaf505e2416f5e23a1c;
0x126abad95e2b51fd989173eb24d170db35879d2ed95aeb53fc43f37b92e0da48;
0x23c212335569ce5f39553eb328159fefbdba99ea37be97365fe8049e550c93da;
0x2f4dd1170cd5681dd49cffa2b31105e7f1772c10277da6436208aa1a496c0ca3;
0x1f1add5db460502e7d77a5abe06b5391bfd9363ec845f737ca6c072f46d26164;
0xde4648c15ee1c296f4bbc50fcf033680afe8764c93b524d0c7f96a17c8fa0c1;
0x2940f3f803b79a69ec13670c3bcef58b3aa6225c5ff1b9fd8bcf1ce7d9da83a9;
0x6022a2c0e67a56ca21f209520eb78989c32443d6d66a659def8fb09e41dc3b;
0x2614b22ed71c1ebf563048afad7b64934e51c6c1787f79d6cacb0cfa401692f3;
0xae0351a3f38218d3f64682ea5b4bbd19c9da2312b6d66c98a4e5793f56037b6;
0x2acb14246a8372f36e96bae26d0298d0dec2a8037325848540d092927b247af7;
0x4ac1f3bf59ff8258755878919911219c901e45d368e485fd581702935e593b8;
0x637c3722f5a87f3c148453456b4bd91dde864a8d689b73b12379558e5fe427;
0x2ed10f87c57e6e4d78f31e18f1c7e9ee7c0b59117a6d034e2ead2aae114caa32;
0x2db539eff29b1c4e93218c6e10e9552179fb7b03fc7308882fa9ada5a9eb4776;
0xcaedc62eb88ea19a6ea5fde158da87c74f591099c56a110467fcbb2dcd21f79;
0x485d5824b4d88b5c32a715605487a6b58ae93461b15110f2a7f71887069940e;
0x20fa1c1846393fc776c5868c6eb0b841e64eaf613c2005ea361b317dabbca53e;
0x2e17fb34208254172d03928de8c56b8cc29f87e29e8aef1f79b13bfb5e7ae90d;
0x1d45f577db25f490276008376cf8b59a08f20d469d8676010f7f281d5cd1aeb1;
0x48ea8cd9295a1a3e48cb22507e7237d0a6566b58e4747c0896fbefd7aa0c7c2;
0x3059196428e054d558d0e6a091559ff419ddfeab8e2aa1ba796e98849098f404;
0x1170eb002f68247115722d0638fcea7c2b7f70024953c733bc8cd94a86c23ca7;
0x25fcb5f375ff3d5cc49ca2936b121d9591be3e09fc88efeea4cf90521aa04b97;
0x196b76cefdcc7f6a54c71d40114a0bb82694c936f1573ac7ac1ea3fcce1fe938;
0x23444707325fc7683a461c2dea2173d8472c0b5b13701b34b87203bffe8f4aa4;
0x2b272e00da1d1d1d764b7da9384cd2efb8db8604c01b9f2b833a7c1520369e3b;
0x17b59a35bca179afddf24993a2a28466862328d66cf18d77e8be5f950d7f957c;
0x20460d5c7e4548772c619dbe8a220b477882005180887377c0ecb4b4c20ce625;
0xd1346ae8fcfaefc96496235e8a4b6cac300a284f97be68f0a453c55569e2e1c;
0x29d5c8e901d6f659e2c9b51f5da873c776a55de9fe0a95910c5893d9d64c180d;
0x109297c57950d5ec34e371af14fe40615e26d74a4fd2562dbaf8b0cfc0da67b5;
0xafa294b0b8973e74c6bcbcdf0953726679268df4b7ab3a0af0496d80f4e915a;
0x1ccdae789483414efc596b7a74d20cc5af2de7595d53c80c6762e599c4c19918;
0x7d80df4e972d5962e8447454033d912127d2930fd5229d1274aacb93ab35467;
0x19e7ddd05077b3710fc6cf15a1746ff3f2ce7b0ad9355bdcc599e882881b7812;
0x19c52a43b8a53bb146faf681e98fc8670800b6b9dde47ea38a849b82c1f17920;
0x2ed2fd2f3a2f78c35d4ec54a41b9941d4040bf4f0766985c776b6726746efeb7;
0x117e9b92ef305e1cecef90cb404f6b178b1d2c216e8c3bf650ad5b9f675a2446;
0x27dbe49809655461a2940850aa8c41ce6dbd5221400a9dce49f9f3ff9b04dd57;
0x8bc85ab2f7b9d3152fec37fd1c66ef688e2d71e325dba40eeed84dced4ea11;
0x18550a78308e47e5ac75a3cd82d4389a37c6918ed42bffa89dd128c6b4cd6f53;
0x22d06c4fb6f2b725a93cb9e97f08f466c2d2078953f43f4159bdafe3a9bbc2d2;
0x1f3f2ff5ea4b6044d0d142c2850a8907dece24a9e7c508c09b3b7cbf1d2db33a;
0x2985a2e4d66f1b2c18c3f647d444474d432fd597dc23671ccb3bf61c1351e990;
0x177e8a83bcc683805e1af7e744206e05fc99f85b605b10f3f0867913ff45a521;
0x97666874717688dba3d9546ff71cb3fa829d101f2bec9a191b5915ec120b658;
0x15055d2177bd83ae6ef36e4f113f7a53fff218984f73588988acb7f890461698;
0xe0197b38f1671c3fb6a078cb443ece122bfdd9f47486f3fc5ddcdafefdc9c5c;
0x78b8c01a67c4e5cb15738416497b1d4b3d8fce7631cef919eb4a39015bb5b8e;
0x26f58171d43f5d52535468f97f3f4a76a56d43bb0c8560ac98ad6fc409c6895b;
0x2db3d892f554ae8b1b5819fbd4ae79f23a1f4627383656c93be2e3ff42f7e7c1;
0x196b74fdd43c9fa4f77111911dced6856b397b19da47474fe1a8f0de62bc57fc;
0x6238d5e3cdaa238c7670efd64dbcce481815965fdd55efa8ab1706d7a43aa38;
0x22332a4ce6b7a223d45c777c7bdc960669e4a801b4a76b88b66d05039a53eea0;
0x1f88fecb08e0101e470f5dcee2c8b846d2562f89cd27d92e6b00faacae30389f;
0xc2ada53a5fcfb484d0a65c509305fa3f00db8a2f961d4515c149c85e677c8d4;
0x196b76cefdcc7f6a54c71d40114a0bb82694c936f1573ac7ac1ea3fcce1fe938;
0x1b28926cd83b4658afd2d9cfdfdce6b87aa9a072634889320a35cdcb9215e5b9;
0x15d6448f76cf1b20262428f1e416bbd1af8630fb361d7f644639ad5b60d8f180;
0x2af5dfa19ccc918de449d5d3b592e6d04d78bd796e6f07098e64630f2079d1c9;
0x19d0ff169994b50d9ca896bffbd91f7f3b5c7d9ad51363fe5f0d2fb6185c2410;
0x2755fe866df7e2d95bc2c8072e5402ca6f588b7f2734a2a54a4c519ca8297474;
0x77a07258bfa21e2ac255e20a0d31d9a01cc85cad4bc02e6921a507ed5df4728;
0x2ece250f68cd231dfbbdd343c367626f3cc413a32be08ebaf996dc8150003b5f;
0x28d5f29f5df2a1b4fb5dc798dd2fb2d9099a9bb15e06933ccb382d3f712abc56;
0x2af8e1fcf37dcf5f55699d9929ef5fc6505dfa79e061782ebc6a4bda3100fec5;
0x1a391e08a393750010adbdfa7c621d382a29b98886d241cfe0c567bb37748954;
0x1da3f4058cc2ce6554842588dafe5f4517661730183f0b99f9aeacabfc7acfcd;
0x1e3b1802005fe7296d11441c07cbea61e32baf5484d40e315cb49e2063bb4942;
0x1eca6728a58b997d09ac9d9eae05bcd86afaeec5800dfd73fb0280edc996d61b;
0x2991dada2697975e05e0f74b4a69560557d34bef132ff73f3ecce501461f59c1;
0x13a9e49e7875c154539d20cfef506535c91422054cd04aa195e12695a073487b;
0xe97ef3325ec39935456c2a330435ef106d50b3d24a74e55045c58da778d2733;
0x234fd4e50ddc42b1a40b1410ad7d9bbe27d21eb61d1b4ab05516422214059ee6;
0xce167e175eb021fe2b91b0abb90c94667ea76c9a1139b958ecf14d64c617722;
0x15871010759972a879b18a4d18bac0870013ee1f646d63f4bc63fcde2847ae87;
0x168d81f62839ab0e29c4e03c0f570f9e44bd75eecde371611e98bac9a78c51cb;
0x2c0c157479d4268e5a40179ab0a915072b91889b1eb06e1bb0e30c5936deac3b;
0x2c1c6ea12c4f9343a80fd53d4169686705ffb51d3ff2766fd4c61f803e648e85;
0x12c2c9b7086ab39752ea4a0afbd8703ba2ff66c309d48f404d7eb4edb90aadfa;
0x16a90e916477870cb13cfc1ecfa73fe9365d36854efe87db94a2d8f019a3ee83;
0x1e5674b6f90be35ef343540b191b0ee45707bdd34452407ad9035dd3bd282799;
0x2daf0fbad1fe6737f7bca405e34dd0432a4bcd5acaaae29ddf9ed8ffc1f0c336;
0x2908cd47730b9b031d14f778c53b64aec2838f3370f8832ac1fd7ab2d10a32e1;
0x1385230fd1095a5c478a798071294b8a11c9805d10d4f27b670a868deff0a451;
0x1d163c58cf48bb8e02eb3193cdfee3ef9c85133c14f87db1829663e74d10620a;
0x2e557c38674c410f4d7c72ee1a36898f9c16ccbf5bf4709f49e1e727dffa2a55;
0x1c05ef08c0686e237cccd7c9f7279e5abdbc39f7a27dda7238e73f37526346df;
0x2527d4d7449be5d202aec33259a43c5daf25db035ba558b03308203a0e33f717;
0x196b76cefdcc7f6a54c71d40114a0bb82694c936f1573ac7ac1ea3fcce1fe938;
0x10a492ae5b487f258651a3aed0227cc02f6c7a8761586894c74e50b84ad8081a;
0x2403d5c045640a3867d3fff22c33d5a7d4cc9c86fb7f746f0cfaa6cf0009165;
0x2d5d1d7a9af2b5a434066ba829ad51a9d596c775d77dce9bb5e539df0869093d;
0x9a863c700ddced174ab9a2f52feab6a6fc50d640f7cda128d3e0db7cc6d5421;
0x2aab180f6e316fad89afe18cac953fe0795ad3b267d632d4192cdf7a7f09fb6f;
0xd96040a550ca9da53410c291bb03f2597546be222c18ecc3ce1a6b934c9e79c;
0x162f27f588a7684b059dcfe87e6f50d77e0b2b7c2a04d6b2bfea5e6677c07124;
0xb923196444f67bb7b9a3549947da0d1d65c2d863062820159e7b8a15763fbe2;
0x2004eab7ce64ce5a33d093bffdb3f5c8c062629a82df11c1b9d0237219653ab7;
0x1227bf877742b79ae1f3f94f4a7d99e2ed3a6a9e531f224f865ef504a5bcaea0;
0x20f776f86d93c05c559f42775c914befee8b6a77ce89e137ee9faf414a0985d7;
0x172aa65c733a6035cda4bd931733ecb05f160dea5fac191c85b7f96c03c76ff;
0x8be42f0fb8d0bd0918ae0c9a23d6c350992a03652a1443e10676ef0aab7758f;
0x1fd0be6c49952151cd278ae5631d6760f0b7faa1da5cf1f86e88f04332962b0d;
0xf9ac50342fd157a0cf0acac7bceaf4498140817dfb573e81bc6b455122abc7;
0xcb3dfddba8d704f6abe9c8d4c31c36ba7aabd8b33866d5c34920a61a0971ca6;
0xe770f3147cb0e321701d76e1090173d30171d6cb47618e96f0391cfe89a857c;
0x737d887efe6fe8f9472901487cce5dd61e60b27b3a3987a5107cc0c747c73d3;
0x1a385e2fdbacefe3fc505c0e8866ed36657ae93f963f4d8b9af435a98cc91fab;
0x47765901d35e5b9c88c43dd5f4141cba4debe6bc675e49a08069b787252a3c1;
0x1da4a4ede36f08e2b6f0000760e022e4c87b4828f5df067037e07ed0a3db70aa;
0x847d2c6657d2fa009b736d83e33c9861b0192212fe8edd90dd9dfe16f52f861;
0x3039ed5a92b2b6ac7e0dda476285292ccd649442508936442d4d3cc1d552383;
0x77951dcf1d2ed93be5b91b720b5387db3a4097e55cc7781b69c27f5eeefe04;
0xb585622b1f5eb8fdfcaad1c3cd7f944255a4618ebfc9f9dacf339e874df620a;
0x1a2a7bbd62d97bb265d127d44fe34b17d9da8ee75813b5c51b9e16ee8dd7b402;
0xdc48ec2dabd95e06d2987fd1824a959e084d4e62d1b2c5e503b33dbe6b30d02;
0x290de95aae65845be12406a4585f7187d3d6528bf7daf00a84da01e8dfb69e1f;
0xc017e46a4f39a1669a350ee495e7ad68562b222de7114a6c101adef47853293;
0x2f0b5fb02d18a781e744403921d82e54c4919d1686d824bf4e62b2e4cc088cf9;
0xe7e699b1dd9c60f0018d874e9364210eb920583d0d2d71567d38f4333bfa474;
0x9472c6ed2b6494433a9319f2b093f2fd1923059b6002a6e896fee03e19546b8;
0x196b76cefdcc7f6a54c71d40114a0bb82694c936f1573ac7ac1ea3fcce1fe938;
0x2a8a40093e2bc9627fe39aa84ab78c1ce1265e8cbe28569136f8b83dbf1e1a0e;
0x21d9b9f7094b3462aaa61148b272fba6556514dcb39cfb47b5414ac776944f82;
0x22be02328bc62605ca6d890565b9726e83b9d8f925e702412edf291b777df027;
0x27b5d7ddef018e17569d33d8c4e9003ae36382bb57caf96bb224b724cf237254;
0x54ec141c594bace5c88a41767e82517f8dcd8e02dd54f8fdc1c7223d3614982;
0x17f76454a7d3b049dc34c09012706560351dd12ff052187ba5228c9fd5abc646;
0x189a082f5c10117ffb6b064329b31026c852cd41e01352e6c7b9d12686200598;
0xc597daf1c2a8f602322f2796a1bca2aa3101cb8c9a876ee195a9bda90da5d5b;
0x2ac2e1037357e29885d73882899652c5cdaf8560ae356bbdf7ded11c139dc663;
0x6ca950f38af807cac3b6d74cb2937af0a2287576b78fddfd7200f06e66e5f22;
0x736209bdf8c1ac643b8ecd0950d2bb4dcd8745be7c8cf64432da264fc4c6a33;
0x1e96d9fd0f2db5bcee16ce782403a3a33acad70b237106686ad0bbd8bbc00d1f;
0x2d7f5635e4b127aab06795499bb1a6c97c54806d79823ff7871e519f4081cc1c;
0x1d8d18b18dd07bb89fe0c84a7740faed098c6a2b0cde5f426fb8c8b7643bf95c;
0x28d51d4551904bbf04ec169bed853453358042ef76a08ea8d155f8677a051ccd;
0x189be365face10b9a4183d6f21048d6c36ca9c28b0720c71d72ed529654aa624;
0x130fc54477fd953377fc23abbd7a41be6764892a8787c759c1440fe0133c852d;
0x2c9c91f48661771baeef6774578a78f69c355c8e907156fdf26db39d2446413f;
0x1dec0bafa3e8190621e5e095ef751ea03c836dbb8045b2a73f8d397cfb815192;
0xa5f52ad6ec4a8aa377d8dd2ae3aaf6eea0c68c63a1d034fbda67133ca0b85cb;
0x20ab7394bfdab344cbb6f2123800a0e23508e2125bfe795ab4a767cecb4d9306;
0x110ea322b0c26476c67bfa2c1b9d1713f93b3b9cf8320ce0dcd4b64288bda07a;
0x54eabe6131681fa01fbc6dbf3e7d53595d0f8809987182142b890ac8af89cbe;
0x224d811fbdef8ec0a006d376a019e57c93bd596213a07823b7d4abce1fd8e621;
0xe691fca423128a7d4afcaa582b1a94799ba1f5d2a5d53bc2bba56bbecb227a1;
0x189e279c92de0bab66707e6e6e310524e615cd4c6aacc665372a3b8e372d8ce6;
0x1d9bcbbd17b93b1913d2f79cdf12844441237206f0294746d93f8e5bdceb4725;
0x1179184635a9780ee1312dcc3d15c7ef042b18ae9409670e28c4c7f0fb9b608e;
0xe48466182ae8333af1891a6aa19736741ed0680d57c931ede13fc07ae82e88b;
0x1c9d56f71c2f22c44d3a8c17bf5b40452e05471f0b6dfe9ffe4725eb29f73464;
0x2234546f5e8541e8f72ad794891950b32b1cd891cc66775c5b635961642e9c15;
0x14c09d155c5d428198c234b553da338f227cbc12b0e42f2b9ce71563ee1495c0].

(** constants.go 42-2325: POSEIDON_C *)
Definition POSEIDON_C (t : nat) : option (list Z) :=
  match t with
  | 2%nat => Some tabC_2
  | 3%nat => Some tabC_3
  | 4%nat => Some tabC_4
  | 5%nat => Some tabC_5
  | 6%nat => Some tabC_6
  | 7%nat => Some tabC_7
  | 8%nat => Some tabC_8
  | 9%nat => Some tabC_9
  | 10%nat => Some tabC_10
  | 11%nat => Some tabC_11
  | 12%nat => Some tabC_12
  | 13%nat => Some tabC_13
  | 14%nat => Some tabC_14
  | 15%nat => Some tabC_15
  | 16%nat => Some tabC_16
  | 17%nat => Some tabC_17
  | _ => None
  end.

(** constants.go 2327-4522: POSEIDON_M *)
Definition POSEIDON_M (t : nat) : option (list (list Z)) :=
  match t with
  | 2%nat => Some tabM_2
  | 3%nat => Some tabM_3
  | 4%nat => Some tabM_4
  | 5%nat => Some tabM_5
  | 6%nat => Some tabM_6
  | 7%nat => Some tabM_7
  | 8%nat => Some tabM_8
  | 9%nat => Some tabM_9
  | 10%nat => Some tabM_10
  | 11%nat => Some tabM_11
  | 12%nat => Some tabM_12
  | 13%nat => Some tabM_13
  | 14%nat => Some tabM_14
  | 15%nat => Some tabM_15
  | 16%nat => Some tabM_16
  | 17%nat => Some tabM_17
  | _ => None
  end.

(** constants.go 4524-6699: POSEIDON_P *)
Definition POSEIDON_P (t : nat) : option (list (list Z)) :=
  match t with
  | 2%nat => Some tabP_2
  | 3%nat => Some tabP_3
  | 4%nat => Some tabP_4
  | 5%nat => Some tabP_5
  | 6%nat => Some tabP_6
  | 7%nat => Some tabP_7
  | 8%nat => Some tabP_8
  | 9%nat => Some tabP_9
  | 10%nat => Some tabP_10
  | 11%nat => Some tabP_11
  | 12%nat => Some tabP_12
  | 13%nat => Some tabP_13
  | 14%nat => Some tabP_14
  | 15%nat => Some tabP_15
  | 16%nat => Some tabP_16
  | 17%nat => Some tabP_17
  | _ => None
  end.

(** constants.go 6701-25059: POSEIDON_S *)
Definition POSEIDON_S (t : nat) : option (list Z) :=
  match t with
  | 2%nat => Some tabS_2
  | 3%nat => Some tabS_3
  | 4%nat => Some tabS_4
  | 5%nat => Some tabS_5
  | 6%nat => Some tabS_6
  | 7%nat => Some tabS_7
  | 8%nat => Some tabS_8
  | 9%nat => Some tabS_9
  | 10%nat => Some tabS_10
  | 11%nat => Some tabS_11
  | 12%nat => Some tabS_12
  | 13%nat => Some tabS_13
  | 14%nat => Some tabS_14
  | 15%nat => Some tabS_15
  | 16%nat => Some tabS_16
  | 17%nat => Some tabS_17
  | _ => None
  end.
